(** UpdateOutP.v -- reading a document with updates and what Parse puts out for
    it (C95, C96). *)
From Verif Require Import Base BaseP Msg Reader ReaderP Num NumP Lexer Plain LexerP Obj ReadObj Bits Filters Env Getters Crypt GetObj GetObjP Regex Xref Load Extract Output Render Parse Errors
  SpecLex SpecLexP SpecObj SpecObjP SpecNumP SpecFilters FiltersP SpecRead SpecFetch SpecLook SpecStream SpecScan FetchP LookP RawP AlongP LoadInvP SpecOut SpecRecover OrderP RepairP CryptObjP DocP ScanP RecoverP ErrorsP
  SpecTotal TotalP SpecXref XrefP SpecWrite SpecFollow WriteP WriteDocP WriteLoadP WriteOutP WriteRunP SpecUpdate UpdateP UpdateLoadP UpdateFindP.
From Coq Require Import Strings.String Sorting.Permutation Sorting.Sorted.

(** ** When the entries in use are those of written objects *)
Section Found.
  Variables (E : env) (file : bytes) (D : list iobj) (p1 : pst).
  Hypothesis W : reads file p1.
  Hypothesis SH : psh p1 = new_sechandler.
  Hypothesis OF : offsets_ok (pxref p1).
  Hypothesis ND : NoDup (map inum D).
  Hypothesis XG : forall o, In o D -> exists k, object_at E file k (as_written o) /\ xget (inum o) (pxref p1) = Some (new_xentry k (igen o) 1).
  Hypothesis IU : forall n, SpecOut.in_use p1 n -> exists o, In o D /\ inum o = n.
  Lemma found_read : forall o, In o D -> fetched E file p1 (inum o) (as_written o).
  Proof.
    intros o I. destruct (XG o I) as (k & OA & X). destruct (as_written_num o) as [A1 A2]. rewrite <- A1 in X |- *.
    eapply fetch_object; [exact OA | exact W | exact SH | exact X | reflexivity | cbn; congruence | reflexivity].
  Qed.
  Lemma found_silent : forall OD fuel l w u p', order_ok OD -> extract_all E OD fuel file l p1 = (w, Ok (u, p')) -> log (prd p') = log (prd p1).
  Proof.
    intros OD fuel l w u p' OK Y. apply (all_hushed E OD fuel file p1 OK) with (l := l) (w := w) (u := u); [| exact W | exact Y]. apply plain_hushed; [exact SH |].
    intros n e XE TY. destruct (IU n) as (o & I & <-); [exists e; auto |]. destruct (XG o I) as (k & OA & X). rewrite X in XE. injection XE as <-.
    destruct (as_written_num o) as [A1 A2]. exists (as_written o). split; [apply object_readable; exact OA | split; [exact A1 | exact A2]].
  Qed.
  Lemma found_held : forall o, In o D -> fetched E file p1 (inum o) (as_written o) /\ SpecOut.in_use p1 (inum o).
  Proof. intros o I. split; [exact (found_read o I) |]. destruct (XG o I) as (k & _ & X). exists (new_xentry k (igen o) 1). split; [exact X | reflexivity]. Qed.
End Found.

(** ** Documents with updates *)
Lemma living_is : forall rs, map snd (living_at (w_layout (zlen w_version) None rs)) = living rs.
Proof. intros rs. unfold living_at. rewrite living_places. reflexivity. Qed.
Lemma updates_found : forall E rs, good_updates rs -> forall fuel ord pw, (2 <= fuel)%nat -> (List.length rs <= fuel)%nat -> (forall m, Permutation (ord m) m) ->
  let file := w_updated rs in let lay := w_layout (zlen w_version) None rs in
  exists p, load fuel E ord file pw (new_parser file) = Ok (None, p) /\ reads file p /\ log (prd p) = [] /\ psh p = new_sechandler /\
      (forall k v, newest_key k (secs_to lay) = Some v -> entry (ptrailer p) k = Some v) /\
      (forall k v, entry (ptrailer p) k = Some v -> newest_key k (secs_to lay) = Some v \/ exists d, first_of rs d /\ entry d k = Some v) /\ offsets_ok (pxref p) /\
      NoDup (map inum (living rs)) /\
      (forall o, In o (living rs) -> exists k, object_at E file k (as_written o) /\ xget (inum o) (pxref p) = Some (new_xentry k (igen o) 1)) /\
      (forall n, SpecOut.in_use p n -> exists o, In o (living rs) /\ inum o = n).
Proof.
  intros E rs GU fuel ord pw F FU P file lay. destruct (updates_loaded E rs GU fuel ord pw F FU P) as (p & L & W & LG & SH & T1 & T2 & OF & XG & IU). pose proof (updated_laid rs (good_lays rs GU)) as LW. fold lay in LW.
  exists p. split; [exact L |]. split; [exact W |]. split; [exact LG |]. split; [exact SH |]. split; [exact T1 |]. split; [exact T2 |]. split; [exact OF |]. rewrite <- (living_is rs). fold lay. split; [| split].
  - rewrite map_map. exact (living_nodup lay LW).
  - intros o I. apply in_map_iff in I. destruct I as ([k o'] & Q & I). cbn [snd] in Q. subst o'. exists k. split; [| exact (XG _ I)]. apply updated_object; [exact GU |]. exact (proj1 (living_num lay _ LW I)).
  - intros n U. destruct (IU n U) as (q & Iq & Q). exists (snd q). split; [apply in_map; exact Iq | exact Q].
Qed.
Lemma updates_read : forall E rs, good_updates rs -> forall fuel ord pw, (2 <= fuel)%nat -> (List.length rs <= fuel)%nat -> (forall m, Permutation (ord m) m) ->
  exists p, load fuel E ord (w_updated rs) pw (new_parser (w_updated rs)) = Ok (None, p) /\
    (forall o, In o (living rs) -> fetched E (w_updated rs) p (inum o) (as_written o)) /\
    (forall n, ~ In n (map inum (living rs)) -> fetched E (w_updated rs) p n {| inum := n; igen := 0; ival := OKw (lit "null"); istream := None |}) /\
    (forall k v, k <> lit "Prev" -> current_key k rs None = Some v -> entry (ptrailer p) k = Some v) /\
    (forall k v, k <> lit "Prev" -> entry (ptrailer p) k = Some v -> current_key k rs None = Some v \/ exists d, first_of rs d /\ entry d k = Some v) /\
    errors_txt p = [].
Proof.
  intros E rs GU fuel ord pw F FU P. destruct (updates_found E rs GU fuel ord pw F FU P) as (p & L & W & LG & SH & T1 & T2 & OF & ND & XG & IU).
  exists p. split; [exact L |]. split; [exact (found_read E _ _ p W SH XG) |]. split; [exact (held_null E _ _ p IU) |].
  assert (KC : forall k, k <> lit "Prev" -> newest_key k (secs_to (w_layout (zlen w_version) None rs)) = current_key k rs None).
  { intros k K. rewrite <- (key_current k K rs (zlen w_version) None None). destruct (newest_key k _); reflexivity. }
  split; [| split; [| unfold errors_txt; rewrite LG; reflexivity]].
  - intros k v K Q. apply T1. rewrite KC by exact K. exact Q.
  - intros k v K Q. rewrite <- KC by exact K. exact (T2 k v Q).
Qed.
Lemma updates_errors : forall E rs OD fuel pw w p, good_updates rs -> order_ok OD -> (2 <= fuel)%nat -> (List.length rs <= fuel)%nat ->
  parse_body E OD fuel (w_updated rs) pw (new_parser (w_updated rs)) = (w, Ok (None, p)) -> errors_txt p = [].
Proof.
  intros E rs OD fuel pw w p GU OK F FU H. destruct (body_ok _ _ _ _ _ _ _ _ _ H) as (p1 & L & X & _). destruct (X eq_refl) as (u & Y).
  destruct (updates_found E rs GU fuel (o_objects OD) pw F FU (fun m => Permutation_sym (proj1 (proj2 OK) m))) as (p' & L' & W & LG & SH & T1 & T2 & OF & ND & XG & IU).
  assert (p' = p1) by congruence. subst p'. unfold errors_txt. rewrite (found_silent E (w_updated rs) (living rs) p1 W SH XG IU OD fuel _ _ _ _ OK Y), LG. reflexivity.
Qed.
Lemma updates_out : forall E rs OD fuel S pw ops, good_updates rs -> order_ok OD -> (2 <= fuel)%nat -> (List.length rs <= fuel)%nat ->
  s_input S = Some (w_updated rs) -> parse E OD fuel S pw = (ops, Ok PNone) ->
  exists L ts, Permutation L (map as_written (living rs)) /\ Forall2 (written_object (e_fmt E)) L ts /\ content FRaw ops = List.concat (map (fun t => t ++ [x0a]) ts).
Proof.
  intros E rs OD fuel S pw ops GU OK F FU IN H. destruct (updates_found E rs GU fuel (o_objects OD) pw F FU (fun m => Permutation_sym (proj1 (proj2 OK) m))) as (p & L & W & LG & SH & T1 & T2 & OF & ND & XG & IU).
  exact (held_out E (w_updated rs) (living rs) p as_written OF ND (fun o => proj1 (as_written_num o)) (found_held E _ _ p W SH XG) IU OD fuel S pw ops OK IN L H).
Qed.
Lemma updates_return : forall E rs OD S pw, good_updates rs -> direct_kids (living rs) -> moderate_maps (living rs) -> order_ok OD -> e_verbose E <> None ->
  s_input S = Some (w_updated rs) -> (forall f, s_create S f = true) ->
  exists F, forall fuel, (F <= fuel)%nat -> exists ops, parse E OD fuel S pw = (ops, Ok PNone).
Proof.
  intros E rs OD S pw GU DK MM OK V IN CR. set (f := (2 + List.length rs)%nat).
  destruct (updates_found E rs GU f (o_objects OD) pw ltac:(unfold f; lia) ltac:(unfold f; lia) (fun m => Permutation_sym (proj1 (proj2 OK) m))) as (p & L & W & LG & SH & T1 & T2 & OF & ND & XG & IU).
  pose proof (found_read E _ _ p W SH XG) as FD. pose proof (held_null E (w_updated rs) (living rs) p IU) as FN.
  apply (parse_returns E OD S pw (w_updated rs) p f); try assumption.
  - intros n. destruct (found_all E (w_updated rs) p (living rs) W OF as_written (fun o => or_intror eq_refl) FD FN n) as (o & T & _). eauto.
  - apply (follow_names E (w_updated rs) p (living rs) W OF as_written (fun o => or_intror eq_refl) FD FN DK).
  - apply (follow_maps E (w_updated rs) p (living rs) W OF as_written (fun o => or_intror eq_refl) FD FN MM).
Qed.
(** A document without updates is as before. *)
Lemma single_revision : forall D tr, w_updated [{| rv_objects := D; rv_freed := []; rv_trailer := tr |}] = w_document D tr.
Proof.
  intros D tr. unfold w_updated, w_document, w_body, w_revisions, w_revision, w_table_at. cbn [rv_objects rv_freed rv_trailer with_prev]. rewrite zlen_app. rewrite !app_nil_r. unfold w_sect, w_entries, w_xref, w_table. cbn [flat_map]. cbv zeta. apps. reflexivity.
Qed.
