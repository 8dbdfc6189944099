(** LinearOutP.v -- reading a linearized document (C118). *)
From Verif Require Import Base BaseP Msg Reader ReaderP Num NumP Lexer Plain LexerP Obj ReadObj Bits Filters Env Getters Crypt GetObj GetObjP Regex Xref Load Extract Output Render Parse Errors
  SpecLex SpecLexP SpecObj SpecObjP SpecRead SpecFetch SpecLook SpecStream SpecScan FetchP LookP RawP AlongP LoadInvP LoadMonoP SpecOut SpecRecover OrderP RepairP CryptObjP DocP ScanP RecoverP ErrorsP
  SpecTotal TotalP SpecXref XrefP SpecWrite SpecFollow WriteP WriteDocP WriteLoadP WriteOutP WriteRunP SpecUpdate UpdateP UpdateLoadP UpdateFindP UpdateOutP SpecLinear LinearP LinearLoadP.
From Coq Require Import Strings.String Sorting.Permutation.

Lemma linear_found : forall E x, good_linear x -> forall fuel ord pw, (2 <= fuel)%nat -> (forall m, Permutation (ord m) m) -> let file := w_linear x in
  exists p, load fuel E ord file pw (new_parser file) = Ok (None, p) /\ reads file p /\ log (prd p) = [] /\ psh p = new_sechandler /\
    (forall k v, ln_all_keys x k = Some v -> entry (ptrailer p) k = Some v) /\
    (forall k v, entry (ptrailer p) k = Some v -> ln_all_keys x k = Some v \/ exists d, ln_stray x d /\ entry d k = Some v) /\ offsets_ok (pxref p) /\
    (forall o, In o (ln_objects x) -> exists k, object_at E file k (as_written o) /\ xget (inum o) (pxref p) = Some (new_xentry k (igen o) 1)) /\
    (forall n, SpecOut.in_use p n -> exists o, In o (ln_objects x) /\ inum o = n).
Proof.
  intros E x GL fuel ord pw F P file. destruct (linear_loaded E x GL fuel ord pw F P) as (p & L & W & LG & SH & T1 & T2 & OF & XG & IU). exists p. split; [exact L |]. split; [exact W |]. split; [exact LG |]. split; [exact SH |]. split; [exact T1 |]. split; [exact T2 |]. split; [exact OF |]. split.
  - intros o I. destruct (ln_place_of x o I) as (k & K). exists k. split; [apply linear_object; assumption | exact (XG (k, o) K)].
  - intros n U. destruct (IU n U) as ([k o] & I & Q). exists o. split; [eapply ln_places_in; exact I | exact Q].
Qed.
Lemma ln_keys : forall x k, k <> lit "Prev" -> ln_all_keys x k = ln_key x k.
Proof.
  intros x k N. unfold ln_all_keys, ln_key. cbn [with_prev]. assert (Q : entry (ln_main x ++ [(lit "Prev", ONum (num_of_Z (ln_prev x)))]) k = entry (ln_main x) k); [| rewrite Q; destruct (entry (ln_main x) k); reflexivity].
  induction (ln_main x) as [| [k' v] d IH]; cbn [app entry]; [destruct (list_eq_dec Byte.byte_eq_dec k (lit "Prev")); [contradiction | reflexivity] |]. destruct (list_eq_dec Byte.byte_eq_dec k k'); [reflexivity | exact IH].
Qed.
Lemma linear_read : forall E x, good_linear x -> forall fuel ord pw, (2 <= fuel)%nat -> (forall m, Permutation (ord m) m) ->
  exists p, load fuel E ord (w_linear x) pw (new_parser (w_linear x)) = Ok (None, p) /\
    (forall o, In o (ln_objects x) -> fetched E (w_linear x) p (inum o) (as_written o)) /\
    (forall n, ~ In n (map inum (ln_objects x)) -> fetched E (w_linear x) p n {| inum := n; igen := 0; ival := OKw (lit "null"); istream := None |}) /\
    (forall k v, k <> lit "Prev" -> ln_key x k = Some v -> entry (ptrailer p) k = Some v) /\
    (forall k v, k <> lit "Prev" -> entry (ptrailer p) k = Some v -> ln_key x k = Some v \/ exists d, ln_stray x d /\ entry d k = Some v) /\
    errors_txt p = [].
Proof.
  intros E x GL fuel ord pw F P. destruct (linear_found E x GL fuel ord pw F P) as (p & L & W & LG & SH & T1 & T2 & OF & XG & IU).
  exists p. split; [exact L |]. split; [exact (found_read E _ _ p W SH XG) |]. split; [exact (held_null E _ _ p IU) |]. split; [| split; [| unfold errors_txt; rewrite LG; reflexivity]].
  - intros k v K Q. apply T1. rewrite ln_keys by exact K. exact Q.
  - intros k v K Q. rewrite <- ln_keys by exact K. exact (T2 k v Q).
Qed.
Lemma linear_state : forall E x, good_linear x -> forall fuel ord pw p, (forall m, Permutation (ord m) m) -> load fuel E ord (w_linear x) pw (new_parser (w_linear x)) = Ok (None, p) ->
  reads (w_linear x) p /\ offsets_ok (pxref p) /\ (forall o, In o (ln_objects x) -> fetched E (w_linear x) p (inum o) (as_written o) /\ SpecOut.in_use p (inum o)) /\ (forall n, SpecOut.in_use p n -> exists o, In o (ln_objects x) /\ inum o = n) /\
  log (prd p) = [] /\ psh p = new_sechandler /\ (forall o, In o (ln_objects x) -> exists k, object_at E (w_linear x) k (as_written o) /\ xget (inum o) (pxref p) = Some (new_xentry k (igen o) 1)).
Proof.
  intros E x GL fuel ord pw p P L. destruct (linear_found E x GL 2 ord pw (le_n _) P) as (p' & L' & W & LG & SH & T1 & T2 & OF & XG & IU). pose proof (load_det _ _ _ _ _ _ _ _ _ L L') as Q. assert (p' = p) by congruence. subst p'.
  split; [exact W |]. split; [exact OF |]. split; [exact (found_held E _ _ p W SH XG) |]. split; [exact IU |]. split; [exact LG |]. split; [exact SH | exact XG].
Qed.
Lemma linear_errors : forall E x OD fuel pw w p, good_linear x -> order_ok OD -> parse_body E OD fuel (w_linear x) pw (new_parser (w_linear x)) = (w, Ok (None, p)) -> errors_txt p = [].
Proof.
  intros E x OD fuel pw w p GL OK H. destruct (body_ok _ _ _ _ _ _ _ _ _ H) as (p1 & L & X & _). destruct (X eq_refl) as (u & Y).
  destruct (linear_state E x GL _ _ _ _ (fun m => Permutation_sym (proj1 (proj2 OK) m)) L) as (W & OF & _ & IU & LG & SH & XG).
  unfold errors_txt. rewrite (found_silent E (w_linear x) (ln_objects x) p1 W SH XG IU OD fuel _ _ _ _ OK Y), LG. reflexivity.
Qed.
Lemma linear_return : forall E x OD S pw, good_linear x -> direct_kids (ln_objects x) -> moderate_maps (ln_objects x) -> order_ok OD -> e_verbose E <> None ->
  s_input S = Some (w_linear x) -> (forall f, s_create S f = true) ->
  exists F, forall fuel, (F <= fuel)%nat -> exists ops, parse E OD fuel S pw = (ops, Ok PNone).
Proof.
  intros E x OD S pw GL DK MM OK V IN CR. destruct (linear_found E x GL 2 (o_objects OD) pw (le_n _) (fun m => Permutation_sym (proj1 (proj2 OK) m))) as (p & L & W & LG & SH & T1 & T2 & OF & XG & IU).
  pose proof (found_read E _ _ p W SH XG) as FD. pose proof (held_null E (w_linear x) (ln_objects x) p IU) as FN.
  apply (parse_returns E OD S pw (w_linear x) p 2); try assumption.
  - intros n. destruct (found_all E (w_linear x) p (ln_objects x) W OF as_written (fun o => or_intror eq_refl) FD FN n) as (o & T & _). eauto.
  - apply (follow_names E (w_linear x) p (ln_objects x) W OF as_written (fun o => or_intror eq_refl) FD FN DK).
  - apply (follow_maps E (w_linear x) p (ln_objects x) W OF as_written (fun o => or_intror eq_refl) FD FN MM).
Qed.
