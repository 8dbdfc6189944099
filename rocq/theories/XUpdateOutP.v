(** XUpdateOutP.v -- reading a document whose updates have cross-reference
    streams (C111). *)
From Verif Require Import Base BaseP Msg Reader ReaderP Num NumP Obj ReadObj Env Getters Crypt GetObj GetObjP Xref Load Extract Output Render Parse Errors
  SpecLex SpecObj SpecFilters SpecRead SpecFetch SpecLook SpecStream SpecXref FetchP RawP LoadMonoP SpecOut SpecRecover OrderP RecoverP ErrorsP
  SpecWrite WriteP WriteDocP WriteLoadP WriteOutP SpecXWrite XWriteP SpecUpdate SpecXUpdate XUpdateP XUpdateLoadP XUpdateFindP.
From Coq Require Import Strings.String Sorting.Permutation.

Section XUpdated.
  Variables (E : env) (rs : list xrevision).
  Hypothesis GU : good_xupdates E rs.
  Let file := w_xupdated rs.
  (** the state after loading *)
  Definition xu_state (p : pst) : Prop := reads file p /\ log (prd p) = [] /\ psh p = new_sechandler /\
    (forall k v, xkey k rs = Some v -> entry (ptrailer p) k = Some v) /\
    (forall k v, entry (ptrailer p) k = Some v -> xkey k rs = Some v \/ exists d, xfirst_of rs d /\ entry d k = Some v) /\ offsets_ok (pxref p) /\
    NoDup (map inum (xliving rs)) /\
    (forall o, In o (xliving rs) -> exists k e, readable_at E file k o /\ xget (inum o) (pxref p) = Some e /\ x_off e = k /\ x_gen e = igen o /\ x_type e = 1) /\
    (forall n, SpecOut.in_use p n -> exists o, In o (xliving rs) /\ inum o = n).
  Lemma xu_loaded : exists F, forall fuel ord pw, (F <= fuel)%nat -> (forall m, Permutation (ord m) m) -> exists p, load fuel E ord file pw (new_parser file) = Ok (None, p) /\ xu_state p.
  Proof.
    destruct (all_says E _ (xupdated_laid E rs GU)) as (M & QM & SY). destruct (xupdates_loaded E rs M GU QM SY) as (F & H). exists F. intros fuel ord pw LE P.
    destruct (H fuel ord pw LE P) as (p & L & W & LG & SH & T1 & T2 & OF & XG & IU). exists p. split; [exact L |]. split; [exact W |]. split; [exact LG |]. split; [exact SH |]. split; [exact T1 |]. split; [exact T2 |]. split; [exact OF |].
    rewrite <- (m_xliving rs M QM). split; [| split].
    - rewrite map_map. exact (m_living_nodup E M SY).
    - intros o I. apply in_map_iff in I. destruct I as (t & <- & I). destruct (XG t I) as (e & X & OFF & G & TY & _). exists (t_at t), e. split; [| auto]. apply (spot_readable E rs M GU QM SY). apply m_living_all. exact I.
    - intros n U. destruct (IU n U) as (t & I & Q). exists (t_obj t). split; [apply in_map; exact I | exact Q].
  Qed.
  Lemma xu_after : forall fuel ord pw r p, (forall m, Permutation (ord m) m) -> load fuel E ord file pw (new_parser file) = Ok (r, p) -> r = None /\ xu_state p.
  Proof.
    intros fuel ord pw r p P L. destruct xu_loaded as (F & H). destruct (H F ord pw (le_n _) P) as (p' & L' & R).
    pose proof (load_det _ _ _ _ _ _ _ _ _ L L') as Q. injection Q as -> ->. split; [reflexivity | exact R].
  Qed.
  Lemma xu_held : forall p, xu_state p -> forall o, In o (xliving rs) -> fetched E file p (inum o) o /\ SpecOut.in_use p (inum o).
  Proof.
    intros p (W & LG & SH & T1 & T2 & OF & ND & XG & IU) o I. destruct (XG o I) as (k & e & RA & X & N2 & N3 & N4). split; [| exists e; auto].
    destruct (fetch_readable E file k o p e RA W SH X N2 N3 N4) as (f & q & G & _). exists f, q. exact G.
  Qed.
  Lemma xupdates_read : exists F, forall fuel ord pw, (F <= fuel)%nat -> (forall m, Permutation (ord m) m) ->
    exists p, load fuel E ord file pw (new_parser file) = Ok (None, p) /\
      (forall o, In o (xliving rs) -> fetched E file p (inum o) o) /\
      (forall n, ~ In n (map inum (xliving rs)) -> fetched E file p n {| inum := n; igen := 0; ival := OKw (lit "null"); istream := None |}) /\
      (forall k v, xkey k rs = Some v -> entry (ptrailer p) k = Some v) /\
      (forall k v, entry (ptrailer p) k = Some v -> xkey k rs = Some v \/ exists d, xfirst_of rs d /\ entry d k = Some v) /\ errors_txt p = [].
  Proof.
    destruct xu_loaded as (F & H). exists F. intros fuel ord pw LE P. destruct (H fuel ord pw LE P) as (p & L & S1). exists p. split; [exact L |]. pose proof (xu_held p S1) as FD.
    destruct S1 as (W & LG & SH & T1 & T2 & OF & ND & XG & IU). split; [intros o I; exact (proj1 (FD o I)) |]. split; [exact (held_null E _ _ p IU) |]. split; [exact T1 |]. split; [exact T2 | unfold errors_txt; rewrite LG; reflexivity].
  Qed.
  Lemma xupdates_errors : forall OD fuel pw w p, order_ok OD -> parse_body E OD fuel file pw (new_parser file) = (w, Ok (None, p)) -> errors_txt p = [].
  Proof.
    intros OD fuel pw w p OK H. destruct (body_ok _ _ _ _ _ _ _ _ _ H) as (p1 & L & X & _). destruct (X eq_refl) as (u & Y).
    destruct (xu_after _ _ _ _ _ (fun m => Permutation_sym (proj1 (proj2 OK) m)) L) as (_ & W & LG & SH & T1 & T2 & OF & ND & XG & IU).
    unfold errors_txt. rewrite (all_hushed E OD fuel file p1 OK) with (l := o_xref OD (pxref p1)) (w := w) (u := u); [rewrite LG; reflexivity | | exact W | exact Y]. apply plain_hushed; [exact SH |].
    intros n e XE TY. destruct (IU n) as (o & I & <-); [exists e; auto |]. destruct (XG o I) as (k & e' & RA & X' & N2 & N3 & N4). assert (e' = e) by congruence. subst e'. exists o. rewrite N2, N3. auto.
  Qed.
End XUpdated.
