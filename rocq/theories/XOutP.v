(** XOutP.v -- what is read of, and put out for, a document with a
    cross-reference stream (C101). *)
From Verif Require Import Base BaseP Msg Reader ReaderP Num NumP Obj ReadObj Env Getters Crypt GetObj GetObjP Xref Load Extract Output Render Parse Errors
  SpecLex SpecObj SpecFilters SpecRead SpecFetch SpecLook SpecStream SpecXref FetchP RawP LoadMonoP SpecOut SpecRecover OrderP RecoverP ErrorsP
  SpecWrite WriteP WriteDocP WriteLoadP WriteOutP SpecXWrite XWriteP.
From Coq Require Import Strings.String Sorting.Permutation.

(** what is read for an object of the document *)
Definition x_wr (xs : iobj) (data : bytes) (o : iobj) : iobj := if inum o =? inum xs then x_read xs data else as_written o.
Lemma x_wr_num : forall xs data o, inum (x_wr xs data o) = inum o.
Proof. intros xs data o. unfold x_wr. destruct (Z.eqb_spec (inum o) (inum xs)) as [Q | N]; [symmetry; exact Q | exact (proj1 (as_written_num o))]. Qed.

Section XDoc.
  Variables (E : env) (D : list iobj) (xs : iobj) (d : dict) (data : bytes).
  Hypothesis GX : good_xdocument E D xs d data.
  Let file := w_xdocument D xs.
  Let D' := D ++ [xs].
  Lemma x_other : forall o, In o D -> inum o <> inum xs.
  Proof.
    intros o I Q. pose proof (lx_numbers _ _ _ _ _ GX) as ND. rewrite map_app in ND. cbn [map] in ND. apply NoDup_remove_2 in ND. apply ND. rewrite app_nil_r, <- Q. apply in_map. exact I.
  Qed.
  Lemma x_wr_list : map (x_wr xs data) D' = map as_written D ++ [x_read xs data].
  Proof.
    unfold D'. rewrite map_app. cbn [map]. f_equal; [| unfold x_wr; rewrite Z.eqb_refl; reflexivity].
    apply map_ext_in. intros o I. unfold x_wr. destruct (Z.eqb_spec (inum o) (inum xs)) as [Q | N]; [exfalso; exact (x_other o I Q) | reflexivity].
  Qed.
  (** every object is readable where it is *)
  Lemma x_all : forall k o, In (k, o) (w_places (zlen w_version) D') -> readable_at E file k (x_wr xs data o).
  Proof.
    intros k o I. destruct (x_split D xs k o I) as (pre & r & QF & QK & ID). unfold x_wr. destruct (Z.eqb_spec (inum o) (inum xs)) as [Q | N].
    - unfold D' in I. rewrite (x_places D xs) in I. apply in_app_or in I. destruct I as [I | [I | []]]; [exfalso; exact (x_other o (places_in _ _ _ _ I) Q) |]. injection I as <- <-. exact (x_readable E D xs d data GX).
    - apply in_app_or in ID. destruct ID as [ID | [<- | []]]; [| congruence]. rewrite QK. apply object_readable. eapply good_at; [exact (gx_objects _ _ _ _ _ GX o ID) | exact QF].
  Qed.
  (** the state after loading *)
  Definition x_state (p : pst) : Prop := reads file p /\ log (prd p) = [] /\ psh p = new_sechandler /\ (forall k, entry (ptrailer p) k = entry d k) /\ offsets_ok (pxref p) /\
    (forall k o, In (k, o) (w_places (zlen w_version) D') -> xget (inum o) (pxref p) = Some (x_entry xs k o)) /\ (forall n, SpecOut.in_use p n -> exists o, In o D' /\ inum o = n).
  Lemma x_after : forall fuel ord pw r p, (forall m, Permutation (ord m) m) -> load fuel E ord file pw (new_parser file) = Ok (r, p) -> r = None /\ x_state p.
  Proof.
    intros fuel ord pw r p P L. destruct (x_loaded E D xs d data GX (gx_plain _ _ _ _ _ GX)) as (F & H). destruct (H F ord pw (le_n _) P) as (p' & L' & R).
    pose proof (load_det _ _ _ _ _ _ _ _ _ L L') as Q. injection Q as -> ->. split; [reflexivity | exact R].
  Qed.
  Lemma entry_fit : forall k o, inum o = inum (x_wr xs data o) /\ x_off (x_entry xs k o) = k /\ x_gen (x_entry xs k o) = igen o /\ x_type (x_entry xs k o) = 1.
  Proof. intros k o. split; [symmetry; apply x_wr_num |]. unfold x_entry. destruct (_ =? _); auto. Qed.
  Lemma gen_fit : forall o, In o D' -> igen (x_wr xs data o) = igen o.
  Proof.
    intros o I. unfold x_wr. destruct (Z.eqb_spec (inum o) (inum xs)) as [Q | N]; [| exact (proj2 (as_written_num o))].
    rewrite (x_same E D xs d data GX o I Q). reflexivity.
  Qed.
  Lemma x_held : forall p, x_state p -> forall o, In o D' -> fetched E file p (inum o) (x_wr xs data o) /\ SpecOut.in_use p (inum o).
  Proof.
    intros p (W & LG & SH & TR & OF & XG & IU) o I. destruct (place_of D' o I) as (k & K). destruct (entry_fit k o) as (N1 & N2 & N3 & N4). pose proof (XG k o K) as X.
    split; [| eexists; split; [exact X | exact N4]]. rewrite N1 in X |- *.
    destruct (fetch_readable E file k (x_wr xs data o) p (x_entry xs k o) (x_all k o K) W SH X N2) as (f & q & G & _); [rewrite (gen_fit o I); exact N3 | exact N4 |]. exists f, q. exact G.
  Qed.

  Lemma xdocument_read : exists F, forall fuel ord pw, (F <= fuel)%nat -> (forall m, Permutation (ord m) m) ->
    exists p, load fuel E ord file pw (new_parser file) = Ok (None, p) /\
      (forall o, In o D -> fetched E file p (inum o) (as_written o)) /\ fetched E file p (inum xs) (x_read xs data) /\
      (forall n, ~ In n (map inum (D ++ [xs])) -> fetched E file p n {| inum := n; igen := 0; ival := OKw (lit "null"); istream := None |}) /\
      (forall k, entry (ptrailer p) k = entry d k) /\ errors_txt p = [].
  Proof.
    destruct (x_loaded E D xs d data GX (gx_plain _ _ _ _ _ GX)) as (F & H). exists F. intros fuel ord pw LE P. destruct (H fuel ord pw LE P) as (p & L & S1). exists p. split; [exact L |]. pose proof (x_held p S1) as FD.
    destruct S1 as (W & LG & SH & TR & OF & XG & IU). split; [| split; [| split; [exact (held_null E _ D' p IU) | split; [exact TR | unfold errors_txt; rewrite LG; reflexivity]]]].
    - intros o I. destruct (FD o) as [G _]; [apply in_or_app; left; exact I |]. unfold x_wr in G. destruct (Z.eqb_spec (inum o) (inum xs)) as [Q | N]; [exfalso; exact (x_other o I Q) | exact G].
    - destruct (FD xs) as [G _]; [apply in_or_app; right; left; reflexivity |]. unfold x_wr in G. rewrite Z.eqb_refl in G. exact G.
  Qed.
  Lemma xdocument_errors : forall OD fuel pw w p, order_ok OD -> parse_body E OD fuel file pw (new_parser file) = (w, Ok (None, p)) -> errors_txt p = [].
  Proof.
    intros OD fuel pw w p OK H. destruct (body_ok _ _ _ _ _ _ _ _ _ H) as (p1 & L & X & _). destruct (X eq_refl) as (u & Y).
    destruct (x_after _ _ _ _ _ (fun m => Permutation_sym (proj1 (proj2 OK) m)) L) as (_ & W & LG & SH & TR & OF & XG & IU).
    unfold errors_txt. rewrite (all_hushed E OD fuel file p1 OK) with (l := o_xref OD (pxref p1)) (w := w) (u := u); [rewrite LG; reflexivity | | exact W | exact Y]. apply plain_hushed; [exact SH |].
    intros n e XE TY. destruct (IU n) as (o & I & <-); [exists e; auto |]. destruct (place_of D' o I) as (k & K). rewrite (XG k o K) in XE. injection XE as <-. destruct (entry_fit k o) as (N1 & N2 & N3 & N4).
    exists (x_wr xs data o). rewrite N2, N3. split; [exact (x_all k o K) | split; [symmetry; exact N1 | exact (gen_fit o I)]].
  Qed.
  Lemma xdocument_out : forall OD fuel S pw ops, order_ok OD -> s_input S = Some file -> parse E OD fuel S pw = (ops, Ok PNone) ->
    exists L ts, Permutation L (map as_written D ++ [x_read xs data]) /\ Forall2 (written_object (e_fmt E)) L ts /\
      content FRaw ops = List.concat (map (fun t => t ++ [x0a]) ts).
  Proof.
    intros OD fuel S pw ops OK IN H. destruct (parse_raw _ _ _ _ _ _ OK H) as (file' & p1 & IN' & L & _). assert (file' = file) by congruence. subst file'.
    destruct (x_after _ _ _ _ _ (fun m => Permutation_sym (proj1 (proj2 OK) m)) L) as (_ & S1). pose proof (x_held p1 S1) as FD. destruct S1 as (W & LG & SH & TR & OF & XG & IU).
    rewrite <- x_wr_list. exact (held_out E file D' p1 (x_wr xs data) OF (lx_numbers _ _ _ _ _ GX) (x_wr_num xs data) FD IU OD fuel S pw ops OK IN L H).
  Qed.
End XDoc.
