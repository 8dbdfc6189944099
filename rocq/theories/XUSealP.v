(** XUSealP.v -- reading back an encrypted document whose updates have
    cross-reference streams (C113). *)
From Verif Require Import Base BaseP Msg Reader ReaderP Num NumP Lexer Plain LexerP Obj ReadObj Bits Filters Env Getters Crypt GetObj GetObjP Regex Xref Security Load Extract Output Render Parse Errors
  SpecLex SpecLexP SpecObj SpecObjP SpecNumP SpecFilters FiltersP SpecRead SpecFetch SpecLook SpecStream SpecScan ReadP StreamObjP FetchP LookP RawP AlongP LoadInvP SpecOut SpecRecover OrderP RepairP CryptObjP DocP ScanP RecoverP ErrorsP
  SpecTotal TotalP SpecXref XrefP LoadMonoP SpecCrypt SpecSecurity SecurityP SpecCryptDoc CryptDocP SpecWrite SpecFollow WriteP WriteDocP WriteLoadP WriteOutP WriteRunP SpecSeal SealP SpecXWrite XWriteP SpecUpdate UpdateP UpdateFindP XSealP SpecUSeal USealP
  SpecXUpdate XUpdateP XUpdateLoadP XUpdateFindP SpecXUSeal.
From Coq Require Import Strings.String Sorting.Permutation Sorting.Sorted.

Section Lists.
  Variables (R : iobj -> iobj -> Prop) (M : list melement).
  Hypothesis RN : forall o c, R o c -> inum c = inum o.
  (** the spot [t] is an encrypted object or a stream *)
  Definition spot_of (o : iobj) (t : spot) : Prop :=
    (exists m k c, In m M /\ In (k, c) (w_places (m_off m) (xv_objects (m_rev m))) /\ t = (k, as_written c, new_xentry k (igen c) 1) /\ R o c) \/
    (exists m, In m M /\ t = m_own m /\ o = t_obj (m_own m)).
  Lemma spot_num : forall o t, spot_of o t -> t_num t = inum o.
  Proof. intros o t [(m & k & c & _ & _ & -> & H) | (m & _ & -> & ->)]; [| reflexivity]. unfold t_num, t_obj. cbn [fst snd]. rewrite (proj1 (as_written_num c)). apply RN. exact H. Qed.
  Lemma spot_nums : forall l T, Forall2 spot_of l T -> map t_num T = map inum l.
  Proof. intros l T F. induction F as [| o t l T H _ IH]; [reflexivity |]. cbn [map]. rewrite IH, (spot_num o t H). reflexivity. Qed.
  Lemma spots_at : forall m, In m M -> forall D objs, Forall2 R D objs -> forall off, (forall k c, In (k, c) (w_places off objs) -> In (k, c) (w_places (m_off m) (xv_objects (m_rev m)))) ->
    Forall2 spot_of D (map (fun p => (fst p, as_written (snd p), new_xentry (fst p) (igen (snd p)) 1)) (w_places off objs)).
  Proof.
    intros m Im D objs F. induction F as [| o c D objs H _ IH]; intros off P; [constructor |]. cbn [w_places map fst snd]. constructor.
    - left. exists m, off, c. split; [exact Im |]. split; [apply P; left; reflexivity |]. auto.
    - apply IH. intros k x I. apply P. right. exact I.
  Qed.
  Lemma spots_of : forall D m, In m M -> Forall2 R D (xv_objects (m_rev m)) -> Forall2 spot_of (rv_objects (cleared D (m_rev m))) (m_spots m).
  Proof.
    intros D m Im F. cbn [cleared rv_objects]. unfold m_spots. apply Forall2_app; [| constructor; [right; exists m; auto | constructor]].
    eapply spots_at; [exact Im | exact F | auto].
  Qed.
  Lemma clear_after : forall D m l T, In m M -> Forall2 R D (xv_objects (m_rev m)) -> Forall2 spot_of l T -> Forall2 spot_of (after l (cleared D (m_rev m))) (m_after T m).
  Proof.
    intros D m l T Im FD F. pose proof (spots_of D m Im FD) as FS. unfold after, m_after. apply Forall2_app; [| exact FS].
    assert (TT : forall n, touched m n = touches (cleared D (m_rev m)) n).
    { intros n. unfold touched, touches. cbn [xv_read cleared rv_freed]. replace (map inum (rv_objects (xv_read (m_rev m)))) with (map inum (rv_objects (cleared D (m_rev m)))); [reflexivity |].
      rewrite <- (spot_nums _ _ FS), m_spots_nums. cbn [xv_read rv_objects]. unfold xv_all. rewrite !map_app, map_map. cbn [map x_read inum]. f_equal. apply map_ext. intros o. symmetry. exact (proj1 (as_written_num o)). }
    induction F as [| o t l T H _ IH]; [constructor |]. cbn [filter]. rewrite TT, (spot_num o t H). destruct (negb (touches (cleared D (m_rev m)) (inum o))); [constructor; assumption | exact IH].
  Qed.
  Lemma clear_living : forall M' Ds l T, (forall m, In m M' -> In m M) -> Forall2 (fun D m => Forall2 R D (xv_objects (m_rev m))) Ds M' -> Forall2 spot_of l T ->
    Forall2 spot_of (fold_left after (clear_updates Ds (map m_rev M')) l) (fold_left m_after M' T).
  Proof.
    induction M' as [| m M' IH]; intros Ds l T IN F FL; inversion F as [| D m' Ds' M1 FD F']; subst; [exact FL |]. unfold clear_updates. cbn [map combine fold_left fst snd]. apply IH; [intros x I; apply IN; right; exact I | exact F' |].
    apply clear_after; [apply IN; left; reflexivity | exact FD | exact FL].
  Qed.
  (** the objects and the streams apart *)
  Lemma spots_apart : forall l T, Forall2 spot_of l T -> exists D at_ XS, Permutation l (D ++ XS) /\ Forall2 R D (map snd at_) /\ Permutation (map t_num T) (map inum (map snd at_ ++ XS)) /\
    (forall k c, In (k, c) at_ -> exists m, In m M /\ In (k, c) (w_places (m_off m) (xv_objects (m_rev m))) /\ In (k, as_written c, new_xentry k (igen c) 1) T) /\
    (forall o, In o XS -> exists m, In m M /\ In (m_own m) T /\ o = t_obj (m_own m)).
  Proof.
    intros l T F. induction F as [| o t l T H _ (D & at_ & XS & P1 & FD & P2 & A1 & A2)].
    - exists [], [], []. split; [constructor |]. split; [constructor |]. split; [constructor |]. split; [intros k c [] | intros o []].
    - destruct H as [(m & k & c & Im & I & -> & H) | (m & Im & -> & ->)].
      + exists (o :: D), ((k, c) :: at_), XS. split; [constructor; exact P1 |]. split; [constructor; assumption |]. split.
        { cbn [map snd app]. unfold t_num at 1, t_obj. cbn [fst snd]. rewrite (proj1 (as_written_num c)). constructor. exact P2. }
        split; [intros k' c' [Q | I'] | intros x I'].
        * injection Q as <- <-. exists m. split; [exact Im |]. split; [exact I | left; reflexivity].
        * destruct (A1 k' c' I') as (m' & B1 & B2 & B3). exists m'. split; [exact B1 |]. split; [exact B2 | right; exact B3].
        * destruct (A2 x I') as (m' & B1 & B2 & B3). exists m'. split; [exact B1 |]. split; [right; exact B2 | exact B3].
      + exists D, at_, (t_obj (m_own m) :: XS). split; [apply Permutation_cons_app; exact P1 |]. split; [exact FD |]. split.
        { rewrite map_app in *. cbn [map]. apply Permutation_cons_app. exact P2. }
        split; [intros k' c' I' | intros x [<- | I']].
        * destruct (A1 k' c' I') as (m' & B1 & B2 & B3). exists m'. split; [exact B1 |]. split; [exact B2 | right; exact B3].
        * exists m. split; [exact Im |]. split; [left; reflexivity | reflexivity].
        * destruct (A2 x I') as (m' & B1 & B2 & B3). exists m'. split; [exact B1 |]. split; [right; exact B2 | exact B3].
  Qed.
End Lists.
Lemma clear_key : forall k Ds cs was, List.length Ds = List.length cs -> current_key k (clear_updates Ds cs) was = current_key k (map xv_read cs) was.
Proof.
  intros k. induction Ds as [| D Ds IH]; intros [| c cs] was Q; try discriminate Q; [reflexivity |]. injection Q as Q. unfold clear_updates. cbn [combine map current_key fst snd cleared xv_read rv_trailer]. apply IH. exact Q.
Qed.

Section XUSealed.
  Variables (E : env) (Ds : list (list iobj)) (cs : list xrevision) (pr : params) (pw : bytes).
  Hypothesis M16 : forall x, List.length (e_md5 E x) = 16%nat.
  Hypothesis SU : sealed_xupdates E Ds cs pr pw.
  Let file := w_xupdated cs.
  Let rs := clear_updates Ds cs.
  Definition xusealed_state (p : pst) : Prop := reads file p /\ offsets_ok (pxref p) /\
    (forall o, In o (living rs) -> fetched E file p (inum o) o /\ SpecOut.in_use p (inum o)) /\
    (forall n, SpecOut.in_use p n -> exists o, In o (living rs) /\ inum o = n) /\
    (forall k v, current_key k rs None = Some v -> entry (ptrailer p) k = Some v) /\
    (forall k v, entry (ptrailer p) k = Some v -> current_key k rs None = Some v \/ exists d, xfirst_of cs d /\ entry d k = Some v) /\ log (prd p) = [] /\
    (forall n e, xget n (pxref p) = Some e -> x_type e = 1 -> forall q, kept file p q -> exists f o q', GetObject f E file n q = Ok (o, q') /\ log (prd q') = log (prd q)).
  Lemma xusealed_spots : exists M R n0 s, map fst M = x_layout (zlen w_version) None cs /\ Forall (says E) M /\
    R = (fun o x => n0 = Some (inum o) /\ x = o \/ n0 <> Some (inum o) /\ sealed_object E (file_key E pr pw (pr_n pr)) s o x) /\
    (exists enc, encrypt_entry (living rs) enc (current_key (lit "Encrypt") rs None) n0 /\ handler (trailers rs) enc pr /\ user_password E pr pw /\ scheme_of enc pr s /\ no_aes s /\ no_default enc s) /\
    (forall k, current_key k rs None = xkey k cs) /\ (forall o c, R o c -> inum c = inum o) /\ Forall2 (spot_of R M) (living rs) (m_living M).
  Proof.
    destruct SU as [LU (enc & n0 & s & EE & HD & UP & SO & NA & NDF & FR)]. destruct (all_says E _ (xupdated_laid E cs LU)) as (M & QM & SY).
    assert (RV : map m_rev M = cs).
    { transitivity (map (fun x : xelement => snd x) (map fst M)); [rewrite map_map; reflexivity |]. rewrite QM. generalize (zlen w_version), (@None Z). clear. induction cs as [| r l IH]; intros off pv; [reflexivity |]. cbn [x_layout map snd]. rewrite IH. reflexivity. }
    set (R := fun o x => n0 = Some (inum o) /\ x = o \/ n0 <> Some (inum o) /\ sealed_object E (file_key E pr pw (pr_n pr)) s o x) in *.
    assert (RN : forall o c, R o c -> inum c = inum o) by (intros o c [[_ ->] | [_ H]]; [reflexivity | exact (proj1 (sealed_nums _ _ _ _ _ H))]).
    exists M, R, n0, s. split; [exact QM |]. split; [exact SY |]. split; [reflexivity |]. split; [exists enc; auto 8 |]. split; [| split; [exact RN |]].
    - intros k. unfold rs. rewrite clear_key; [reflexivity |]. clear - FR. induction FR; [reflexivity | cbn; congruence].
    - unfold living, m_living, rs. rewrite <- RV at 1. apply (clear_living R M RN); [auto | | constructor]. rewrite <- RV in FR. clear - FR. revert Ds FR. induction M as [| m M IH]; intros Ds FR; inversion FR; subst; constructor; auto.
  Qed.
  Lemma xusealed_numbers : NoDup (map inum (living rs)).
  Proof.
    destruct xusealed_spots as (M & R & n0 & s & QM & SY & _ & _ & _ & RN & FS). rewrite <- (spot_nums R M RN _ _ FS). exact (m_living_nodup E M SY).
  Qed.
  Lemma xusealed_both : forall ord, (forall m, Permutation (ord m) m) ->
    (exists f0, forall fuel, (f0 <= fuel)%nat -> exists p, load fuel E ord file pw (new_parser file) = Ok (None, p) /\ xusealed_state p) /\
    forall pw', ~ user_password E pr pw' -> exists f0, forall fuel, (f0 <= fuel)%nat -> exists p, load fuel E ord file pw' (new_parser file) = Ok (Some EncryptionPasswordError, p).
  Proof.
    intros ord P. destruct xusealed_spots as (M & R & n0 & s & QM & SY & QR & (enc & EE & HD & UP & SO & NA & NDF) & KC & RN & FS). pose proof (sv_lay _ _ _ _ _ SU) as LU.
    destruct (xupdates_first E cs M LU QM SY) as (F0 & FP0). destruct (FP0 F0 ord (le_n _) P) as (q & FP & W & LG & SH & T1 & T2 & OF & XG & IU). fold file in FP, W, XG, IU.
    destruct (spots_apart R M _ _ FS) as (D & at_ & XS & P1 & FD & P2 & A1 & A2).
    assert (TK : forall k v, current_key k rs None = Some v -> entry (ptrailer q) k = Some v) by (intros k v Q; apply T1; rewrite <- KC; exact Q).
    assert (EQ : entry (ptrailer q) (lit "Encrypt") = current_key (lit "Encrypt") rs None).
    { destruct (current_key (lit "Encrypt") rs None) as [v |] eqn:Q; [apply TK; exact Q | inversion EE]. }
    assert (EED : encrypt_entry D enc (current_key (lit "Encrypt") rs None) n0).
    { inversion EE as [Q1 Q2 | o g I Io Is Q1 Q2]; [constructor |]. apply (ee_object D enc o g); [| exact Io | exact Is]. apply (Permutation_in _ P1) in I. apply in_app_or in I. destruct I as [I | I]; [exact I |].
      exfalso. destruct (A2 o I) as (m & _ & _ & ->). discriminate Is. }
    rewrite QR in FD. assert (GB := general_both E D (map snd at_) XS (ptrailer q) pr pw file at_ ord F0 q enc n0 s M16). rewrite EQ in GB. specialize (GB EED).
    destruct GB as [OKAY BAD]; try assumption.
    - destruct HD as [B1 B2 B3 B4 B5 B6 B7 B8 (ids & B9)]. split; try assumption. exists ids. cbn [newest_key sc_trailer]. rewrite (TK (lit "ID") (OArr (OStr (pr_id pr) :: ids))); [reflexivity |].
      rewrite <- trailers_key, B9. reflexivity.
    - eapply Permutation_NoDup; [exact P2 | exact (m_living_nodup E M SY)].
    - intros c I. apply in_map_iff in I. destruct I as ([k c'] & Q & I). cbn [snd] in Q. subst c'. exists k. split; [exact I |]. destruct (A1 k c I) as (m & Im & Ip & _).
      split; [exact (proj1 (place_entry E m k c (m_says E M SY m Im) Ip)) |]. exact (place_split cs M QM m k c Im Ip).
    - intros fuel L. eapply first_more; eassumption.
    - reflexivity.
    - intros k c _ I. destruct (A1 k c I) as (m & Im & Ip & It). destruct (XG _ It) as (e & X & Y1 & Y2 & Y3 & Y4 & Y5). unfold t_num, t_at, t_obj in *. cbn [fst snd] in *. destruct (as_written_num c) as [N1 N2]. rewrite N1 in X. rewrite N2 in Y2. rewrite X. f_equal.
      destruct e. unfold new_xentry in *. cbn in *. congruence.
    - intros n U. destruct (IU n U) as (t & It & <-). pose proof (in_map t_num _ _ It) as I2. apply (Permutation_in _ P2) in I2. apply in_map_iff in I2. destruct I2 as (c & Q & Ic). exists c. auto.
    - intros o I. destruct (A2 o I) as (m & Im & It & ->). destruct (XG _ It) as (e & X & Y1 & Y2 & Y3 & Y4 & _). exists (m_pos m), e. split; [exact X |]. split; [exact Y1 |]. split; [exact Y2 |]. split; [exact Y3 |]. split; [exact Y4 |]. exact (own_readable E cs M QM SY m Im).
    - split; [| exact BAD]. destruct OKAY as (f0 & H). exists f0. intros fuel F. destruct (H fuel F) as (p & L & Wp & OFp & FDp & IUp & TR & LGp & GS). exists p. split; [exact L |].
      split; [exact Wp |]. split; [exact OFp |]. split; [intros o I; apply FDp; exact (Permutation_in _ P1 I) |]. split; [intros n U; destruct (IUp n U) as (o & I & Q); exists o; split; [exact (Permutation_in _ (Permutation_sym P1) I) | exact Q] |].
      split; [intros k v Q; rewrite TR; apply TK; exact Q |]. split; [| split; [exact LGp | exact GS]].
      intros k v Q. rewrite TR in Q. rewrite KC. exact (T2 k v Q).
  Qed.
  Lemma xusealed_loads : forall ord, (forall m, Permutation (ord m) m) -> exists f0, forall fuel, (f0 <= fuel)%nat -> exists p, load fuel E ord file pw (new_parser file) = Ok (None, p) /\ xusealed_state p.
  Proof. intros ord P. exact (proj1 (xusealed_both ord P)). Qed.
  Lemma xusealed_after : forall ord fuel p, (forall m, Permutation (ord m) m) -> load fuel E ord file pw (new_parser file) = Ok (None, p) -> xusealed_state p.
  Proof.
    intros ord fuel p P L. destruct (xusealed_loads ord P) as (f0 & H). destruct (H f0 (le_n _)) as (p' & L' & S1). pose proof (load_det _ _ _ _ _ _ _ _ _ L L') as Q. assert (p' = p) by congruence. subst p'. exact S1.
  Qed.
  Lemma xusealed_errors : forall OD fuel w p, order_ok OD -> parse_body E OD fuel file pw (new_parser file) = (w, Ok (None, p)) -> errors_txt p = [].
  Proof.
    intros OD fuel w p OK H. destruct (body_ok _ _ _ _ _ _ _ _ _ H) as (p1 & L & X & _). destruct (X eq_refl) as (u & Y).
    destruct (xusealed_after _ _ _ (fun m => Permutation_sym (proj1 (proj2 OK) m)) L) as (W & OF & FD & IU & T1 & T2 & LG & GS).
    unfold errors_txt. rewrite (all_hushed E OD fuel file p1 OK GS) with (l := o_xref OD (pxref p1)) (w := w) (u := u); [rewrite LG; reflexivity | exact W | exact Y].
  Qed.
End XUSealed.
Lemma xusealed_read : forall E Ds cs pr pw, (forall x, List.length (e_md5 E x) = 16%nat) -> sealed_xupdates E Ds cs pr pw ->
  forall ord, (forall m, Permutation (ord m) m) -> exists f0, forall fuel, (f0 <= fuel)%nat -> exists p,
    let rs := clear_updates Ds cs in
    load fuel E ord (w_xupdated cs) pw (new_parser (w_xupdated cs)) = Ok (None, p) /\
    (forall o, In o (living rs) -> fetched E (w_xupdated cs) p (inum o) o) /\
    (forall n, ~ In n (map inum (living rs)) -> fetched E (w_xupdated cs) p n {| inum := n; igen := 0; ival := OKw (lit "null"); istream := None |}) /\
    (forall k v, current_key k rs None = Some v -> entry (ptrailer p) k = Some v) /\
    (forall k v, entry (ptrailer p) k = Some v -> current_key k rs None = Some v \/ exists d, xfirst_of cs d /\ entry d k = Some v) /\ errors_txt p = [].
Proof.
  intros E Ds cs pr pw M SU ord P. destruct (xusealed_loads E Ds cs pr pw M SU ord P) as (f0 & H). exists f0. intros fuel F. destruct (H fuel F) as (p & L & W & OF & FD & IU & T1 & T2 & LG & _).
  exists p. cbv zeta. split; [exact L |]. split; [intros o I; exact (proj1 (FD o I)) |]. split; [exact (held_null E _ (living (clear_updates Ds cs)) p IU) |]. split; [exact T1 |]. split; [exact T2 |]. unfold errors_txt. rewrite LG. reflexivity.
Qed.
Lemma xusealed_locked : forall E Ds cs pr pw pw', (forall x, List.length (e_md5 E x) = 16%nat) -> sealed_xupdates E Ds cs pr pw -> ~ user_password E pr pw' ->
  forall ord, (forall m, Permutation (ord m) m) -> exists f0, forall fuel, (f0 <= fuel)%nat -> exists p,
    load fuel E ord (w_xupdated cs) pw' (new_parser (w_xupdated cs)) = Ok (Some EncryptionPasswordError, p).
Proof. intros E Ds cs pr pw pw' M SU NP ord P. exact (proj2 (xusealed_both E Ds cs pr pw M SU ord P) pw' NP). Qed.
