(** USealP.v -- reading back an encrypted document with updates (C112). *)
From Verif Require Import Base BaseP Msg Reader ReaderP Num NumP Lexer Plain LexerP Obj ReadObj Bits Filters Env Getters Crypt GetObj GetObjP Regex Xref Security Load Extract Output Render Parse Errors
  SpecLex SpecLexP SpecObj SpecObjP SpecNumP SpecFilters FiltersP SpecRead SpecFetch SpecLook SpecStream SpecScan ReadP StreamObjP FetchP LookP RawP AlongP LoadInvP SpecOut SpecRecover OrderP RepairP CryptObjP DocP ScanP RecoverP ErrorsP
  SpecTotal TotalP SpecXref XrefP LoadMonoP SpecCrypt SpecSecurity SecurityP SpecCryptDoc CryptDocP SpecWrite SpecFollow WriteP WriteDocP WriteLoadP WriteOutP WriteRunP SpecSeal SealP SpecUpdate UpdateP UpdateLoadP UpdateFindP UpdateOutP XSealP SpecUSeal.
From Coq Require Import Strings.String Sorting.Permutation Sorting.Sorted.

Section Lists.
  Variables (E : env) (key : bytes) (s : scheme) (n0 : option Z).
  Let R (o c : iobj) : Prop := n0 = Some (inum o) /\ c = o \/ n0 <> Some (inum o) /\ sealed_object E key s o c.
  Lemma R_num : forall o c, R o c -> inum c = inum o.
  Proof. intros o c [[_ ->] | [_ H]]; [reflexivity |]. apply (sealed_nums _ _ _ _ _ H). Qed.
  Lemma R_nums : forall l m, Forall2 R l m -> map inum m = map inum l.
  Proof. intros l m F. induction F as [| o c l m H _ IH]; [reflexivity |]. cbn [map]. rewrite IH, (R_num o c H). reflexivity. Qed.
  Lemma sealed_after_one : forall r c l m, sealed_revision E key s n0 r c -> Forall2 R l m -> Forall2 R (after l r) (after m c).
  Proof.
    intros r c l m (QF & _ & FO) F. unfold after. apply Forall2_app; [| exact FO].
    assert (TT : forall n, touches c n = touches r n) by (intros n; unfold touches; rewrite QF, (R_nums _ _ FO); reflexivity).
    induction F as [| o x l m H _ IH]; [constructor |]. cbn [filter]. rewrite TT, (R_num o x H). destruct (negb (touches r (inum o))); [constructor; assumption | exact IH].
  Qed.
  Lemma sealed_living : forall rs cs, Forall2 (sealed_revision E key s n0) rs cs -> Forall2 R (living rs) (living cs).
  Proof.
    intros rs cs F. unfold living. assert (H : Forall2 R [] []) by constructor. revert H. generalize (@nil iobj) at 1 3. generalize (@nil iobj).
    induction F as [| r c rs cs H _ IH]; intros m l L; [exact L |]. cbn [fold_left]. apply IH. apply sealed_after_one; assumption.
  Qed.
  Lemma sealed_key : forall k rs cs was, Forall2 (sealed_revision E key s n0) rs cs -> current_key k cs was = current_key k rs was.
  Proof. intros k rs cs was F. revert was. induction F as [| r c rs cs (_ & QT & _) _ IH]; intros was; [reflexivity |]. cbn [current_key]. rewrite QT, IH. reflexivity. Qed.
End Lists.
Lemma trailers_key : forall k rs was, or_else (newest_key k (trailers rs)) was = current_key k rs was.
Proof.
  intros k. induction rs as [| r rs IH]; intros was; [reflexivity |]. cbn [current_key]. rewrite <- IH. unfold trailers. cbn [rev]. rewrite map_app, newest_key_app. cbn [map newest_key sc_trailer].
  destruct (newest_key k (map _ (rev rs))); cbn [or_else]; [reflexivity |]. destruct (entry (rv_trailer r) k); reflexivity.
Qed.

Section USealed.
  Variables (E : env) (rs cs : list revision) (pr : params) (pw : bytes).
  Hypothesis M : forall x, List.length (e_md5 E x) = 16%nat.
  Hypothesis SU : sealed_updates E rs cs pr pw.
  Let file := w_updated cs.
  Let lay := w_layout (zlen w_version) None cs.
  Definition usealed_state (p : pst) : Prop := reads file p /\ offsets_ok (pxref p) /\
    (forall o, In o (living rs) -> fetched E file p (inum o) o /\ SpecOut.in_use p (inum o)) /\
    (forall n, SpecOut.in_use p n -> exists o, In o (living rs) /\ inum o = n) /\
    (forall k v, k <> lit "Prev" -> current_key k rs None = Some v -> entry (ptrailer p) k = Some v) /\
    (forall k v, k <> lit "Prev" -> entry (ptrailer p) k = Some v -> current_key k rs None = Some v \/ exists d, first_of cs d /\ entry d k = Some v) /\ log (prd p) = [] /\
    (forall n e, xget n (pxref p) = Some e -> x_type e = 1 -> forall q, kept file p q -> exists f o q', GetObject f E file n q = Ok (o, q') /\ log (prd q') = log (prd q)).
  Lemma living_lay : NoDup (map inum (living cs)).
  Proof. rewrite <- (living_is cs). rewrite map_map. exact (living_nodup lay (updated_laid cs (su_lay _ _ _ _ _ SU))). Qed.
  Lemma usealed_both : forall ord, (forall m, Permutation (ord m) m) ->
    (exists f0, forall fuel, (f0 <= fuel)%nat -> exists p, load fuel E ord file pw (new_parser file) = Ok (None, p) /\ usealed_state p) /\
    forall pw', ~ user_password E pr pw' -> exists f0, forall fuel, (f0 <= fuel)%nat -> exists p, load fuel E ord file pw' (new_parser file) = Ok (Some EncryptionPasswordError, p).
  Proof.
    intros ord P. destruct SU as [LU (enc & n0 & s & EE & HD & UP & SO & NA & NDF & FR)]. pose proof (updated_laid cs LU) as LW. fold lay in LW.
    set (F0 := (2 + List.length cs)%nat). destruct (updates_first E cs LU F0 ord ltac:(unfold F0; lia) ltac:(unfold F0; lia) P) as (q & FP & W & LG & SH & T1 & T2 & OF & XG & IU). fold file lay in FP, W, T1, T2, XG, IU.
    assert (KC : forall k, k <> lit "Prev" -> newest_key k (secs_to lay) = current_key k rs None).
    { intros k K. rewrite <- (sealed_key E _ s n0 k rs cs None FR), <- (key_current k K cs (zlen w_version) None None). fold lay. destruct (newest_key k (secs_to lay)); reflexivity. }
    assert (TK : forall k v, k <> lit "Prev" -> current_key k rs None = Some v -> entry (ptrailer q) k = Some v) by (intros k v K Q; apply T1; rewrite KC by exact K; exact Q).
    assert (EQ : entry (ptrailer q) (lit "Encrypt") = current_key (lit "Encrypt") rs None).
    { destruct (current_key (lit "Encrypt") rs None) as [v |] eqn:Q; [apply TK; [discriminate | exact Q] | inversion EE]. }
    assert (GB := general_both E (living rs) (living cs) [] (ptrailer q) pr pw file (living_at lay) ord F0 q enc n0 s M). rewrite EQ in GB. specialize (GB EE).
    destruct GB as [OKAY BAD]; try assumption.
    - destruct HD as [A1 A2 A3 A4 A5 A6 A7 A8 (ids & A9)]. split; try assumption. exists ids. cbn [newest_key sc_trailer]. rewrite (TK (lit "ID") (OArr (OStr (pr_id pr) :: ids))); [reflexivity | discriminate |].
      rewrite <- trailers_key, A9. reflexivity.
    - apply sealed_living. exact FR.
    - rewrite app_nil_r. exact living_lay.
    - intros c I. rewrite <- (living_is cs) in I. apply in_map_iff in I. destruct I as ([k c'] & Q & I). cbn [snd] in Q. subst c'. exists k. split; [exact I |].
      destruct (updated_split cs LU k c (proj1 (living_num lay _ LW I))) as (pre & r & QF & QK & r0 & I0 & Ic). split; [exact (lv_objects _ (lu_revisions _ LU r0 I0) c Ic) |]. exists pre, r. auto.
    - intros fuel L. eapply first_more; eassumption.
    - reflexivity.
    - intros k c _ I. exact (XG (k, c) I).
    - intros n U. destruct (IU n U) as (x & Ix & Qx). exists (snd x). split; [| exact Qx]. rewrite app_nil_r, <- (living_is cs). apply in_map. exact Ix.
    - intros o [].
    - split; [| exact BAD]. destruct OKAY as (f0 & H). exists f0. intros fuel F. destruct (H fuel F) as (p & L & Wp & OFp & FD & IUp & TR & LGp & GS). rewrite app_nil_r in FD, IUp. exists p. split; [exact L |].
      split; [exact Wp |]. split; [exact OFp |]. split; [exact FD |]. split; [exact IUp |]. split; [intros k v K Q; rewrite TR; apply TK; assumption |]. split; [| split; [exact LGp | exact GS]].
      intros k v K Q. rewrite TR in Q. destruct (T2 k v Q) as [C | C]; [left; rewrite <- KC by exact K; exact C | right; exact C].
  Qed.
  Lemma usealed_loads : forall ord, (forall m, Permutation (ord m) m) -> exists f0, forall fuel, (f0 <= fuel)%nat -> exists p, load fuel E ord file pw (new_parser file) = Ok (None, p) /\ usealed_state p.
  Proof. intros ord P. exact (proj1 (usealed_both ord P)). Qed.
  Lemma usealed_after : forall ord fuel p, (forall m, Permutation (ord m) m) -> load fuel E ord file pw (new_parser file) = Ok (None, p) -> usealed_state p.
  Proof.
    intros ord fuel p P L. destruct (usealed_loads ord P) as (f0 & H). destruct (H f0 (le_n _)) as (p' & L' & S1). pose proof (load_det _ _ _ _ _ _ _ _ _ L L') as Q. assert (p' = p) by congruence. subst p'. exact S1.
  Qed.
  Lemma usealed_numbers : NoDup (map inum (living rs)).
  Proof.
    pose proof living_lay as ND. destruct SU as [_ (enc & n0 & s & _ & _ & _ & _ & _ & _ & FR)]. rewrite <- (R_nums _ _ _ _ _ _ (sealed_living _ _ _ _ _ _ FR)). exact ND.
  Qed.
  Lemma usealed_errors : forall OD fuel w p, order_ok OD -> parse_body E OD fuel file pw (new_parser file) = (w, Ok (None, p)) -> errors_txt p = [].
  Proof.
    intros OD fuel w p OK H. destruct (body_ok _ _ _ _ _ _ _ _ _ H) as (p1 & L & X & _). destruct (X eq_refl) as (u & Y).
    destruct (usealed_after _ _ _ (fun m => Permutation_sym (proj1 (proj2 OK) m)) L) as (W & OF & FD & IU & T1 & T2 & LG & GS).
    unfold errors_txt. rewrite (all_hushed E OD fuel file p1 OK GS) with (l := o_xref OD (pxref p1)) (w := w) (u := u); [rewrite LG; reflexivity | exact W | exact Y].
  Qed.
End USealed.
Lemma usealed_read : forall E rs cs pr pw, (forall x, List.length (e_md5 E x) = 16%nat) -> sealed_updates E rs cs pr pw ->
  forall ord, (forall m, Permutation (ord m) m) -> exists f0, forall fuel, (f0 <= fuel)%nat -> exists p,
    load fuel E ord (w_updated cs) pw (new_parser (w_updated cs)) = Ok (None, p) /\
    (forall o, In o (living rs) -> fetched E (w_updated cs) p (inum o) o) /\
    (forall n, ~ In n (map inum (living rs)) -> fetched E (w_updated cs) p n {| inum := n; igen := 0; ival := OKw (lit "null"); istream := None |}) /\
    (forall k v, k <> lit "Prev" -> current_key k rs None = Some v -> entry (ptrailer p) k = Some v) /\
    (forall k v, k <> lit "Prev" -> entry (ptrailer p) k = Some v -> current_key k rs None = Some v \/ exists d, first_of cs d /\ entry d k = Some v) /\ errors_txt p = [].
Proof.
  intros E rs cs pr pw M SU ord P. destruct (usealed_loads E rs cs pr pw M SU ord P) as (f0 & H). exists f0. intros fuel F. destruct (H fuel F) as (p & L & W & OF & FD & IU & T1 & T2 & LG & _).
  exists p. split; [exact L |]. split; [intros o I; exact (proj1 (FD o I)) |]. split; [exact (held_null E _ (living rs) p IU) |]. split; [exact T1 |]. split; [exact T2 |]. unfold errors_txt. rewrite LG. reflexivity.
Qed.
Lemma usealed_locked : forall E rs cs pr pw pw', (forall x, List.length (e_md5 E x) = 16%nat) -> sealed_updates E rs cs pr pw -> ~ user_password E pr pw' ->
  forall ord, (forall m, Permutation (ord m) m) -> exists f0, forall fuel, (f0 <= fuel)%nat -> exists p,
    load fuel E ord (w_updated cs) pw' (new_parser (w_updated cs)) = Ok (Some EncryptionPasswordError, p).
Proof. intros E rs cs pr pw pw' M SU NP ord P. exact (proj2 (usealed_both E rs cs pr pw M SU ord P) pw' NP). Qed.
