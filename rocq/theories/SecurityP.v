(** SecurityP.v -- SecurityHandler.Init against SpecSecurity. *)
From Verif Require Import Base BaseP Msg Reader ReaderP Num Lexer Obj Env Getters Crypt Rc4 Security GetObj Load FetchP GetObjP
  SpecFetch SpecLook LookP SpecCrypt CryptP SpecSecurity StreamObjP.
From Coq Require Import Strings.String.
Local Open Scope m_scope.

(** ** keys *)
Lemma padding_pad32 : padding_string = pad32.
Proof. vm_compute. reflexivity. Qed.
Lemma pad_password_spec : forall pw, pad_password pw = firstn 32 (pw ++ pad32).
Proof.
  intros pw. unfold pad_password. rewrite padding_pad32. unfold zlen. rewrite firstn_app.
  destruct (Z.ltb_spec (Z.of_nat (List.length pw)) 32).
  - rewrite (firstn_all2 pw) by lia. reflexivity.
  - replace (32 - List.length pw)%nat with O by lia. rewrite firstn_O, app_nil_r. reflexivity.
Qed.
Lemma iter_comm : forall A (f : A -> A) k x, Nat.iter k f (f x) = f (Nat.iter k f x).
Proof. intros A f k x. induction k as [| k IH]; [reflexivity |]. change (f (Nat.iter k f (f x)) = f (f (Nat.iter k f x))). rewrite IH. reflexivity. Qed.
Lemma rehash_spec : forall E n k key, 0 <= n <= 16 -> 
  rehash k E n key = Ok (Nat.iter k (fun x => firstn (Z.to_nat n) (e_md5 E x)) key).
Proof.
  intros E n k. induction k as [| k IH]; intros key H; [reflexivity |]. cbn [rehash]. unfold slice16.
  replace ((0 <=? n) && (n <=? 16)) with true by (symmetry; apply andb_true_intro; split; apply Z.leb_le; lia).
  cbn [rbind]. rewrite IH by assumption. f_equal. exact (iter_comm _ (fun x => firstn (Z.to_nat n) (e_md5 E x)) k key).
Qed.
Definition ep_of (pr : params) : encparms :=
  {| ep_r := pr_r pr; ep_o := pr_o pr; ep_p := put32 (pr_p pr); ep_meta := pr_meta pr; ep_id := pr_id pr |}.
Lemma compute_key_spec : forall E pr pw n, 2 <= pr_r pr <= 4 -> 0 <= n <= 16 ->
  compute_key E (ep_of pr) pw n = Ok (file_key E pr pw (Z.to_nat n)).
Proof.
  intros E pr pw n R N. unfold compute_key, file_key, file_key_of, ep_of. cbn [ep_r ep_o ep_p ep_meta ep_id].
  rewrite pad_password_spec, low4.
  replace (4 <=? pr_r pr) with (pr_r pr =? 4) by (destruct (Z.eqb_spec (pr_r pr) 4), (Z.leb_spec 4 (pr_r pr)); lia || reflexivity).
  change [xff; xff; xff; xff] with (repeat xff 4). unfold slice16.
  replace ((0 <=? n) && (n <=? 16)) with true by (symmetry; apply andb_true_intro; split; apply Z.leb_le; lia).
  cbn [rbind].
  destruct (Z.leb_spec 3 (pr_r pr)).
  - rewrite rehash_spec by assumption. destruct (Z.eqb_spec (pr_r pr) 2); [lia | reflexivity].
  - destruct (Z.eqb_spec (pr_r pr) 2); [reflexivity | lia].
Qed.
Lemma compute_key_panic : forall E ep pw n, n < 0 \/ 16 < n -> compute_key E ep pw n = Panic.
Proof.
  intros E ep pw n H. unfold compute_key, slice16.
  replace ((0 <=? n) && (n <=? 16)) with false; [reflexivity |].
  symmetry. apply andb_false_iff. destruct H; [left | right]; apply Z.leb_gt; lia.
Qed.
Lemma iter_length : forall md5 n k (x : bytes), (forall y : bytes, List.length (md5 y : bytes) = 16%nat) -> (n <= 16)%nat -> List.length x = n ->
  List.length (Nat.iter k (fun y => firstn n (md5 y)) x) = n.
Proof.
  intros md5 n k x M N L. induction k as [| k IH]; [assumption |]. cbn. rewrite firstn_length, M. lia.
Qed.
Lemma file_key_length : forall E pr pw n, (forall x, List.length (e_md5 E x) = 16%nat) -> (n <= 16)%nat ->
  List.length (file_key E pr pw n) = n.
Proof.
  intros E pr pw n M N. unfold file_key, file_key_of. apply iter_length; try assumption. rewrite firstn_length, M. lia.
Qed.

(** ** the password check *)
Lemma xor_key : forall key i, (i < 256)%nat -> forall m a b, nth_error key m = Some a ->
  nth_error (map (fun b => bxor b (zb (Z.of_nat i))) key) m = Some b -> bv b = Z.lxor (bv a) (Z.of_nat i).
Proof.
  intros key i I m a b Ha Hb. rewrite nth_error_map, Ha in Hb. injection Hb as <-.
  rewrite bv_bxor, bv_zb, Z.mod_small by lia. reflexivity.
Qed.
Lemma rc4_rounds_spec : forall key u, key <> [] -> forall k i x, (i + k <= 256)%nat -> rc4_times key i u x ->
  rc4_times key (i + k) u (rc4_rounds k (Z.of_nat i) key x).
Proof.
  intros key u N. induction k as [| k IH]; intros i x L H; cbn [rc4_rounds].
  - rewrite Nat.add_0_r. assumption.
  - replace (i + S k)%nat with (S i + k)%nat by lia. replace (Z.of_nat i + 1) with (Z.of_nat (S i)) by lia.
    apply IH; [lia |].
    eapply rt_next; [exact H | | | apply rc4_encrypts].
    + apply map_length.
    + apply xor_key. lia.
    + destruct key; [congruence | discriminate].
Qed.
Lemma rc4_times_det : forall key k u x, rc4_times key k u x -> forall y, rc4_times key k u y -> x = y.
Proof.
  intros key k u x H. induction H as [x | k u x z key' H IH L K R]; intros y Hy; inversion Hy; subst; [reflexivity |].
  match goal with H1 : rc4_times key k u ?v |- _ => assert (x = v) by (apply IH; assumption); subst v end.
  match goal with H2 : List.length ?k2 = _, H3 : forall m a b, _ -> nth_error ?k2 m = _ -> _ |- _ =>
    assert (key' = k2) by (apply nth_ext_error; [congruence |]; intros m a b Ha Hb; apply bv_inj;
      destruct (nth_error_some _ key m) as [c Hc]; [rewrite <- L; apply nth_error_Some; congruence |];
      rewrite (K m c a Hc Ha), (H3 m c b Hc Hb); reflexivity); subst k2 end.
  eapply rc4_unique; eassumption.
Qed.
Lemma rc4_times_length : forall key k u x, rc4_times key k u x -> List.length x = List.length u.
Proof. intros key k u x H. induction H as [| k u x z key' H IH L K [R _]]; [reflexivity |]. congruence. Qed.

Lemma first16_spec : forall u, 9 <= zlen u -> first16 u = Ok (firstn 16 (u ++ repeat x00 16)).
Proof.
  intros u H. unfold first16, zlen in *. rewrite firstn_app.
  destruct (Z.leb_spec 16 (Z.of_nat (List.length u))).
  - replace (16 - List.length u)%nat with O by lia. rewrite firstn_O, app_nil_r. reflexivity.
  - destruct (Z.leb_spec 9 (Z.of_nat (List.length u))); [| lia].
    rewrite (firstn_all2 u) by lia. do 2 f_equal.
    assert (forall a b, (a <= b)%nat -> firstn a (repeat x00 b) = repeat x00 a) as R.
    { induction a as [| a IHa]; intros [| b] L; try reflexivity; [lia |]. cbn. rewrite IHa by lia. reflexivity. }
    symmetry. apply R. lia.
Qed.
Lemma check_key_spec : forall E pr pw, (forall x, List.length (e_md5 E x) = 16%nat) -> 2 <= pr_r pr <= 4 -> (5 <= pr_n pr <= 16)%nat ->
  u_long pr -> exists b, check_key E (ep_of pr) (pr_u pr) (file_key E pr pw (pr_n pr)) = Ok b /\ (b = true <-> u_matches E pr pw).
Proof.
  intros E pr pw M R N U. set (key := file_key E pr pw (pr_n pr)).
  assert (K : key <> []). { intros Q. assert (L := file_key_length E pr pw (pr_n pr) M). fold key in L. rewrite Q in L. cbn in L. lia. }
  unfold check_key, ep_of. cbn [ep_r ep_id]. unfold u_matches, user_entry. fold key.
  destruct (Z.eqb_spec (pr_r pr) 2) as [R2 | R2].
  - eexists. split; [reflexivity |]. rewrite padding_pad32. split.
    + intros H. apply bseq_eq in H. exists (rc4 key pad32). split; [apply rc4_encrypts; assumption | congruence].
    + intros (w & H & ->). rewrite <- (rc4_unique _ _ _ _ H (rc4_encrypts key pad32 K)). apply bseq_refl.
  - destruct U as [U | U]; [lia |]. rewrite first16_spec by assumption. cbn [rbind]. eexists. split; [reflexivity |].
    rewrite padding_pad32. 
    pose proof (rc4_rounds_spec key (e_md5 E (pad32 ++ pr_id pr)) K 20 0 _ ltac:(lia) (rt_zero key _)) as T.
    split.
    + intros H. apply bseq_eq in H. eexists. split; [exact T | symmetry; exact H].
    + intros (w & H & Hw). rewrite Hw. rewrite (rc4_times_det _ _ _ _ H _ T). apply bseq_refl.
Qed.

(** ** crypt filters *)
Section CF.
  Variables (E : env) (file : bytes) (p : pst).
  Hypothesis W : reads file p.
  Hypothesis O : offsets_ok (pxref p).

  Lemma typed_det : forall A (is : obj -> A -> Prop) x a b, (forall v a b, is v a -> is v b -> a = b) ->
    typed E file p is x a -> typed E file p is x b -> a = b.
  Proof.
    intros A is x a b F (v & V & H) (v' & V' & H'). assert (Some v = Some v') by (eapply value_det; eauto).
    assert (v = v') by congruence. subst. eauto.
  Qed.
  Lemma typed_untyped : forall A (is : obj -> A -> Prop) x a, typed E file p is x a -> untyped E file p is x -> False.
  Proof.
    intros A is x a (v & V & H) [V' | (v' & V' & N)]; assert (Q := value_det _ _ _ _ _ _ V V'); [discriminate |].
    assert (v = v') by congruence. subst. eapply N; eauto.
  Qed.
  Lemma typed_or_det : forall A (is : obj -> A -> Prop) x d a b, (forall v a b, is v a -> is v b -> a = b) ->
    typed_or E file p is x d a -> typed_or E file p is x d b -> a = b.
  Proof.
    intros A is x d a b F [H | [H ->]] [H' | [H' ->]]; try reflexivity; [eapply typed_det; eauto | |]; exfalso; eapply typed_untyped; eauto.
  Qed.
  Lemma is_name_fun : forall v a b, is_name v a -> is_name v b -> a = b.
  Proof. unfold is_name. intros; congruence. Qed.
  Lemma is_dict_fun : forall v a b, is_dict v a -> is_dict v b -> a = b.
  Proof. unfold is_dict. intros; congruence. Qed.
  Lemma is_string_fun : forall v a b, is_string v a -> is_string v b -> a = b.
  Proof. unfold is_string. intros; congruence. Qed.
  Lemma is_array_fun : forall v a b, is_array v a -> is_array v b -> a = b.
  Proof. unfold is_array. intros; congruence. Qed.
  Lemma is_int_fun : forall v a b, is_int v a -> is_int v b -> a = b.
  Proof. unfold is_int. intros v a b (q & -> & ->) (q' & H & ->). congruence. Qed.
  Lemma is_bool_fun : forall v a b, is_bool v a -> is_bool v b -> a = b.
  Proof. unfold is_bool. intros v [] [] -> H; try reflexivity; injection H as H; discriminate. Qed.

  Lemma cf_defines_det : forall pr pw o c c', cf_defines E file p pr pw o c -> cf_defines E file p pr pw o c' -> c = c'.
  Proof.
    intros pr pw o c c' H H'. destruct H as [o N | d U | d m l c T L Q]; inversion H' as [o' N' | d' U' | d' m' l' c2 T' L' Q']; subst;
      try reflexivity; try (exfalso; eapply N; reflexivity); try (exfalso; eapply N'; reflexivity);
      try (exfalso; eapply typed_untyped; eauto; fail).
    assert (m = m') by (eapply typed_det; [apply is_name_fun | eauto | eauto]). subst m'.
    assert (l = l') by (eapply typed_or_det; [apply is_int_fun | eauto | eauto]). subst l'.
    destruct Q as [(-> & ->) | [(-> & _ & ->) | [(-> & _ & ->) | (A & B & C & ->)]]];
      destruct Q' as [(X & Y) | [(X & _ & Y) | [(X & _ & Y) | (A' & B' & C' & Y)]]]; try congruence; try discriminate.
  Qed.

  Inductive filled (pr : params) (pw : bytes) : dict -> list (bytes * cfilter) -> list (bytes * cfilter) -> Prop :=
  | fl_nil : forall fs, filled pr pw [] fs fs
  | fl_none : forall k o cf fs fs', cf_defines E file p pr pw o None -> filled pr pw cf fs fs' -> filled pr pw ((k, o) :: cf) fs fs'
  | fl_some : forall k o c cf fs fs', cf_defines E file p pr pw o (Some c) -> filled pr pw cf (mset bseq k c fs) fs' ->
      filled pr pw ((k, o) :: cf) fs fs'.

  Lemma mset_In : forall A k (c : A) fs, NoDup (map fst fs) -> forall k' c',
    In (k', c') (mset bseq k c fs) <-> (k' = k /\ c' = c) \/ (k' <> k /\ In (k', c') fs).
  Proof.
    intros A k c fs. induction fs as [| [k1 c1] fs IH]; intros N k' c'.
    - cbn. split; [intros [Q | []]; left; split; congruence | intros [[-> ->] | [_ []]]; auto].
    - cbn in N. inversion N as [| ? ? N1 N2]; subst. cbn [mset]. destruct (bseq k k1) eqn:Q.
      + apply bseq_eq in Q. subst k1. cbn [In]. split.
        * intros [X | X]; [left; split; congruence |]. right. split; [| auto]. intros ->. apply N1. apply (in_map fst) in X. exact X.
        * intros [[-> ->] | [X [Y | Y]]]; [auto | congruence | auto].
      + apply bseq_neq in Q. cbn [In]. rewrite (IH N2). split.
        * intros [X | [X | X]]; [right; split; [congruence | auto] | auto | right; tauto].
        * intros [X | [X [Y | Y]]]; auto.
  Qed.
  Lemma mset_NoDup : forall A k (c : A) fs, NoDup (map fst fs) -> NoDup (map fst (mset bseq k c fs)).
  Proof.
    intros A k c fs. induction fs as [| [k1 c1] fs IH]; intros N; cbn [mset map fst].
    - constructor; [intros [] | constructor].
    - cbn in N. inversion N as [| ? ? N1 N2]; subst. destruct (bseq k k1) eqn:Q; cbn [map fst]; [constructor; auto |].
      constructor; [| auto]. intros I. apply in_map_iff in I. destruct I as ([k2 c2] & <- & I).
      apply (mset_In _ k c fs N2) in I. destruct I as [[-> ->] | [X I]]; [cbn in Q; rewrite bseq_refl in Q; discriminate |].
      apply N1. apply (in_map fst) in I. exact I.
  Qed.
  Lemma filled_NoDup : forall pr pw cf fs fs', filled pr pw cf fs fs' -> NoDup (map fst fs) -> NoDup (map fst fs').
  Proof. intros pr pw cf fs fs' H. induction H; intros; auto. apply IHfilled. apply mset_NoDup. assumption. Qed.
  Lemma filled_In : forall pr pw cf fs fs', filled pr pw cf fs fs' -> NoDup (map fst cf) -> NoDup (map fst fs) -> forall k c,
    In (k, c) fs' <-> (exists o, In (k, o) cf /\ cf_defines E file p pr pw o (Some c)) \/
                      (In (k, c) fs /\ forall o, In (k, o) cf -> cf_defines E file p pr pw o None).
  Proof.
    intros pr pw cf fs fs' H. induction H as [fs | k0 o0 cf fs fs' D H IH | k0 o0 c0 cf fs fs' D H IH]; intros Nc Nf k c.
    - split; [intros I; right; split; [assumption | intros o []] | intros [(o & [] & _) | [I _]]; assumption].
    - cbn in Nc. inversion Nc as [| ? ? N1 N2]; subst. rewrite (IH N2 Nf). split.
      + intros [(o & I & Q) | [I Q]]; [left; exists o; split; [right |]; assumption |]. right. split; [assumption |].
        intros o [X | X]; [injection X as <- <-; assumption | auto].
      + intros [(o & [X | X] & Q) | [I Q]].
        * injection X as <- <-. assert (Some c = None) by (eapply cf_defines_det; eauto). discriminate.
        * left. eauto.
        * right. split; [assumption |]. intros o X. apply Q. right. assumption.
    - cbn in Nc. inversion Nc as [| ? ? N1 N2]; subst. rewrite (IH N2 (mset_NoDup _ _ _ _ Nf)). rewrite (mset_In _ _ _ _ Nf). split.
      + intros [(o & I & Q) | [[[-> ->] | [X I]] Q]].
        * left. exists o. split; [right |]; assumption.
        * left. exists o0. split; [left; reflexivity | assumption].
        * right. split; [assumption |]. intros o [Y | Y]; [congruence | auto].
      + intros [(o & [X | X] & Q) | [I Q]].
        * injection X as <- <-. right. assert (Some c = Some c0) by (eapply cf_defines_det; eauto). split; [left; split; congruence |].
          intros o1 I1. exfalso. apply N1. apply (in_map fst) in I1. exact I1.
        * left. eauto.
        * destruct (list_eq_dec byte_eq_dec k k0) as [-> | NE].
          -- exfalso. assert (None = Some c0) by (eapply cf_defines_det; [apply Q; left; reflexivity | assumption]). discriminate.
          -- right. split; [right; split; assumption |]. intros o X. apply Q. right. assumption.
  Qed.

  Ltac bi := cbv beta iota; cbn [negb andb orb].
  Lemma name_gives : forall d k a, typed E file p is_name (entry d k) a -> gives file p (fun f => d_name (Resolve f E file) d k) (a, true) (kept file p).
  Proof. intros. apply (d_typed_gives E file p W O is_name [] as_name name_classifies). assumption. Qed.
  Lemma name_gives_not : forall d k, untyped E file p is_name (entry d k) -> gives file p (fun f => d_name (Resolve f E file) d k) ([], false) (kept file p).
  Proof. intros. apply (d_untyped_gives E file p W O is_name [] as_name name_classifies). assumption. Qed.
  Lemma int_gives : forall d k a, typed E file p is_int (entry d k) a -> gives file p (fun f => d_int (Resolve f E file) d k) (a, true) (kept file p).
  Proof. intros. apply (d_typed_gives E file p W O is_int 0 as_int int_classifies). assumption. Qed.
  Lemma int_gives_not : forall d k, untyped E file p is_int (entry d k) -> gives file p (fun f => d_int (Resolve f E file) d k) (0, false) (kept file p).
  Proof. intros. apply (d_untyped_gives E file p W O is_int 0 as_int int_classifies). assumption. Qed.
  Lemma string_gives : forall d k a, typed E file p is_string (entry d k) a -> gives file p (fun f => d_string (Resolve f E file) d k) (a, true) (kept file p).
  Proof. intros. apply (d_typed_gives E file p W O is_string [] as_string string_classifies). assumption. Qed.
  Lemma dict_gives : forall d k a, typed E file p is_dict (entry d k) a -> gives file p (fun f => d_dict (Resolve f E file) d k) (a, true) (kept file p).
  Proof. intros. apply (d_typed_gives E file p W O is_dict [] as_dict dict_classifies). assumption. Qed.
  Lemma dict_gives_not : forall d k, untyped E file p is_dict (entry d k) -> gives file p (fun f => d_dict (Resolve f E file) d k) ([], false) (kept file p).
  Proof. intros. apply (d_untyped_gives E file p W O is_dict [] as_dict dict_classifies). assumption. Qed.
  Lemma array_gives : forall d k a, typed E file p is_array (entry d k) a -> gives file p (fun f => d_array (Resolve f E file) d k) (a, true) (kept file p).
  Proof. intros. apply (d_typed_gives E file p W O is_array [] as_array array_classifies). assumption. Qed.
  Lemma bool_gives : forall d k a, typed E file p is_bool (entry d k) a -> gives file p (fun f => d_bool (Resolve f E file) d k) (a, true) (kept file p).
  Proof. intros. apply (d_typed_gives E file p W O is_bool false as_bool bool_classifies). assumption. Qed.
  Lemma bool_gives_not : forall d k, untyped E file p is_bool (entry d k) -> gives file p (fun f => d_bool (Resolve f E file) d k) (false, false) (kept file p).
  Proof. intros. apply (d_untyped_gives E file p W O is_bool false as_bool bool_classifies). assumption. Qed.
  Lemma a_string_gives : forall d k a, typed E file p is_string (element d k) a -> gives file p (fun f => a_string (Resolve f E file) d k) (a, true) (kept file p).
  Proof. intros. apply (a_typed_gives E file p W O is_string [] as_string string_classifies). assumption. Qed.

  Lemma int_or_gives : forall d k dflt a, typed_or E file p is_int (entry d k) dflt a ->
    exists r : Z * bool, (if snd r then fst r else dflt) = a /\ gives file p (fun f => d_int (Resolve f E file) d k) r (kept file p).
  Proof.
    intros d k dflt a [T | [T ->]].
    - exists (a, true). split; [reflexivity |]. apply int_gives. assumption.
    - exists (0, false). split; [reflexivity |]. apply int_gives_not. assumption.
  Qed.

  Lemma load_cf_gives : forall pr pw cf, 2 <= pr_r pr <= 4 -> (forall k o, In (k, o) cf -> exists c, cf_defines E file p pr pw o c) ->
    forall fs, exists fs', filled pr pw cf fs fs' /\
      gives file p (fun f => load_cf E (Resolve f E file) (ep_of pr) pw (Z.of_nat (pr_n pr)) cf fs) fs' (kept file p).
  Proof.
    intros pr pw cf R. induction cf as [| [k o] cf IH]; intros D fs.
    - exists fs. split; [constructor | apply gives_ret].
    - assert (D' : forall k o, In (k, o) cf -> exists c, cf_defines E file p pr pw o c) by (intros; eapply D; right; eassumption).
      specialize (IH D').
      destruct (D k o (or_introl eq_refl)) as (c & C). inversion C as [o' N | d U | d m l c' T L Q]; subst.
      + destruct (IH fs) as (fs' & F & G). exists fs'. split; [apply fl_none; assumption |].
        destruct o; try exact G. exfalso. eapply N. reflexivity.
      + destruct (IH fs) as (fs' & F & G). exists fs'. split; [apply fl_none; assumption |]. cbn [load_cf].
        eapply gives_bind; [apply name_gives_not; exact U |]. bi. eapply gives_bind; [apply gives_ret |]. exact G.
      + assert (X : exists fs1, gives file p (fun f =>
            '(l, ok) <- d_int (Resolve f E file) d (lit "Length") ;;
            let l := if ok : bool then l else Z.of_nat (pr_n pr) in
            if bseq m (lit "None") then ret (mset bseq k CFNone fs)
            else if bseq m (lit "V2") then key <- lift (compute_key E (ep_of pr) pw l) ;; ret (mset bseq k (CFRC4 key) fs)
            else if bseq m (lit "AESV2") then key <- lift (compute_key E (ep_of pr) pw l) ;; ret (mset bseq k (CFAES key) fs)
            else ret fs) fs1 (kept file p) /\
          fs1 = match c with Some c => mset bseq k c fs | None => fs end).
        { destruct (int_or_gives _ _ _ _ L) as ([l0 b0] & L0 & G0). cbn [fst snd] in L0.
          destruct Q as [(-> & ->) | [(-> & B & ->) | [(-> & B & ->) | (A1 & A2 & A3 & ->)]]].
          - eexists. split; [| reflexivity]. eapply gives_bind; [exact G0 |]. bi. cbv zeta. apply gives_ret.
          - eexists. split; [| reflexivity]. eapply gives_bind; [exact G0 |]. bi. cbv zeta. rewrite L0.
            change (bseq (lit "V2") (lit "None")) with false. change (bseq (lit "V2") (lit "V2")) with true. bi.
            eapply gives_bind; [apply gives_lift; apply compute_key_spec; assumption |]. apply gives_ret.
          - eexists. split; [| reflexivity]. eapply gives_bind; [exact G0 |]. bi. cbv zeta. rewrite L0.
            change (bseq (lit "AESV2") (lit "None")) with false. change (bseq (lit "AESV2") (lit "V2")) with false. 
            change (bseq (lit "AESV2") (lit "AESV2")) with true. bi.
            eapply gives_bind; [apply gives_lift; apply compute_key_spec; assumption |]. apply gives_ret.
          - eexists. split; [| reflexivity]. eapply gives_bind; [exact G0 |]. bi. cbv zeta.
            apply bseq_neq in A1, A2, A3. rewrite A1, A2, A3. apply gives_ret. }
        destruct X as (fs1 & G1 & ->).
        destruct c as [c |].
        * destruct (IH (mset bseq k c fs)) as (fs' & F & G). exists fs'. split; [eapply fl_some; eassumption |].
          cbn [load_cf]. eapply gives_bind; [apply name_gives; exact T |]. bi. eapply gives_bind; [exact G1 |]. exact G.
        * destruct (IH fs) as (fs' & F & G). exists fs'. split; [eapply fl_none; eassumption |].
          cbn [load_cf]. eapply gives_bind; [apply name_gives; exact T |]. bi. eapply gives_bind; [exact G1 |]. exact G.
  Qed.

  Lemma mget_none : forall A k (m : list (bytes * A)), mget bseq k m = None -> forall c, ~ In (k, c) m.
  Proof.
    intros A k m. induction m as [| [k' c'] m IH]; intros H c I; [destruct I |]. cbn [mget] in H.
    destruct (bseq k k') eqn:Q; [discriminate |]. apply bseq_neq in Q. destruct I as [X | X]; [congruence |]. eapply IH; eauto.
  Qed.
  Lemma mget_some : forall A k (m : list (bytes * A)) c, mget bseq k m = Some c -> In (k, c) m.
  Proof.
    intros A k m. induction m as [| [k' c'] m IH]; intros c H; [discriminate |]. cbn [mget] in H.
    destruct (bseq k k') eqn:Q; [apply bseq_eq in Q; left; congruence |]. right. auto.
  Qed.
  Lemma override_gives : forall pr pw enc cf fs key, (exists x, value E file p (entry enc key) x) ->
    (forall k c, In (k, c) fs <-> named E file p pr pw cf k c) ->
    exists c, chosen E file p pr pw enc cf key c /\
      gives file p (fun f => override (Resolve f E file) enc key fs (CFRC4 (file_key E pr pw (pr_n pr)))) c (kept file p).
  Proof.
    intros pr pw enc cf fs key (x & V) F. unfold override.
    assert (D : (exists n, typed E file p is_name (entry enc key) n) \/ untyped E file p is_name (entry enc key)).
    { destruct x as [v |]; [| right; left; assumption]. destruct (is_name_dec v) as [[a A] | N]; [left; exists a, v; auto | right; right; eauto]. }
    destruct D as [[n T] | U].
    - destruct (mget bseq n fs) as [c |] eqn:Q.
      + exists c. split; [left; exists n; split; [assumption | left; apply F; apply mget_some; assumption] |].
        eapply gives_bind; [apply name_gives; exact T |]. cbv beta iota. rewrite Q. apply gives_ret.
      + eexists. split; [left; exists n; split; [eassumption | right; split; [| reflexivity]] |].
        * intros c' X. apply F in X. eapply mget_none; eassumption.
        * eapply gives_bind; [apply name_gives; exact T |]. cbv beta iota. rewrite Q. apply gives_ret.
    - eexists. split; [right; split; [assumption | reflexivity] |].
      eapply gives_bind; [apply name_gives_not; exact U |]. cbv beta iota. apply gives_ret.
  Qed.

  Lemma key_length_spec : forall v l, v = 1 \/ v = 2 \/ v = 4 -> key_length v l = Z.max 5 (Z.min 16 ((if v =? 1 then 40 else if snd l then fst l else 40) / 8)).
  Proof.
    intros v l H. unfold key_length. set (x := if v =? 1 then 40 else if snd l then fst l else 40). cbv zeta.
    destruct (Z_le_gt_dec 0 x).
    - rewrite Z.quot_div_nonneg by lia. destruct (Z.ltb_spec (x / 8) 5); [lia |]. destruct (Z.ltb_spec 16 (x / 8)); lia.
    - assert (Z.quot x 8 <= 0). { rewrite <- (Z.opp_involutive x), Z.quot_opp_l by lia. assert (0 <= Z.quot (- x) 8) by (apply Z.quot_pos; lia). lia. }
      assert (x / 8 < 0) by (apply Z.div_lt_upper_bound; lia).
      destruct (Z.ltb_spec (Z.quot x 8) 5); lia.
  Qed.

  (** everything up to the check of the password *)
  Definition init_tail (pr : params) (pw : bytes) (enc : dict) (f : nat) : M (option encerr) :=
    good <- lift (check_key E (ep_of pr) (pr_u pr) (file_key E pr pw (pr_n pr))) ;;
    if negb good then ret (Some EncryptionPasswordError) else
    let dflt := CFRC4 (file_key E pr pw (pr_n pr)) in
    let fs := [(lit "Identity", CFNone)] in
    h <- (if pr_r pr =? 4 then
            '(cf, _) <- d_dict (Resolve f E file) enc (lit "CF") ;;
            fs <- load_cf E (Resolve f E file) (ep_of pr) pw (Z.of_nat (pr_n pr)) cf fs ;;
            stm <- override (Resolve f E file) enc (lit "StmF") fs dflt ;;
            str <- override (Resolve f E file) enc (lit "StrF") fs dflt ;;
            eef <- override (Resolve f E file) enc (lit "EEF") fs dflt ;;
            ret {| sh_stream := stm; sh_string := str; sh_file := eef; sh_filters := fs |}
          else ret {| sh_stream := dflt; sh_string := dflt; sh_file := dflt; sh_filters := fs |}) ;;
    fun p => Ok (None, with_sh h p).

  Lemma standard_n : forall trailer enc pr, standard E file p trailer enc pr -> (5 <= pr_n pr <= 16)%nat.
  Proof. intros trailer enc pr (_ & _ & _ & _ & _ & _ & (l & _ & ->) & _). lia. Qed.

  Lemma init_gives : forall pw trailer enc pr r post, standard E file p trailer enc pr ->
    gives file p (init_tail pr pw enc) r post -> gives file p (fun f => init_security E (Resolve f E file) pw trailer) r post.
  Proof.
    intros pw trailer enc pr r post S G. pose proof (standard_n _ _ _ S) as N.
    destruct S as (Denc & Dflt & Dv & Hv & Dr & Hr & (l & Hl & Hn) & Do & Du & Dp & Dm & ids & Dids & Did).
    unfold init_security.
    eapply gives_bind; [apply dict_gives; exact Denc |]. bi.
    eapply gives_bind; [apply name_gives; exact Dflt |]. cbv beta iota. change (bseq (lit "Standard") (lit "Standard")) with true. bi.
    eapply gives_bind; [apply int_gives; exact Dv |]. cbv beta iota.
    replace ((pr_v pr =? 1) || (pr_v pr =? 2) || (pr_v pr =? 4)) with true by (destruct Hv as [-> | [-> | ->]]; reflexivity). bi.
    eapply gives_bind; [apply int_gives; exact Dr |]. cbv beta iota.
    replace ((pr_r pr <? 2) || (4 <? pr_r pr)) with false
      by (symmetry; apply orb_false_intro; apply Z.ltb_ge; lia). bi.
    assert (X : exists l0 : Z * bool, key_length (pr_v pr) l0 = Z.of_nat (pr_n pr) /\
      gives file p (fun f => if pr_v pr =? 1 then ret (40, true) else d_int (Resolve f E file) enc (lit "Length")) l0 (kept file p)).
    { destruct Hl as [[V1 ->] | [V1 Hl]].
      - exists (40, true). rewrite key_length_spec by assumption. rewrite V1. cbn [Z.eqb fst snd]. split; [rewrite Hn; reflexivity |]. apply gives_ret.
      - destruct (int_or_gives _ _ _ _ Hl) as ([l0 b0] & L0 & G0). exists (l0, b0). rewrite key_length_spec by assumption.
        destruct (Z.eqb_spec (pr_v pr) 1); [contradiction |]. rewrite L0. split; [rewrite Hn; lia |]. exact G0. }
    destruct X as (l0 & L0 & G0). eapply gives_bind; [exact G0 |]. cbv beta. rewrite L0. cbv zeta.
    eapply gives_bind; [apply string_gives; exact Do |]. bi.
    eapply gives_bind; [apply string_gives; exact Du |]. bi.
    eapply gives_bind; [apply int_gives; exact Dp |]. bi.
    assert (X : exists m0 : bool * bool, (if snd m0 then fst m0 else true) = pr_meta pr /\
      gives file p (fun f => d_bool (Resolve f E file) enc (lit "EncryptMetadata")) m0 (kept file p)).
    { destruct Dm as [T | [T ->]].
      - exists (pr_meta pr, true). split; [reflexivity |]. apply bool_gives. assumption.
      - exists (false, false). split; [reflexivity |]. apply bool_gives_not. assumption. }
    destruct X as ([m0 b0] & M0 & G1). cbn [fst snd] in M0. eapply gives_bind; [exact G1 |]. cbv beta iota zeta. rewrite M0.
    eapply gives_bind; [apply array_gives; exact Dids |]. bi.
    eapply gives_bind; [apply a_string_gives; exact Did |]. bi.
    fold (ep_of pr).
    eapply gives_bind; [apply gives_lift; apply compute_key_spec; lia |]. rewrite Nat2Z.id. exact G.
  Qed.

  Hypothesis M5 : forall x, List.length (e_md5 E x) = 16%nat.

  Lemma init_accepts : forall pw trailer enc pr, standard E file p trailer enc pr -> u_long pr -> u_matches E pr pw ->
    cf_good E file p pr pw enc ->
    exists h, installed E file p pr pw enc h /\
      gives file p (fun f => init_security E (Resolve f E file) pw trailer) None
        (fun q => reads file q /\ pxref q = pxref p /\ ptrailer q = ptrailer p /\ psh q = h).
  Proof.
    intros pw trailer enc pr S U P CG. pose proof (standard_n _ _ _ S) as N.
    assert (R : 2 <= pr_r pr <= 4) by (destruct S as (_ & _ & _ & _ & _ & H & _); exact H).
    destruct (check_key_spec E pr pw M5 R N U) as (b & C & Cb). apply Cb in P. subst b.
    assert (X : forall h, gives file p (fun _ => (fun p => Ok (None, with_sh h p)) : M (option encerr)) None
        (fun q => reads file q /\ pxref q = pxref p /\ ptrailer q = ptrailer p /\ psh q = h)).
    { intros h. exists Datatypes.O. intros f q _ (K1 & K2 & K3 & K4). eexists. split; [reflexivity |]. auto. }
    unfold installed, cf_good in *. destruct (Z.eqb_spec (pr_r pr) 4) as [R4 | R4].
    - destruct (CG R4) as (cf & Dcf & Nd & Cf & Ky).
      destruct (load_cf_gives pr pw cf R Cf [(lit "Identity", CFNone)]) as (fs & F & G).
      assert (Nf : NoDup (map fst [(lit "Identity", CFNone)])) by (constructor; [intros [] | constructor]).
      assert (In_fs : forall k c, In (k, c) fs <-> named E file p pr pw cf k c).
      { intros k c. rewrite (filled_In pr pw cf _ _ F Nd Nf). unfold named. split; (intros [H | H]; [left; exact H | right]).
        - destruct H as [[H | []] H2]. injection H as <- <-. auto.
        - destruct H as (-> & -> & H). split; [left; reflexivity | assumption]. }
      destruct (override_gives pr pw enc cf fs (lit "StmF")) as (c1 & C1 & G1); [apply Ky; cbn; auto | assumption |].
      destruct (override_gives pr pw enc cf fs (lit "StrF")) as (c2 & C2 & G2); [apply Ky; cbn; auto | assumption |].
      destruct (override_gives pr pw enc cf fs (lit "EEF")) as (c3 & C3 & G3); [apply Ky; cbn; auto | assumption |].
      exists {| sh_stream := c1; sh_string := c2; sh_file := c3; sh_filters := fs |}. split.
      { exists cf. cbn [sh_stream sh_string sh_file sh_filters]. split; [assumption |]. split; [assumption |].
        split; [eapply filled_NoDup; eassumption |]. auto. }
      apply (init_gives pw trailer enc pr _ _ S). unfold init_tail.
      eapply gives_bind; [apply gives_lift; exact C |]. bi. rewrite R4. cbn [Z.eqb Pos.eqb]. cbv zeta.
      eapply gives_bind; [| apply X].
      assert (Gd : exists b : bool, gives file p (fun f => d_dict (Resolve f E file) enc (lit "CF")) (cf, b) (kept file p)).
      { destruct Dcf as [T | [T ->]]; [exists true; apply dict_gives | exists false; apply dict_gives_not]; assumption. }
      destruct Gd as (b & Gd). eapply gives_bind; [exact Gd |]. cbv beta iota.
      eapply gives_bind; [exact G |]. eapply gives_bind; [exact G1 |]. eapply gives_bind; [exact G2 |]. eapply gives_bind; [exact G3 |].
      apply gives_ret.
    - eexists. split; [reflexivity |]. apply (init_gives pw trailer enc pr _ _ S). unfold init_tail.
      eapply gives_bind; [apply gives_lift; exact C |]. bi. destruct (Z.eqb_spec (pr_r pr) 4); [contradiction |]. cbv zeta.
      eapply gives_bind; [apply gives_ret |]. apply X.
  Qed.
  Lemma init_rejects : forall pw trailer enc pr, standard E file p trailer enc pr -> u_long pr -> ~ u_matches E pr pw ->
    gives file p (fun f => init_security E (Resolve f E file) pw trailer) (Some EncryptionPasswordError) (kept file p).
  Proof.
    intros pw trailer enc pr S U P. pose proof (standard_n _ _ _ S) as N.
    assert (R : 2 <= pr_r pr <= 4) by (destruct S as (_ & _ & _ & _ & _ & H & _); exact H).
    destruct (check_key_spec E pr pw M5 R N U) as (b & C & Cb).
    assert (b = false) by (destruct b; [exfalso; apply P; apply Cb; reflexivity | reflexivity]). subst b.
    apply (init_gives pw trailer enc pr _ _ S). unfold init_tail.
    eapply gives_bind; [apply gives_lift; exact C |]. bi. apply gives_ret.
  Qed.

  (** ** what is known after an accepted password *)
  Lemma init_only : forall f pw trailer, got file p (init_security E (Resolve f E file) pw trailer)
    (fun r _ => r = None -> exists enc pr, standard E file p trailer enc pr /\ u_long pr /\ u_matches E pr pw).
  Proof.
    intros f pw trailer. unfold init_security.
    assert (Bad : forall e : encerr, got file p (ret (Some e)) (fun r _ => r = None ->
      exists enc pr, standard E file p trailer enc pr /\ u_long pr /\ u_matches E pr pw)).
    { intros e. apply got_ret. intros q _ H. discriminate. }
    eapply got_bind; [apply (d_typed_got E file p W O is_dict [] as_dict dict_classifies is_dict_dec) |].
    intros [enc ok] [[Denc Ok1] | [_ Ok1]]; cbn [fst snd] in *; [subst ok | injection Ok1 as -> ->]; cbn [negb]; [| apply Bad].
    eapply got_bind; [apply (d_typed_got E file p W O is_name [] as_name name_classifies is_name_dec) |].
    intros [flt ok] Dflt. destruct (bseq flt (lit "Standard")) eqn:Q; cbn [negb]; [| apply Bad]. apply bseq_eq in Q. subst flt.
    destruct Dflt as [[Dflt Ok1] | [_ Ok1]]; cbn [fst snd] in *; [subst ok | discriminate].
    eapply got_bind; [apply (d_typed_got E file p W O is_int 0 as_int int_classifies is_int_dec) |].
    intros [v ok] Dv. destruct ((v =? 1) || (v =? 2) || (v =? 4)) eqn:Q; cbn [negb]; [| apply Bad].
    assert (Hv : v = 1 \/ v = 2 \/ v = 4).
    { apply orb_prop in Q. destruct Q as [Q | Q]; [apply orb_prop in Q; destruct Q as [Q | Q] |]; apply Z.eqb_eq in Q; auto. }
    destruct Dv as [[Dv Ok1] | [_ Ok1]]; cbn [fst snd] in *; [subst ok | injection Ok1 as -> ->; lia].
    eapply got_bind; [apply (d_typed_got E file p W O is_int 0 as_int int_classifies is_int_dec) |].
    intros [r ok] Dr. destruct ((r <? 2) || (4 <? r)) eqn:Q2; [apply Bad |].
    apply orb_false_elim in Q2. destruct Q2 as [Q2 Q3]. apply Z.ltb_ge in Q2, Q3.
    destruct Dr as [[Dr Ok1] | [_ Ok1]]; cbn [fst snd] in *; [subst ok | injection Ok1 as -> ->; lia].
    eapply got_bind with (Q := fun l => exists l0, (v = 1 /\ l0 = 40 \/ v <> 1 /\ typed_or E file p is_int (entry enc (lit "Length")) 40 l0) /\
       key_length v l = Z.max 5 (Z.min 16 (l0 / 8))).
    { destruct (Z.eqb_spec v 1) as [-> | V1].
      - apply got_ret. intros q K. split; [| assumption]. exists 40. split; [left; auto | reflexivity].
      - eapply got_weaken; [apply (d_typed_got E file p W O is_int 0 as_int int_classifies is_int_dec) |].
        intros [l ok] q [A K]. split; [| assumption]. rewrite (key_length_spec v) by assumption.
        destruct (Z.eqb_spec v 1); [contradiction |]. cbn [fst snd].
        destruct A as [[A Ok1] | [A Ok1]]; cbn [fst snd] in *; [subst ok | injection Ok1 as -> ->].
        + exists l. split; [right; split; [assumption | left; assumption] | reflexivity].
        + exists 40. split; [right; split; [assumption | right; split; [assumption | reflexivity]] | reflexivity]. }
    intros l (l0 & Hl & L0). rewrite L0. cbv zeta.
    eapply got_bind; [apply (d_typed_got E file p W O is_string [] as_string string_classifies is_string_dec) |].
    intros [o ok] [[Do Ok1] | [_ Ok1]]; cbn [fst snd] in *; [subst ok | injection Ok1 as -> ->]; cbn [negb]; [| apply Bad].
    eapply got_bind; [apply (d_typed_got E file p W O is_string [] as_string string_classifies is_string_dec) |].
    intros [u ok] [[Du Ok1] | [_ Ok1]]; cbn [fst snd] in *; [subst ok | injection Ok1 as -> ->]; cbn [negb]; [| apply Bad].
    eapply got_bind; [apply (d_typed_got E file p W O is_int 0 as_int int_classifies is_int_dec) |].
    intros [pp ok] [[Dp Ok1] | [_ Ok1]]; cbn [fst snd] in *; [subst ok | injection Ok1 as -> ->]; cbn [negb]; [| apply Bad].
    eapply got_bind with (Q := fun m : bool * bool => typed_or E file p is_bool (entry enc (lit "EncryptMetadata")) true (if snd m then fst m else true)).
    { eapply got_weaken; [apply (d_typed_got E file p W O is_bool false as_bool bool_classifies is_bool_dec) |].
      intros [m ok] q [A K]. split; [| assumption]. destruct A as [[A Ok1] | [A Ok1]]; cbn [fst snd] in *; [subst ok | injection Ok1 as -> ->].
      - left. assumption.
      - right. auto. }
    intros [m ok] Dm. cbn [fst snd] in Dm. cbv beta iota zeta.
    eapply got_bind; [apply (d_typed_got E file p W O is_array [] as_array array_classifies is_array_dec) |].
    intros [ids ok2] [[Dids Ok1] | [_ Ok1]]; cbn [fst snd] in *; [subst ok2 | injection Ok1 as -> ->]; cbn [negb]; [| apply Bad].
    eapply got_bind; [apply (a_typed_got E file p W O is_string [] as_string string_classifies is_string_dec) |].
    intros [id ok2] [[Did Ok1] | [_ Ok1]]; cbn [fst snd] in *; [subst ok2 | injection Ok1 as -> ->]; cbn [negb]; [| apply Bad].
    set (pr := {| pr_v := v; pr_r := r; pr_n := Z.to_nat (Z.max 5 (Z.min 16 (l0 / 8))); pr_o := o; pr_u := u; pr_p := pp;
                  pr_meta := if ok then m else true; pr_id := id |}).
    assert (S : standard E file p trailer enc pr).
    { unfold standard. cbn [pr_v pr_r pr_n pr_o pr_u pr_p pr_meta pr_id pr].
      split; [assumption |]. split; [assumption |]. split; [assumption |]. split; [assumption |]. split; [assumption |].
      split; [lia |]. split; [exists l0; split; [assumption | reflexivity] |]. split; [assumption |]. split; [assumption |].
      split; [assumption |]. split; [assumption |]. exists ids. split; assumption. }
    change {| ep_r := r; ep_o := o; ep_p := put32 pp; ep_meta := if ok then m else true; ep_id := id |} with (ep_of pr).
    pose proof (standard_n _ _ _ S) as N. assert (R : 2 <= pr_r pr <= 4) by (cbn; lia).
    eapply got_bind with (Q := fun key => key = file_key E pr pw (pr_n pr)).
    { apply got_lift. intros key q K C. split; [| assumption]. rewrite compute_key_spec in C by lia. injection C as <-. reflexivity. }
    intros key ->.
    eapply got_bind with (Q := fun b => b = true -> u_long pr /\ u_matches E pr pw).
    { apply got_lift. intros b q K C. split; [| assumption]. intros ->.
      assert (U : u_long pr).
      { destruct (Z.eq_dec (pr_r pr) 2) as [R2 | R2]; [left; assumption |]. right. unfold check_key in C. cbn [ep_of ep_r] in C.
        destruct (Z.eqb_spec (pr_r pr) 2); [contradiction |]. unfold first16 in C. change u with (pr_u pr) in C.
        destruct (Z.leb_spec 16 (zlen (pr_u pr))); [lia |]. destruct (Z.leb_spec 9 (zlen (pr_u pr))); [assumption | discriminate]. }
      split; [assumption |]. destruct (check_key_spec E pr pw M5 R N U) as (b & C' & Cb). change u with (pr_u pr) in C.
      rewrite C' in C. apply Cb. congruence. }
    intros b Hb. destruct b; cbn [negb]; [| apply Bad].
    intros q a q' K H Ha. exists enc, pr. destruct (Hb eq_refl). auto.
  Qed.

  (** ** Init returns when references can be followed and lengths are in range *)
  Definition yields {A} (m : nat -> M A) (Q : A -> Prop) (post : pst -> Prop) : Prop := exists a, Q a /\ gives file p m a post.
  Lemma yields_bind : forall A B (m : nat -> M A) (k : nat -> A -> M B) (Q : A -> Prop) Q' post,
    yields m Q (kept file p) -> (forall a, Q a -> yields (fun f => k f a) Q' post) -> yields (fun f => bind (m f) (k f)) Q' post.
  Proof.
    intros A B m k Q Q' post (a & HQ & G) H. destruct (H a HQ) as (b & HQ' & G'). exists b. split; [assumption |].
    eapply gives_bind; eassumption.
  Qed.
  Lemma yields_ret : forall A (a : A) (Q : A -> Prop), Q a -> yields (fun _ => ret a) Q (kept file p).
  Proof. intros A a Q H. exists a. split; [assumption | apply gives_ret]. Qed.
  Lemma yields_post : forall A (m : nat -> M A) (Q : A -> Prop) (post post' : pst -> Prop), yields m Q post ->
    (forall q, post q -> post' q) -> yields m Q post'.
  Proof.
    intros A m Q post post' (a & HQ & f0 & G) H. exists a. split; [assumption |]. exists f0. intros f q L K.
    destruct (G f q L K) as (q' & R & P). eauto.
  Qed.

  Hypothesis T : forall n, exists o, target E file p n o.
  Lemma value_total : forall x, exists y, value E file p x y.
  Proof.
    intros [x |]; [| eexists; constructor].
    destruct x; try (eexists; apply v_direct; discriminate).
    destruct (T n) as (o & H). eexists. apply v_ref. exact H.
  Qed.
  Lemma d_yields : forall A (is : obj -> A -> Prop) zero as_, classifies is zero as_ -> (forall v, (exists a, is v a) \/ (forall a, ~ is v a)) ->
    forall d k, yields (fun f => x <- d_object (Resolve f E file) d k ;; ret (as_ x)) (answer E file p is zero (entry d k)) (kept file p).
  Proof.
    intros A is zero as_ C D d k. destruct (value_total (entry d k)) as (y & V). exists (as_ (found y)).
    split; [apply (as_answer E file p is zero as_ C D); assumption |].
    eapply gives_bind; [apply (d_object_gives E file p W O); exact V |]. apply gives_ret.
  Qed.
  Lemma a_yields : forall A (is : obj -> A -> Prop) zero as_, classifies is zero as_ -> (forall v, (exists a, is v a) \/ (forall a, ~ is v a)) ->
    forall d k, yields (fun f => x <- a_object (Resolve f E file) d k ;; ret (as_ x)) (answer E file p is zero (element d k)) (kept file p).
  Proof.
    intros A is zero as_ C D d k. destruct (value_total (element d k)) as (y & V). exists (as_ (found y)).
    split; [apply (as_answer E file p is zero as_ C D); assumption |].
    eapply gives_bind; [apply (a_object_gives E file p W O); exact V |]. apply gives_ret.
  Qed.
  Lemma answer_dec : forall A (is : obj -> A -> Prop) x, (forall v, (exists a, is v a) \/ (forall a, ~ is v a)) ->
    (exists a, typed E file p is x a) \/ untyped E file p is x.
  Proof.
    intros A is x D. destruct (value_total x) as (y & V). destruct y as [v |]; [| right; left; assumption].
    destruct (D v) as [[a H] | N]; [left; exists a, v; auto | right; right; eauto].
  Qed.
  Lemma typed_or_total : forall A (is : obj -> A -> Prop) x d, (forall v, (exists a, is v a) \/ (forall a, ~ is v a)) ->
    exists a, typed_or E file p is x d a.
  Proof.
    intros A is x d D. destruct (answer_dec A is x D) as [[a H] | H]; [exists a; left; assumption | exists d; right; auto].
  Qed.

  (** the crypt filters' Length entries *)
  Definition lengths_ok (enc : dict) : Prop := forall cf k d l, typed E file p is_dict (entry enc (lit "CF")) cf -> In (k, ODict d) cf ->
    typed E file p is_int (entry d (lit "Length")) l -> 0 <= l <= 16.

  Lemma cf_total : forall pr pw enc cf, (pr_n pr <= 16)%nat -> lengths_ok enc -> typed_or E file p is_dict (entry enc (lit "CF")) [] cf ->
    forall k o, In (k, o) cf -> exists c, cf_defines E file p pr pw o c.
  Proof.
    intros pr pw enc cf N L D k o I. 
    destruct o; try (exists None; apply cf_other; discriminate).
    destruct (answer_dec _ is_name (entry d (lit "CFM")) is_name_dec) as [[m M] | U]; [| exists None; apply cf_unnamed; assumption].
    destruct (typed_or_total _ is_int (entry d (lit "Length")) (Z.of_nat (pr_n pr)) is_int_dec) as (l & Hl).
    assert (B : 0 <= l <= 16).
    { destruct Hl as [Hl | [_ ->]]; [| lia]. destruct D as [D | [_ ->]]; [| destruct I]. eapply L; eassumption. }
    destruct (list_eq_dec byte_eq_dec m (lit "None")) as [-> | N1]; [eexists; eapply cf_method; [eassumption.. |]; left; split; reflexivity |].
    destruct (list_eq_dec byte_eq_dec m (lit "V2")) as [-> | N2].
    { eexists; eapply cf_method; [eassumption.. |]. right; left. split; [reflexivity |]. split; [exact B | reflexivity]. }
    destruct (list_eq_dec byte_eq_dec m (lit "AESV2")) as [-> | N3].
    { eexists; eapply cf_method; [eassumption.. |]. right; right; left. split; [reflexivity |]. split; [exact B | reflexivity]. }
    eexists; eapply cf_method; [eassumption.. |]. right; right; right. auto.
  Qed.
  Lemma override_yields : forall enc k fs dflt, yields (fun f => override (Resolve f E file) enc k fs dflt) (fun _ => True) (kept file p).
  Proof.
    intros enc k fs dflt. unfold override. eapply yields_bind; [apply (d_yields _ is_name [] as_name name_classifies is_name_dec) |].
    intros [n ok] _. apply yields_ret. exact I.
  Qed.

  Lemma init_returns : forall pw trailer, (forall enc pr, standard E file p trailer enc pr -> u_long pr /\ (pr_r pr = 4 -> lengths_ok enc)) ->
    yields (fun f => init_security E (Resolve f E file) pw trailer) (fun _ => True) (fun _ => True).
  Proof.
    intros pw trailer H. unfold init_security.
    assert (Bad : forall e : encerr, yields (fun _ => ret (Some e)) (fun _ => True) (fun _ => True)).
    { intros e. eapply yields_post; [apply yields_ret; exact I | auto]. }
    eapply yields_bind; [apply (d_yields _ is_dict [] as_dict dict_classifies is_dict_dec) |].
    intros [enc ok] [[Denc Ok1] | [_ Ok1]]; cbn [fst snd] in *; [subst ok | injection Ok1 as -> ->]; cbn [negb]; [| apply Bad].
    eapply yields_bind; [apply (d_yields _ is_name [] as_name name_classifies is_name_dec) |].
    intros [flt ok] Dflt. destruct (bseq flt (lit "Standard")) eqn:Q; cbn [negb]; [| apply Bad]. apply bseq_eq in Q. subst flt.
    destruct Dflt as [[Dflt Ok1] | [_ Ok1]]; cbn [fst snd] in *; [subst ok | discriminate].
    eapply yields_bind; [apply (d_yields _ is_int 0 as_int int_classifies is_int_dec) |].
    intros [v ok] Dv. destruct ((v =? 1) || (v =? 2) || (v =? 4)) eqn:Q; cbn [negb]; [| apply Bad].
    assert (Hv : v = 1 \/ v = 2 \/ v = 4).
    { apply orb_prop in Q. destruct Q as [Q | Q]; [apply orb_prop in Q; destruct Q as [Q | Q] |]; apply Z.eqb_eq in Q; auto. }
    destruct Dv as [[Dv Ok1] | [_ Ok1]]; cbn [fst snd] in *; [subst ok | injection Ok1 as -> ->; lia].
    eapply yields_bind; [apply (d_yields _ is_int 0 as_int int_classifies is_int_dec) |].
    intros [r ok] Dr. destruct ((r <? 2) || (4 <? r)) eqn:Q2; [apply Bad |].
    apply orb_false_elim in Q2. destruct Q2 as [Q2 Q3]. apply Z.ltb_ge in Q2, Q3.
    destruct Dr as [[Dr Ok1] | [_ Ok1]]; cbn [fst snd] in *; [subst ok | injection Ok1 as -> ->; lia].
    eapply yields_bind with (Q := fun l => exists l0, (v = 1 /\ l0 = 40 \/ v <> 1 /\ typed_or E file p is_int (entry enc (lit "Length")) 40 l0) /\
       key_length v l = Z.max 5 (Z.min 16 (l0 / 8))).
    { destruct (Z.eqb_spec v 1) as [-> | V1].
      - apply yields_ret. exists 40. split; [left; auto | reflexivity].
      - destruct (d_yields _ is_int 0 as_int int_classifies is_int_dec enc (lit "Length")) as ([l ok] & A & G).
        exists (l, ok). split; [| exact G]. rewrite (key_length_spec v) by assumption.
        destruct (Z.eqb_spec v 1); [contradiction |]. cbn [fst snd].
        destruct A as [[A Ok1] | [A Ok1]]; cbn [fst snd] in *; [subst ok | injection Ok1 as -> ->].
        + exists l. split; [right; split; [assumption | left; assumption] | reflexivity].
        + exists 40. split; [right; split; [assumption | right; split; [assumption | reflexivity]] | reflexivity]. }
    intros l (l0 & Hl & L0). rewrite L0. cbv zeta.
    eapply yields_bind; [apply (d_yields _ is_string [] as_string string_classifies is_string_dec) |].
    intros [o ok] [[Do Ok1] | [_ Ok1]]; cbn [fst snd] in *; [subst ok | injection Ok1 as -> ->]; cbn [negb]; [| apply Bad].
    eapply yields_bind; [apply (d_yields _ is_string [] as_string string_classifies is_string_dec) |].
    intros [u ok] [[Du Ok1] | [_ Ok1]]; cbn [fst snd] in *; [subst ok | injection Ok1 as -> ->]; cbn [negb]; [| apply Bad].
    eapply yields_bind; [apply (d_yields _ is_int 0 as_int int_classifies is_int_dec) |].
    intros [pp ok] [[Dp Ok1] | [_ Ok1]]; cbn [fst snd] in *; [subst ok | injection Ok1 as -> ->]; cbn [negb]; [| apply Bad].
    eapply yields_bind with (Q := fun m : bool * bool => typed_or E file p is_bool (entry enc (lit "EncryptMetadata")) true (if snd m then fst m else true)).
    { destruct (d_yields _ is_bool false as_bool bool_classifies is_bool_dec enc (lit "EncryptMetadata")) as ([m ok] & A & G).
      exists (m, ok). split; [| exact G]. destruct A as [[A Ok1] | [A Ok1]]; cbn [fst snd] in *; [subst ok | injection Ok1 as -> ->].
      - left. assumption.
      - right. auto. }
    intros [m ok] Dm. cbn [fst snd] in Dm. cbv beta iota zeta.
    eapply yields_bind; [apply (d_yields _ is_array [] as_array array_classifies is_array_dec) |].
    intros [ids ok2] [[Dids Ok1] | [_ Ok1]]; cbn [fst snd] in *; [subst ok2 | injection Ok1 as -> ->]; cbn [negb]; [| apply Bad].
    eapply yields_bind; [apply (a_yields _ is_string [] as_string string_classifies is_string_dec) |].
    intros [id ok2] [[Did Ok1] | [_ Ok1]]; cbn [fst snd] in *; [subst ok2 | injection Ok1 as -> ->]; cbn [negb]; [| apply Bad].
    set (pr := {| pr_v := v; pr_r := r; pr_n := Z.to_nat (Z.max 5 (Z.min 16 (l0 / 8))); pr_o := o; pr_u := u; pr_p := pp;
                  pr_meta := if ok then m else true; pr_id := id |}).
    assert (S : standard E file p trailer enc pr).
    { unfold standard. cbn [pr_v pr_r pr_n pr_o pr_u pr_p pr_meta pr_id pr].
      split; [assumption |]. split; [assumption |]. split; [assumption |]. split; [assumption |]. split; [assumption |].
      split; [lia |]. split; [exists l0; split; [assumption | reflexivity] |]. split; [assumption |]. split; [assumption |].
      split; [assumption |]. split; [assumption |]. exists ids. split; assumption. }
    change {| ep_r := r; ep_o := o; ep_p := put32 pp; ep_meta := if ok then m else true; ep_id := id |} with (ep_of pr).
    pose proof (standard_n _ _ _ S) as N. assert (R : 2 <= pr_r pr <= 4) by (cbn; lia). destruct (H enc pr S) as [U L].
    eapply yields_bind with (Q := fun key => key = file_key E pr pw (pr_n pr)).
    { eexists. split; [reflexivity |]. apply gives_lift. rewrite compute_key_spec by lia. reflexivity. }
    intros key ->.
    eapply yields_bind with (Q := fun b => True).
    { destruct (check_key_spec E pr pw M5 R N U) as (b & C' & _). exists b. split; [exact I |]. apply gives_lift. exact C'. }
    intros b _. destruct b; cbn [negb]; [| apply Bad].
    eapply yields_bind with (Q := fun _ => True).
    - change r with (pr_r pr). destruct (Z.eqb_spec (pr_r pr) 4) as [R4 | R4]; [| apply yields_ret; exact I].
      specialize (L R4).
      eapply yields_bind with (Q := fun c => typed_or E file p is_dict (entry enc (lit "CF")) [] (fst c)).
      { destruct (d_yields _ is_dict [] as_dict dict_classifies is_dict_dec enc (lit "CF")) as (c & A & G). exists c. split; [| exact G].
        destruct A as [[A _] | [A ->]]; [left; assumption | right; auto]. }
      intros [cf ok2] Dcf. cbn [fst] in Dcf.
      destruct (load_cf_gives pr pw cf R (cf_total pr pw enc cf (proj2 N) L Dcf) [(lit "Identity", CFNone)]) as (fs & _ & G).
      replace (Z.max 5 (Z.min 16 (l0 / 8))) with (Z.of_nat (pr_n pr)) by (unfold pr; cbn [pr_n]; lia).
      eapply yields_bind; [exists fs; split; [exact I | exact G] |]. intros fs' _.
      eapply yields_bind; [apply override_yields |]. intros c1 _.
      eapply yields_bind; [apply override_yields |]. intros c2 _.
      eapply yields_bind; [apply override_yields |]. intros c3 _.
      apply yields_ret. exact I.
    - intros h _. exists None. split; [exact I |]. exists Datatypes.O. intros f q _ _. eexists. split; [reflexivity | exact I].
  Qed.
End CF.

(** ** SetPassword *)
Lemma at_self : forall A file p (m : nat -> M A) a post, reads file p -> gives file p m a post ->
  exists f0, forall f, (f0 <= f)%nat -> exists p', m f p = Ok (a, p') /\ post p'.
Proof. intros A file p m a post W (f0 & G). exists f0. intros f L. apply G; [assumption | apply kept_refl; assumption]. Qed.

Lemma u_full_long : forall pr, u_full pr -> u_long pr.
Proof. intros pr [H | H]; [left; assumption | right; lia]. Qed.
Lemma firstn_16 : forall (u : bytes), 16 <= zlen u -> firstn 16 (u ++ repeat x00 16) = firstn 16 u.
Proof. intros u H. unfold zlen in H. rewrite firstn_app. replace (16 - List.length u)%nat with 0%nat by lia. cbn [firstn]. apply app_nil_r. Qed.
Lemma u_matches_full : forall E pr pw, u_full pr -> (u_matches E pr pw <-> user_password E pr pw).
Proof.
  intros E pr pw U. unfold u_matches, user_password. destruct (Z.eqb_spec (pr_r pr) 2) as [R | R]; [split; auto |].
  destruct U as [U | U]; [contradiction |]. rewrite firstn_16 by assumption. split; auto.
Qed.
Lemma user_password_full : forall E pr pw, (forall x, List.length (e_md5 E x) = 16%nat) -> user_password E pr pw -> u_full pr.
Proof.
  intros E pr pw M (w & H & U). unfold user_entry in H. destruct (Z.eqb_spec (pr_r pr) 2) as [R | R]; [left; assumption |]. right.
  apply rc4_times_length in H. rewrite M, <- U in H. rewrite firstn_length in H. unfold zlen. lia.
Qed.
Lemma password_accepted : forall E file p pw enc pr, reads file p -> offsets_ok (pxref p) -> (forall x, List.length (e_md5 E x) = 16%nat) ->
  standard E file p (ptrailer p) enc pr -> user_password E pr pw -> cf_good E file p pr pw enc ->
  exists h f0, installed E file p pr pw enc h /\ forall fuel, (f0 <= fuel)%nat -> exists p',
    set_password fuel E file pw p = Ok (None, p') /\ reads file p' /\ pxref p' = pxref p /\ ptrailer p' = ptrailer p /\ psh p' = h.
Proof.
  intros E file p pw enc pr W O M S P C. pose proof (user_password_full _ _ _ M P) as U.
  destruct (init_accepts E file p W O M pw _ enc pr S (u_full_long _ U) (proj2 (u_matches_full _ _ _ U) P) C) as (h & I & G).
  destruct (at_self _ _ _ _ _ _ W G) as (f0 & H). exists h, f0. split; assumption.
Qed.
Lemma password_rejected : forall E file p pw enc pr, reads file p -> offsets_ok (pxref p) -> (forall x, List.length (e_md5 E x) = 16%nat) ->
  standard E file p (ptrailer p) enc pr -> u_full pr -> ~ user_password E pr pw ->
  exists f0, forall fuel, (f0 <= fuel)%nat -> exists p', set_password fuel E file pw p = Ok (Some EncryptionPasswordError, p') /\ psh p' = psh p.
Proof.
  intros E file p pw enc pr W O M S U P.
  destruct (at_self _ _ _ _ _ _ W (init_rejects E file p W O M pw _ enc pr S (u_full_long _ U) (fun Q => P (proj1 (u_matches_full _ _ _ U) Q)))) as (f0 & H).
  exists f0. intros f L. destruct (H f L) as (p' & R & K). exists p'. split; [exact R | apply K].
Qed.
Lemma password_only : forall E file p pw fuel p', reads file p -> offsets_ok (pxref p) -> (forall x, List.length (e_md5 E x) = 16%nat) ->
  set_password fuel E file pw p = Ok (None, p') ->
  exists enc pr, standard E file p (ptrailer p) enc pr /\ (u_full pr -> user_password E pr pw).
Proof.
  intros E file p pw fuel p' W O M H.
  destruct (init_only E file p W O M fuel pw (ptrailer p) p None p' (kept_refl _ _ W) H eq_refl) as (enc & pr & S & _ & P).
  exists enc, pr. split; [assumption |]. intros U. apply u_matches_full; assumption.
Qed.
Lemma password_returns : forall E file p pw, reads file p -> offsets_ok (pxref p) -> (forall x, List.length (e_md5 E x) = 16%nat) ->
  (forall n, exists o, target E file p n o) ->
  (forall enc pr, standard E file p (ptrailer p) enc pr -> u_long pr /\ (pr_r pr = 4 -> lengths_ok E file p enc)) ->
  exists r f0, forall fuel, (f0 <= fuel)%nat -> exists p', set_password fuel E file pw p = Ok (r, p').
Proof.
  intros E file p pw W O M T H. destruct (init_returns E file p W O M T pw (ptrailer p) H) as (r & _ & G).
  destruct (at_self _ _ _ _ _ _ W G) as (f0 & R). exists r, f0. intros f L. destruct (R f L) as (p' & R' & _). eauto.
Qed.

(** *** an error leaves everything as it was *)
Definition errs (file : bytes) (m : M (option encerr)) : Prop := forall p e p', reads file p -> m p = Ok (Some e, p') -> stays file p p'.
Lemma errs_ret : forall file x, errs file (ret x).
Proof. intros file x p e p' W H. unfold ret in H. assert (p' = p) by congruence. subst. apply stays_refl. assumption. Qed.
Lemma errs_bind : forall A file (m : M A) k, still file m -> (forall a, errs file (k a)) -> errs file (bind m k).
Proof.
  intros A file m k Hm Hk p e p' W H. unfold bind in H. destruct (m p) as [[a p1]| |] eqn:X; try discriminate.
  pose proof (Hm _ _ _ W X) as S. eapply stays_trans; [exact S |]. eapply Hk; [apply S | exact H].
Qed.
Lemma lift_still : forall A file (x : res A), still file (lift x).
Proof. intros A file x p a p' W H. unfold lift in H. destruct x; try discriminate. assert (p' = p) by congruence. subst. apply stays_refl. assumption. Qed.
Section Still.
  Variables (E : env) (file : bytes) (rs : Z -> M iobj).
  Hypothesis H : forall n, still file (rs n).
  Ltac st := repeat first [apply ret_still | apply lift_still | apply bind_still; [| intros] | apply d_object_still; exact H | apply a_object_still; exact H
    | match goal with |- still _ (let '(_, _) := ?x in _) => destruct x end
    | match goal with |- still _ (if ?b then _ else _) => destruct b end].
  Lemma d_dict_still : forall d k, still file (d_dict rs d k). Proof. intros. unfold d_dict. st. Qed.
  Lemma d_name_still : forall d k, still file (d_name rs d k). Proof. intros. unfold d_name. st. Qed.
  Lemma d_int_still : forall d k, still file (d_int rs d k). Proof. intros. unfold d_int. st. Qed.
  Lemma d_string_still : forall d k, still file (d_string rs d k). Proof. intros. unfold d_string. st. Qed.
  Lemma d_bool_still : forall d k, still file (d_bool rs d k). Proof. intros. unfold d_bool. st. Qed.
  Lemma d_array_still : forall d k, still file (d_array rs d k). Proof. intros. unfold d_array. st. Qed.
  Lemma a_string_still : forall d k, still file (a_string rs d k). Proof. intros. unfold a_string. st. Qed.
  Lemma load_cf_still : forall ep pw n cf fs, still file (load_cf E rs ep pw n cf fs).
  Proof.
    intros ep pw n cf. induction cf as [| [k o] cf IH]; intros fs; cbn [load_cf]; [apply ret_still |].
    destruct o; try apply IH. apply bind_still; [apply d_name_still |]. intros [m ok]. apply bind_still; [| intros; apply IH].
    destruct ok; [| apply ret_still]. apply bind_still; [apply d_int_still |]. intros [l ok]. st.
  Qed.
  Lemma override_still : forall enc k fs d, still file (override rs enc k fs d).
  Proof. intros. unfold override. apply bind_still; [apply d_name_still |]. intros [n ok]. apply ret_still. Qed.
  Lemma init_errs : forall pw t, errs file (init_security E rs pw t).
  Proof.
    intros pw t. unfold init_security.
    apply errs_bind; [apply d_dict_still |]. intros [enc ok]. destruct ok; cbn [negb]; [| apply errs_ret].
    apply errs_bind; [apply d_name_still |]. intros [flt ok]. destruct (negb _); [apply errs_ret |].
    apply errs_bind; [apply d_int_still |]. intros [v ok2]. destruct (negb _); [apply errs_ret |].
    apply errs_bind; [apply d_int_still |]. intros [r ok3]. destruct (_ || _); [apply errs_ret |].
    apply errs_bind; [destruct (v =? 1); [apply ret_still | apply d_int_still] |]. intros l. cbv zeta.
    apply errs_bind; [apply d_string_still |]. intros [o ok4]. destruct (negb ok4); [apply errs_ret |].
    apply errs_bind; [apply d_string_still |]. intros [u ok5]. destruct (negb ok5); [apply errs_ret |].
    apply errs_bind; [apply d_int_still |]. intros [p0 ok6]. destruct (negb ok6); [apply errs_ret |].
    apply errs_bind; [apply d_bool_still |]. intros [em ok7].
    apply errs_bind; [apply d_array_still |]. intros [ids ok8]. destruct (negb ok8); [apply errs_ret |].
    apply errs_bind; [apply a_string_still |]. intros [id ok9]. destruct (negb ok9); [apply errs_ret |].
    apply errs_bind; [apply lift_still |]. intros key.
    apply errs_bind; [apply lift_still |]. intros good. destruct (negb good); [apply errs_ret |].
    apply errs_bind.
    - destruct (r =? 4); [| apply ret_still]. apply bind_still; [apply d_dict_still |]. intros [cf okc].
      apply bind_still; [apply load_cf_still |]. intros fs.
      apply bind_still; [apply override_still |]. intros c1. apply bind_still; [apply override_still |]. intros c2.
      apply bind_still; [apply override_still |]. intros c3. apply ret_still.
    - intros h p e p' W X. discriminate.
  Qed.
End Still.
Lemma password_error_stays : forall E file p pw fuel e p', reads file p ->
  set_password fuel E file pw p = Ok (Some e, p') -> stays file p p'.
Proof.
  intros E file p pw fuel e p' W X. eapply (init_errs E file (Resolve fuel E file)); [| exact W | exact X].
  intros n q a q' Wq R. eapply Resolve_stays; eassumption.
Qed.
(** unsupported handlers *)
Lemma password_unsupported : forall E file p pw enc, reads file p -> offsets_ok (pxref p) ->
  typed E file p is_dict (entry (ptrailer p) (lit "Encrypt")) enc ->
  (exists v, value E file p (entry enc (lit "Filter")) v /\ v <> Some (OName (lit "Standard"))) \/
  (typed E file p is_name (entry enc (lit "Filter")) (lit "Standard") /\ exists v, typed_or E file p is_int (entry enc (lit "V")) 0 v /\ ~ In v [1; 2; 4]) \/
  (typed E file p is_name (entry enc (lit "Filter")) (lit "Standard") /\ exists v r, typed E file p is_int (entry enc (lit "V")) v /\ In v [1; 2; 4] /\
     typed_or E file p is_int (entry enc (lit "R")) 0 r /\ ~ In r [2; 3; 4]) ->
  exists f0, forall fuel, (f0 <= fuel)%nat -> exists p', set_password fuel E file pw p = Ok (Some EncryptionUnsupported, p').
Proof.
  intros E file p pw enc W O D H.
  assert (G : gives file p (fun f => init_security E (Resolve f E file) pw (ptrailer p)) (Some EncryptionUnsupported) (kept file p)).
  { unfold init_security. eapply gives_bind; [apply (dict_gives E file p W O); exact D |]. cbv beta iota. cbn [negb].
    destruct H as [(v & V & N) | [(F & v & V & N) | (F & v & r & V & Nv & R & N)]].
    - assert (X : exists r, bseq (fst r) (lit "Standard") = false /\ gives file p (fun f => d_name (Resolve f E file) enc (lit "Filter")) r (kept file p)).
      { exists (as_name (found v)). split.
        - destruct v as [v |]; [| reflexivity]. destruct v as [| | v | | | |]; try reflexivity. cbn [found as_name fst]. destruct (bseq v (lit "Standard")) eqn:Q; [| reflexivity].
          apply bseq_eq in Q. congruence.
        - eapply gives_bind; [apply (d_object_gives E file p W O); exact V |]. apply gives_ret. }
      destruct X as ([n ok] & Q & G). eapply gives_bind; [exact G |]. cbv beta iota. cbn [fst] in Q. rewrite Q. cbn [negb]. apply gives_ret.
    - eapply gives_bind; [apply (name_gives E file p W O); exact F |]. cbv beta iota. change (bseq (lit "Standard") (lit "Standard")) with true. cbn [negb].
      assert (X : exists ok : bool, gives file p (fun f => d_int (Resolve f E file) enc (lit "V")) (v, ok) (kept file p)).
      { destruct V as [V | [V ->]]; [exists true; apply (int_gives E file p W O) | exists false; apply (int_gives_not E file p W O)]; assumption. }
      destruct X as (ok & G). eapply gives_bind; [exact G |]. cbv beta iota.
      replace ((v =? 1) || (v =? 2) || (v =? 4)) with false; [cbn [negb]; apply gives_ret |].
      symmetry. apply orb_false_intro; [apply orb_false_intro |]; apply Z.eqb_neq; intros ->; apply N; cbn; auto.
    - eapply gives_bind; [apply (name_gives E file p W O); exact F |]. cbv beta iota. change (bseq (lit "Standard") (lit "Standard")) with true. cbn [negb].
      eapply gives_bind; [apply (int_gives E file p W O); exact V |]. cbv beta iota.
      replace ((v =? 1) || (v =? 2) || (v =? 4)) with true
        by (cbn in Nv; destruct Nv as [<- | [<- | [<- | []]]]; reflexivity). cbn [negb].
      assert (X : exists ok : bool, gives file p (fun f => d_int (Resolve f E file) enc (lit "R")) (r, ok) (kept file p)).
      { destruct R as [R | [R ->]]; [exists true; apply (int_gives E file p W O) | exists false; apply (int_gives_not E file p W O)]; assumption. }
      destruct X as (ok & G). eapply gives_bind; [exact G |]. cbv beta iota.
      replace ((r <? 2) || (4 <? r)) with true; [apply gives_ret |].
      symmetry. apply orb_true_iff. cbn in N. destruct (Z_lt_dec r 2); [left; apply Z.ltb_lt; lia | right; apply Z.ltb_lt].
      destruct (Z.eq_dec r 2) as [-> |]; [exfalso; apply N; auto |]. destruct (Z.eq_dec r 3) as [-> |]; [exfalso; apply N; auto |]. destruct (Z.eq_dec r 4) as [-> |]; [exfalso; apply N; auto |]. lia. }
  destruct (at_self _ _ _ _ _ _ W G) as (f0 & R). exists f0. intros f L. destruct (R f L) as (p' & R' & _). exists p'. exact R'.
Qed.
Lemma compute_key_algorithm : forall E r o p meta id password n, 2 <= r <= 4 -> 0 <= n <= 16 ->
  compute_key E {| ep_r := r; ep_o := o; ep_p := put32 p; ep_meta := meta; ep_id := id |} password n =
    Ok (file_key_of (e_md5 E) r meta o p id password (Z.to_nat n)).
Proof.
  intros E r o p meta id password n R N.
  exact (compute_key_spec E {| pr_v := 0; pr_r := r; pr_n := 0; pr_o := o; pr_u := []; pr_p := p; pr_meta := meta; pr_id := id |} password n R N).
Qed.
