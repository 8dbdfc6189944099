(** BaseP.v -- facts about the basic types. *)
From Verif Require Import Base.
From Coq Require Import Strings.String Sorting.Permutation.

Lemma beq_eq : forall a b, beq a b = true <-> a = b.
Proof.
  intros a b; split.
  - apply Byte.byte_dec_bl.
  - intros ->. apply Byte.byte_dec_lb. reflexivity.
Qed.

Lemma beq_refl : forall a, beq a a = true.
Proof. intros; apply beq_eq; reflexivity. Qed.

Lemma beq_neq : forall a b, beq a b = false <-> a <> b.
Proof.
  intros a b; split.
  - intros H ->. rewrite beq_refl in H; discriminate.
  - intros H. destruct (beq a b) eqn:E; [apply beq_eq in E; contradiction | reflexivity].
Qed.

Lemma beq_sym : forall a b, beq a b = beq b a.
Proof.
  intros a b. destruct (beq a b) eqn:E.
  - apply beq_eq in E; subst. symmetry; apply beq_refl.
  - apply beq_neq in E. symmetry; apply beq_neq. congruence.
Qed.

Lemma bseq_eq : forall a b, bseq a b = true <-> a = b.
Proof.
  induction a as [|x a IH]; destruct b as [|y b]; simpl; split; intros H; try discriminate; auto.
  - apply andb_prop in H as [H1 H2]. apply beq_eq in H1. apply IH in H2. congruence.
  - injection H as -> ->. rewrite beq_refl. simpl. apply IH; reflexivity.
Qed.

Lemma bseq_refl : forall a, bseq a a = true.
Proof. intros; apply bseq_eq; reflexivity. Qed.

Lemma bseq_neq : forall a b, bseq a b = false <-> a <> b.
Proof.
  intros a b; split.
  - intros H ->. rewrite bseq_refl in H; discriminate.
  - intros H. destruct (bseq a b) eqn:E; [apply bseq_eq in E; contradiction | reflexivity].
Qed.

Lemma bv_range : forall b, 0 <= bv b < 256.
Proof.
  intros b. unfold bv. pose proof (Byte.to_N_bounded b). lia.
Qed.

Lemma bv_inj : forall a b, bv a = bv b -> a = b.
Proof.
  intros a b H. unfold bv in H. apply N2Z.inj in H.
  assert (Byte.of_N (Byte.to_N a) = Byte.of_N (Byte.to_N b)) by congruence.
  rewrite !Byte.of_to_N in H0. congruence.
Qed.

Lemma bv_zb : forall z, bv (zb z) = z mod 256.
Proof.
  intros z. unfold zb.
  assert (0 <= z mod 256 < 256) by (apply Z.mod_pos_bound; lia).
  destruct (Byte.of_N (Z.to_N (z mod 256))) eqn:E.
  - apply Byte.to_of_N in E. unfold bv. rewrite E. rewrite Z2N.id; lia.
  - apply Byte.of_N_None_iff in E. lia.
Qed.

Lemma zb_bv : forall b, zb (bv b) = b.
Proof.
  intros b. apply bv_inj. rewrite bv_zb. apply Z.mod_small. apply bv_range.
Qed.

Lemma zb_mod : forall z, zb (z mod 256) = zb z.
Proof. intros. apply bv_inj. rewrite !bv_zb. apply Z.mod_mod. lia. Qed.

Lemma inb_In : forall b l, inb b l = true <-> In b l.
Proof.
  intros b l. unfold inb. rewrite existsb_exists. split.
  - intros (x & H & E). apply beq_eq in E. congruence.
  - intros H. exists b. rewrite beq_refl. auto.
Qed.

Lemma zlen_nonneg : forall A (l : list A), 0 <= zlen l.
Proof. intros; unfold zlen; lia. Qed.

Lemma zlen_app : forall A (a b : list A), zlen (a ++ b) = zlen a + zlen b.
Proof. intros; unfold zlen; rewrite app_length; lia. Qed.

Lemma zlen_cons : forall A (a : A) l, zlen (a :: l) = 1 + zlen l.
Proof. intros; unfold zlen; cbn [List.length]; lia. Qed.

Lemma zlen_nil : forall A, zlen (@nil A) = 0.
Proof. reflexivity. Qed.

Lemma zdrop_len : forall A off (l : list A), 0 <= off -> zlen (zdrop off l) = Z.max 0 (zlen l - off).
Proof.
  intros A off l H. unfold zdrop. destruct (off <? zlen l) eqn:E.
  - apply Z.ltb_lt in E. unfold zlen in *. rewrite skipn_length. lia.
  - apply Z.ltb_ge in E. rewrite zlen_nil. lia.
Qed.

Lemma zdrop_skipn : forall A off (l : list A), 0 <= off -> zdrop off l = skipn (Z.to_nat off) l.
Proof.
  intros A off l H. unfold zdrop. destruct (off <? zlen l) eqn:E; [reflexivity|].
  apply Z.ltb_ge in E. symmetry. apply skipn_all2. unfold zlen in E. lia.
Qed.

Lemma ztake_firstn : forall A n (l : list A), 0 <= n -> ztake n l = firstn (Z.to_nat n) l.
Proof.
  intros A n l H. unfold ztake. destruct (n <? zlen l) eqn:E; [reflexivity|].
  apply Z.ltb_ge in E. symmetry. apply firstn_all2. unfold zlen in E. lia.
Qed.

Lemma ztake_zdrop : forall A n (l : list A), 0 <= n -> ztake n l ++ zdrop n l = l.
Proof. intros. rewrite ztake_firstn, zdrop_skipn by auto. apply firstn_skipn. Qed.

Lemma skipn_add : forall A (a b : nat) (l : list A), skipn a (skipn b l) = skipn (b + a) l.
Proof.
  intros A a b. induction b; intros l; simpl; auto.
  destruct l; simpl; auto. now rewrite skipn_nil.
Qed.

Lemma zdrop_zdrop : forall A a b (l : list A), 0 <= a -> 0 <= b -> zdrop a (zdrop b l) = zdrop (b + a) l.
Proof.
  intros. rewrite !zdrop_skipn by lia. rewrite skipn_add. f_equal. lia.
Qed.

Lemma zdrop_app : forall A (a b : list A), zdrop (zlen a) (a ++ b) = b.
Proof.
  intros. rewrite zdrop_skipn by apply zlen_nonneg. unfold zlen. rewrite Nat2Z.id.
  rewrite skipn_app. rewrite skipn_all. rewrite Nat.sub_diag. reflexivity.
Qed.

Lemma ztake_app : forall A (a b : list A), ztake (zlen a) (a ++ b) = a.
Proof.
  intros. rewrite ztake_firstn by apply zlen_nonneg. unfold zlen. rewrite Nat2Z.id.
  rewrite firstn_app. rewrite firstn_all. rewrite Nat.sub_diag. simpl. apply app_nil_r.
Qed.

Lemma wrap64_small : forall z, - two63 <= z < two63 -> wrap64 z = z.
Proof.
  intros z H. unfold wrap64, two63, two64 in *. rewrite Z.mod_small; lia.
Qed.

Lemma wrap64_range : forall z, - two63 <= wrap64 z < two63.
Proof.
  intros z. unfold wrap64, two63, two64.
  pose proof (Z.mod_pos_bound (z + 9223372036854775808) 18446744073709551616). lia.
Qed.

Lemma wrap64_eqm : forall z, exists k, wrap64 z = z + k * two64.
Proof.
  intros z. unfold wrap64. exists (- ((z + two63) / two64)).
  rewrite Z.mod_eq by (unfold two64; lia). lia.
Qed.

Lemma wrap64_add_k : forall z k, wrap64 (z + k * two64) = wrap64 z.
Proof.
  intros z k. unfold wrap64.
  replace (z + k * two64 + two63) with (z + two63 + k * two64) by lia.
  rewrite Z.mod_add by (unfold two64; lia). reflexivity.
Qed.

Lemma wrap64_add_l : forall a b, wrap64 (wrap64 a + b) = wrap64 (a + b).
Proof.
  intros a b. destruct (wrap64_eqm a) as [k ->].
  replace (a + k * two64 + b) with (a + b + k * two64) by lia. apply wrap64_add_k.
Qed.

Lemma wrap64_mul_l : forall a b, wrap64 (wrap64 a * b) = wrap64 (a * b).
Proof.
  intros a b. destruct (wrap64_eqm a) as [k ->].
  replace ((a + k * two64) * b) with (a * b + (k * b) * two64) by ring. apply wrap64_add_k.
Qed.

(** association maps *)
Section AMapP.
  Context {K V : Type} (eqb : K -> K -> bool).
  Hypothesis eqb_ok : forall a b, eqb a b = true <-> a = b.

  Lemma amap_eqb_refl : forall a, eqb a a = true.
  Proof. intros; apply eqb_ok; reflexivity. Qed.

  Lemma mget_mset_same : forall k (v : V) m, mget eqb k (mset eqb k v m) = Some v.
  Proof.
    intros k v; induction m as [|[k' v'] m IH]; simpl.
    - rewrite amap_eqb_refl. reflexivity.
    - destruct (eqb k k') eqn:E; simpl; rewrite E; auto.
  Qed.

  Lemma mget_mset_other : forall k k' (v : V) m, k <> k' -> mget eqb k (mset eqb k' v m) = mget eqb k m.
  Proof.
    intros k k' v m H; induction m as [|[k2 v2] m IH]; simpl.
    - destruct (eqb k k') eqn:E; [apply eqb_ok in E; contradiction | reflexivity].
    - destruct (eqb k' k2) eqn:E; simpl.
      + apply eqb_ok in E; subst k2.
        destruct (eqb k k') eqn:E2; [apply eqb_ok in E2; contradiction | reflexivity].
      + rewrite IH. reflexivity.
  Qed.

  Lemma mset_keys : forall k (v : V) m x,
    In x (map fst (mset eqb k v m)) <-> x = k \/ In x (map fst m).
  Proof.
    intros k v m; induction m as [|[k' v'] m IH]; simpl; intros x.
    - intuition.
    - destruct (eqb k k') eqn:E; simpl.
      + apply eqb_ok in E; subst. intuition.
      + rewrite IH. intuition.
  Qed.

  Lemma mset_nodup : forall k (v : V) m, NoDup (map fst m) -> NoDup (map fst (mset eqb k v m)).
  Proof.
    intros k v m; induction m as [|[k' v'] m IH]; simpl; intros H.
    - constructor; [intros []|constructor].
    - inversion H as [|a b Hn Hd]; subst. destruct (eqb k k') eqn:E; simpl.
      + constructor; auto.
      + constructor; auto. intros Hin. apply mset_keys in Hin as [->|Hin]; auto.
        rewrite amap_eqb_refl in E; discriminate.
  Qed.

  Lemma mget_In : forall k (v : V) m, mget eqb k m = Some v -> In (k, v) m.
  Proof.
    intros k v m; induction m as [|[k' v'] m IH]; simpl; intros H; [discriminate|].
    destruct (eqb k k') eqn:E.
    - apply eqb_ok in E; subst. injection H as ->. auto.
    - right; auto.
  Qed.

  Lemma In_mget : forall k (v : V) m, NoDup (map fst m) -> In (k, v) m -> mget eqb k m = Some v.
  Proof.
    intros k v m; induction m as [|[k' v'] m IH]; simpl; intros Hn H; [contradiction|].
    inversion Hn as [|a b Ha Hb]; subst. destruct H as [H|H].
    - injection H as -> ->. rewrite amap_eqb_refl. reflexivity.
    - destruct (eqb k k') eqn:E; auto.
      apply eqb_ok in E; subst. exfalso. apply Ha. apply in_map_iff. exists (k', v). auto.
  Qed.

  Lemma mget_None : forall k (m : list (K * V)), mget eqb k m = None <-> ~ In k (map fst m).
  Proof.
    intros k m; induction m as [|[k' v'] m IH]; simpl; split; intros H; auto.
    - destruct (eqb k k') eqn:E; [discriminate|]. intros [->|Hin].
      + rewrite amap_eqb_refl in E; discriminate.
      + apply IH in H; auto.
    - destruct (eqb k k') eqn:E.
      + apply eqb_ok in E; subst. exfalso; auto.
      + apply IH. auto.
  Qed.

  Lemma mget_mmerge : forall k (src dst : list (K * V)), NoDup (map fst src) ->
    mget eqb k (mmerge eqb dst src) =
    match mget eqb k src with Some v => Some v | None => mget eqb k dst end.
  Proof.
    intros k src. unfold mmerge. induction src as [|[k' v'] src IH]; simpl; intros dst Hn; auto.
    inversion Hn as [|a b Ha Hb]; subst. rewrite IH by auto.
    destruct (eqb k k') eqn:E.
    - apply eqb_ok in E; subst. apply mget_None in Ha. rewrite Ha. apply mget_mset_same.
    - destruct (mget eqb k src); auto. apply mget_mset_other.
      intros ->. rewrite amap_eqb_refl in E; discriminate.
  Qed.

  Lemma mmerge_nodup : forall (src dst : list (K * V)),
    NoDup (map fst dst) -> NoDup (map fst (mmerge eqb dst src)).
  Proof.
    intros src. unfold mmerge. induction src as [|[k v] src IH]; simpl; intros dst H; auto.
    apply IH. apply mset_nodup; auto.
  Qed.
End AMapP.

Lemma Zeqb_ok : forall a b, Z.eqb a b = true <-> a = b.
Proof. exact Z.eqb_eq. Qed.

(** [zget] *)
Lemma zget_Some : forall A (l : list A) i x, zget l i = Some x -> 0 <= i < zlen l /\ nth_error l (Z.to_nat i) = Some x.
Proof.
  intros A l i x. unfold zget. destruct ((0 <=? i) && (i <? zlen l)) eqn:E; [|discriminate].
  intros H. apply andb_prop in E as [E1 E2]. apply Z.leb_le in E1. apply Z.ltb_lt in E2. auto.
Qed.

Lemma zget_nth : forall A (l : list A) i, 0 <= i -> zget l i = nth_error l (Z.to_nat i).
Proof.
  intros A l i H. unfold zget. destruct (0 <=? i) eqn:E; [|apply Z.leb_gt in E; lia]. simpl.
  destruct (i <? zlen l) eqn:E2; auto. apply Z.ltb_ge in E2.
  symmetry. apply nth_error_None. unfold zlen in E2. lia.
Qed.

Lemma zget_None_iff : forall A (l : list A) i, zget l i = None <-> i < 0 \/ zlen l <= i.
Proof.
  intros A l i. unfold zget.
  destruct (0 <=? i) eqn:E1; destruct (i <? zlen l) eqn:E2; simpl;
    try apply Z.leb_le in E1; try apply Z.leb_gt in E1;
    try apply Z.ltb_lt in E2; try apply Z.ltb_ge in E2; split; intros H; auto; try lia.
  - apply nth_error_None in H. unfold zlen in E2. lia.
Qed.

Lemma rbind_ok : forall A B (x : res A) (f : A -> res B) b,
  rbind x f = Ok b <-> exists a, x = Ok a /\ f a = Ok b.
Proof.
  intros A B x f b; split.
  - destruct x; simpl; intros H; try discriminate. eauto.
  - intros (a & -> & H). exact H.
Qed.
