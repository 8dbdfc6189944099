(** OwnerP.v -- loading with the owner password (C110). *)
From Verif Require Import Base BaseP Msg Reader Num Obj ReadObj Env Getters GetObj Xref Crypt Security Load Extract Output Parse Errors SpecFetch SpecRead SpecOut SpecObj SpecStream SpecXref SpecCrypt CryptP SpecSecurity SecurityP
  SpecCryptDoc SpecWrite SpecSeal SealP LoadMonoP SpecOwner.
From Coq Require Import Strings.String Sorting.Permutation.

Lemma rc4_injective : forall key x y c, rc4_encrypted key x c -> rc4_encrypted key y c -> x = y.
Proof. intros key x y c H1 H2. exact (rc4_unique _ _ _ _ (rc4_encrypted_sym _ _ _ H1) (rc4_encrypted_sym _ _ _ H2)). Qed.
Lemma xored_key : forall key k1 k2 k, List.length k1 = List.length key -> List.length k2 = List.length key ->
  (forall m a b, nth_error key m = Some a -> nth_error k1 m = Some b -> bv b = Z.lxor (bv a) k) ->
  (forall m a b, nth_error key m = Some a -> nth_error k2 m = Some b -> bv b = Z.lxor (bv a) k) -> k1 = k2.
Proof.
  induction key as [| a key IH]; intros [| x k1] [| y k2] k L1 L2 H1 H2; try discriminate; [reflexivity |]. f_equal.
  - apply bv_inj. rewrite (H1 0%nat a x eq_refl eq_refl), (H2 0%nat a y eq_refl eq_refl). reflexivity.
  - apply (IH k1 k2 k); [cbn in L1; lia | cbn in L2; lia | intros m; exact (H1 (S m)) | intros m; exact (H2 (S m))].
Qed.
Lemma times_injective : forall key k x c, rc4_times key k x c -> forall y, rc4_times key k y c -> x = y.
Proof.
  intros key k x c H. induction H as [x | k x y0 z key' H IH L K R]; intros y H2; inversion H2 as [| ? ? y1 ? key2 H3 L2 K2 R2]; subst; [reflexivity |].
  assert (key2 = key') by (eapply xored_key; eassumption). subst key2. apply IH. rewrite (rc4_injective _ _ _ _ R R2). exact H3.
Qed.
Lemma block_injective : forall md5 r n owner x y o, owner_block md5 r n owner x o -> owner_block md5 r n owner y o -> x = y.
Proof. intros md5 r n owner x y o H1 H2. unfold owner_block in *. destruct (r =? 2); [eapply rc4_injective; eassumption | eapply times_injective; eassumption]. Qed.

(** A padded password is as good as the password itself. *)
Lemma pad_again : forall pw, firstn 32 (firstn 32 (pw ++ pad32) ++ pad32) = firstn 32 (pw ++ pad32).
Proof.
  intros pw. assert (L : List.length (firstn 32 (pw ++ pad32)) = 32%nat) by (rewrite firstn_length, app_length; change (List.length pad32) with 32%nat; lia).
  rewrite firstn_app, L, firstn_O, app_nil_r. rewrite <- L at 1. apply firstn_all.
Qed.
Lemma key_padded : forall E pr pw n, file_key E pr (firstn 32 (pw ++ pad32)) n = file_key E pr pw n.
Proof. intros E pr pw n. unfold file_key, file_key_of. rewrite pad_again. reflexivity. Qed.
Lemma user_padded : forall E pr pw, user_password E pr pw -> user_password E pr (firstn 32 (pw ++ pad32)).
Proof. intros E pr pw (w & U & Q). exists w. rewrite key_padded. auto. Qed.
Lemma sealed_padded : forall E D C tr pr pw, sealed_document E D C tr pr pw -> sealed_document E D C tr pr (firstn 32 (pw ++ pad32)).
Proof.
  intros E D C tr pr pw [LD (enc & n0 & s & EE & HD & UP & SO & NA & ND & FD)]. split; [exact LD |]. exists enc, n0, s. split; [exact EE |]. split; [exact HD |]. split; [exact (user_padded _ _ _ UP) |].
  split; [exact SO |]. split; [exact NA |]. split; [exact ND |]. rewrite key_padded. exact FD.
Qed.
(** Algorithm 7: the block that O is for the owner password opens the document. *)
Lemma owner_opens : forall E D C tr pr pw owner x, (forall x, List.length (e_md5 E x) = 16%nat) -> sealed_document E D C tr pr pw -> owner_password E pr owner pw ->
  owner_block (e_md5 E) (pr_r pr) (pr_n pr) owner x (pr_o pr) ->
  forall ord, (forall m, Permutation (ord m) m) -> exists f0, forall fuel, (f0 <= fuel)%nat -> exists p,
    load fuel E ord (w_document C tr) x (new_parser (w_document C tr)) = Ok (None, p) /\ (forall o, In o D -> fetched E (w_document C tr) p (inum o) o).
Proof.
  intros E D C tr pr pw owner x M SD OP OB ord P. assert (x = firstn 32 (pw ++ pad32)) by (eapply block_injective; [exact OB | exact OP]). subst x.
  destruct (sealed_read E D C tr pr _ M (sealed_padded _ _ _ _ _ _ SD) ord P) as (f0 & H). exists f0. intros fuel F. destruct (H fuel F) as (p & L & FD & _). exists p. auto.
Qed.
(** An owner password that is the user password (there is no other) opens it. *)
Lemma same_opens : forall E D C tr pr pw owner, (forall x, List.length (e_md5 E x) = 16%nat) -> sealed_document E D C tr pr pw -> owner_password E pr owner pw ->
  firstn 32 (owner ++ pad32) = firstn 32 (pw ++ pad32) ->
  forall ord, (forall m, Permutation (ord m) m) -> exists f0, forall fuel, (f0 <= fuel)%nat -> exists p,
    load fuel E ord (w_document C tr) owner (new_parser (w_document C tr)) = Ok (None, p) /\ (forall o, In o D -> fetched E (w_document C tr) p (inum o) o).
Proof.
  intros E D C tr pr pw owner M SD _ Q ord P.
  assert (SO : sealed_document E D C tr pr owner).
  { assert (K : forall n, file_key E pr owner n = file_key E pr pw n) by (intros n; unfold file_key, file_key_of; rewrite Q; reflexivity).
    destruct SD as [LD (enc & n0 & s & EE & HD & (w & UP & QU) & SO & NA & ND & FD)]. split; [exact LD |]. exists enc, n0, s. split; [exact EE |]. split; [exact HD |]. split; [exists w; rewrite K; auto |].
    split; [exact SO |]. split; [exact NA |]. split; [exact ND |]. rewrite K. exact FD. }
  destruct (sealed_read E D C tr pr owner M SO ord P) as (f0 & H). exists f0. intros fuel F. destruct (H fuel F) as (p & L & FD & _). exists p. auto.
Qed.
(** With every other one the document is refused. *)
Lemma owner_refused : forall E D C tr pr pw owner, (forall x, List.length (e_md5 E x) = 16%nat) -> sealed_document E D C tr pr pw -> ~ user_password E pr owner ->
  forall ord, (forall m, Permutation (ord m) m) -> forall fuel p, load fuel E ord (w_document C tr) owner (new_parser (w_document C tr)) <> Ok (None, p).
Proof.
  intros E D C tr pr pw owner M SD NU ord P fuel p L. destruct (sealed_locked E D C tr pr pw owner M SD NU ord P) as (f0 & H). destruct (H f0 (le_n _)) as (p' & L').
  pose proof (load_det _ _ _ _ _ _ _ _ _ L L') as Q. discriminate Q.
Qed.
