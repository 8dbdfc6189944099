(** OwnerEx.v -- a document with a user and an owner password (C110). *)
From Verif Require Import Base BaseP Msg Reader Num NumP Obj ReadObj Env Getters GetObj Xref Crypt Rc4 Md5 Security Load Extract Output Parse SpecFetch SpecOut SpecPage SpecObj SpecStream SpecXref SpecCrypt CryptP SpecSecurity SecurityP
  SpecCryptDoc CryptDocP SpecWrite SpecFollow SpecSeal StreamEx OutEx TotalP WriteEx SealEx SpecOwner OwnerP.
From Coq Require Import Strings.String Sorting.Permutation.

(** V 2, R 3, 128 bits *)
Definition owO : bytes := lit "owner".
Definition okO : bytes := Eval vm_compute in owner_key Md5.md5 3 16 owO.
Definition oO : bytes := Eval vm_compute in rc4_rounds 20 0 okO (firstn 32 (pwS ++ pad32)).
Definition kO : bytes := Eval vm_compute in file_key_of Md5.md5 3 true oO (-4) (lit "i") pwS 16.
Definition uO : bytes := Eval vm_compute in rc4_rounds 20 0 kO (Md5.md5 (pad32 ++ lit "i")).
Definition encO : dict := [(lit "Filter", OName (lit "Standard")); (lit "V", ONum (num_of_Z 2)); (lit "R", ONum (num_of_Z 3)); (lit "Length", ONum (num_of_Z 128));
  (lit "O", OStr oO); (lit "U", OStr uO); (lit "P", ONum (num_of_Z (-4)))].
Definition prO : params := {| pr_v := 2; pr_r := 3; pr_n := 16; pr_o := oO; pr_u := uO; pr_p := -4; pr_meta := true; pr_id := lit "i" |}.
Definition schemeO : scheme := {| for_strings := Rc4; for_streams := Rc4; for_files := Rc4; by_name := fun k m => k = lit "Identity" /\ m = Clear |}.
Definition trO : dict := [(lit "Root", ORef 1 0); (lit "Encrypt", ODict encO); (lit "ID", OArr [OStr (lit "i")])].
Definition rootO : dict := [(lit "JS", OStr (lit "app.alert(1)"))].
Definition DO : list iobj := [obj_of 1 (ODict rootO) None].
Definition jkO : bytes := object_key_of (e_md5 E1) false kO 1 0.
Definition CO : list iobj := Eval vm_compute in [obj_of 1 (map_strings (rc4 jkO) (ODict rootO)) None].

Lemma keyO : file_key E1 prO pwS 16 = kO.
Proof. vm_compute. reflexivity. Qed.
Lemma userO : user_password E1 prO pwS.
Proof.
  exists uO. split; [| reflexivity].
  change (user_entry Md5.md5 3 (lit "i") (file_key E1 prO pwS 16) uO). rewrite keyO.
  unfold user_entry. change (3 =? 2) with false. cbv iota.
  replace uO with (rc4_rounds 20 (Z.of_nat 0) kO (Md5.md5 (pad32 ++ lit "i"))) by (vm_compute; reflexivity).
  apply (rc4_rounds_spec kO (Md5.md5 (pad32 ++ lit "i")) ltac:(discriminate) 20 0); [lia | apply rt_zero].
Qed.
Lemma ownerO : owner_password E1 prO owO pwS.
Proof.
  unfold owner_password, owner_block. change (pr_r prO =? 2) with false. cbv iota zeta.
  assert (K : owner_key (e_md5 E1) (pr_r prO) (pr_n prO) owO = okO) by (vm_compute; reflexivity). rewrite K. change (pr_o prO) with oO.
  replace oO with (rc4_rounds 20 (Z.of_nat 0) okO (firstn 32 (pwS ++ pad32))) by (vm_compute; reflexivity).
  apply (rc4_rounds_spec okO (firstn 32 (pwS ++ pad32)) ltac:(discriminate) 20 0); [lia | apply rt_zero].
Qed.
Definition kW : bytes := Eval vm_compute in file_key E1 prO owO 16.
Lemma not_userO : ~ user_password E1 prO owO.
Proof.
  intros (u & UE & Q).
  assert (K : file_key E1 prO owO (pr_n prO) = kW) by (vm_compute; reflexivity). rewrite K in UE. clear K.
  unfold user_entry in UE. change (pr_r prO =? 2) with false in UE. cbv iota in UE. apply rounds_only in UE; [| discriminate]. subst u.
  vm_compute in Q. discriminate Q.
Qed.
Ltac numsO := match goal with |- exists z, _ /\ _ = num_of_Z z => first [try_num 2 | try_num 3 | try_num 128 | try_num (-4)] end.
Lemma layO : lay_document CO trO.
Proof.
  constructor.
  - intros o I. unfold CO in I. repeat (destruct I as [<- | I]; [first [lay; nums | layr] |]); destruct I.
  - dist.
  - unfold trO, encO. prt; numsO.
  - ni.
  - vm_compute. reflexivity.
Qed.
Lemma sealedO : sealed_document E1 DO CO trO prO pwS.
Proof.
  split; [exact layO |]. exists encO, None, schemeO. split; [apply ee_direct |]. split.
  { split; try reflexivity; try (eexists; split; reflexivity); try (exists []; reflexivity); [| left; split; reflexivity].
    right. split; [left; split; reflexivity |]. exists 128. split; [left; eexists; split; reflexivity | split; [lia | reflexivity]]. }
  split; [exact userO |]. split; [split; [reflexivity |]; split; [reflexivity |]; split; [reflexivity | intros k m H; exact H] |].
  split; [split; [discriminate |]; split; [discriminate |]; split; [discriminate | intros k [_ Q]; discriminate Q] |].
  split; [split; [reflexivity |]; split; reflexivity |].
  change (pr_n prO) with 16%nat. rewrite keyO. apply Forall2_cons; [| apply Forall2_nil]. right. split; [discriminate |].
  assert (NK : jkO <> []) by (intros Q; vm_compute in Q; discriminate Q).
  apply (so_plain E1 kO schemeO). match goal with |- sealed _ ?v ?c => replace c with (map_strings (rc4 jkO) v) by (vm_compute; reflexivity) end.
  apply seals. intros s. exact (hides_any E1 kO 1 0 s jkO eq_refl NK).
Qed.
Lemma C110_owner : (forall x, List.length (e_md5 E1 x) = 16%nat) /\ sealed_document E1 DO CO trO prO pwS /\ owner_password E1 prO owO pwS /\
  forall ord, (forall m, Permutation (ord m) m) -> forall fuel p, load fuel E1 ord (w_document CO trO) owO (new_parser (w_document CO trO)) <> Ok (None, p).
Proof.
  split; [exact md5_16 |]. split; [exact sealedO |]. split; [exact ownerO |]. exact (owner_refused E1 DO CO trO prO pwS owO md5_16 sealedO not_userO).
Qed.
(** the block in O is the padded user password *)
Lemma C110_ex : sealed_document E1 DO CO trO prO pwS /\ owner_password E1 prO owO pwS /\ owner_block (e_md5 E1) (pr_r prO) (pr_n prO) owO (firstn 32 (pwS ++ pad32)) (pr_o prO) /\ zlen (pr_o prO) = 32.
Proof. split; [exact sealedO |]. split; [exact ownerO |]. split; [exact ownerO | vm_compute; reflexivity]. Qed.
(** The same with no owner password of its own: the user password stands in for it. *)
Definition owT : bytes := pwS.
Definition okT : bytes := Eval vm_compute in owner_key Md5.md5 3 16 owT.
Definition oT : bytes := Eval vm_compute in rc4_rounds 20 0 okT (firstn 32 (pwS ++ pad32)).
Definition kT : bytes := Eval vm_compute in file_key_of Md5.md5 3 true oT (-4) (lit "i") pwS 16.
Definition uT : bytes := Eval vm_compute in rc4_rounds 20 0 kT (Md5.md5 (pad32 ++ lit "i")).
Definition encT : dict := [(lit "Filter", OName (lit "Standard")); (lit "V", ONum (num_of_Z 2)); (lit "R", ONum (num_of_Z 3)); (lit "Length", ONum (num_of_Z 128));
  (lit "O", OStr oT); (lit "U", OStr uT); (lit "P", ONum (num_of_Z (-4)))].
Definition prT : params := {| pr_v := 2; pr_r := 3; pr_n := 16; pr_o := oT; pr_u := uT; pr_p := -4; pr_meta := true; pr_id := lit "i" |}.
Definition trT : dict := [(lit "Root", ORef 1 0); (lit "Encrypt", ODict encT); (lit "ID", OArr [OStr (lit "i")])].
Definition jkT : bytes := object_key_of (e_md5 E1) false kT 1 0.
Definition CT : list iobj := Eval vm_compute in [obj_of 1 (map_strings (rc4 jkT) (ODict rootO)) None].

Lemma keyT : file_key E1 prT pwS 16 = kT.
Proof. vm_compute. reflexivity. Qed.
Lemma userT : user_password E1 prT pwS.
Proof.
  exists uT. split; [| reflexivity].
  change (user_entry Md5.md5 3 (lit "i") (file_key E1 prT pwS 16) uT). rewrite keyT.
  unfold user_entry. change (3 =? 2) with false. cbv iota.
  replace uT with (rc4_rounds 20 (Z.of_nat 0) kT (Md5.md5 (pad32 ++ lit "i"))) by (vm_compute; reflexivity).
  apply (rc4_rounds_spec kT (Md5.md5 (pad32 ++ lit "i")) ltac:(discriminate) 20 0); [lia | apply rt_zero].
Qed.
Lemma ownerT : owner_password E1 prT owT pwS.
Proof.
  unfold owner_password, owner_block. change (pr_r prT =? 2) with false. cbv iota zeta.
  assert (K : owner_key (e_md5 E1) (pr_r prT) (pr_n prT) owT = okT) by (vm_compute; reflexivity). rewrite K. change (pr_o prT) with oT.
  replace oT with (rc4_rounds 20 (Z.of_nat 0) okT (firstn 32 (pwS ++ pad32))) by (vm_compute; reflexivity).
  apply (rc4_rounds_spec okT (firstn 32 (pwS ++ pad32)) ltac:(discriminate) 20 0); [lia | apply rt_zero].
Qed.
Lemma layT : lay_document CT trT.
Proof.
  constructor.
  - intros o I. unfold CT in I. repeat (destruct I as [<- | I]; [first [lay; nums | layr] |]); destruct I.
  - dist.
  - unfold trT, encT. prt; numsO.
  - ni.
  - vm_compute. reflexivity.
Qed.
Lemma sealedT : sealed_document E1 DO CT trT prT pwS.
Proof.
  split; [exact layT |]. exists encT, None, schemeO. split; [apply ee_direct |]. split.
  { split; try reflexivity; try (eexists; split; reflexivity); try (exists []; reflexivity); [| left; split; reflexivity].
    right. split; [left; split; reflexivity |]. exists 128. split; [left; eexists; split; reflexivity | split; [lia | reflexivity]]. }
  split; [exact userT |]. split; [split; [reflexivity |]; split; [reflexivity |]; split; [reflexivity | intros k m H; exact H] |].
  split; [split; [discriminate |]; split; [discriminate |]; split; [discriminate | intros k [_ Q]; discriminate Q] |].
  split; [split; [reflexivity |]; split; reflexivity |].
  change (pr_n prT) with 16%nat. rewrite keyT. apply Forall2_cons; [| apply Forall2_nil]. right. split; [discriminate |].
  assert (NK : jkT <> []) by (intros Q; vm_compute in Q; discriminate Q).
  apply (so_plain E1 kT schemeO). match goal with |- sealed _ ?v ?c => replace c with (map_strings (rc4 jkT) v) by (vm_compute; reflexivity) end.
  apply seals. intros s. exact (hides_any E1 kT 1 0 s jkT eq_refl NK).
Qed.
Lemma C110_ex_same : sealed_document E1 DO CT trT prT pwS /\ owner_password E1 prT owT pwS /\ firstn 32 (owT ++ pad32) = firstn 32 (pwS ++ pad32).
Proof. split; [exact sealedT |]. split; [exact ownerT | reflexivity]. Qed.
