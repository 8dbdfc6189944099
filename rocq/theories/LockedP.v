(** LockedP.v -- encrypted documents that are not opened (C94). *)
From Verif Require Import Base BaseP Msg Reader ReaderP Num Obj ReadObj Env Getters Crypt GetObj GetObjP Xref Security Load Output Render Extract Parse SpecLex SpecObj SpecFetch SpecLook LookP SecurityP SpecStream SpecScan
  ScanP SpecXref SpecCrypt SpecSecurity CryptObjP RepairP LoadInvP FetchP SpecOut LoadMonoP SpecRecover RecoverP DocP SpecCryptDoc CryptDocP SpecLocked OutTopP RawP.
From Coq Require Import Strings.String Sorting.Permutation.

Lemma locked_standard : forall E file p secs enc pr, (forall k o, newest_key k secs = Some o -> entry (ptrailer p) k = Some o) ->
  typed E file p is_dict (entry (ptrailer p) (lit "Encrypt")) enc -> locked secs enc pr -> standard E file p (ptrailer p) enc pr.
Proof.
  intros E file p secs enc pr TR TE [A1 A2 A3 A4 A5 A6 A7 A8 (ids & A9)]. split; [exact TE |]. split; [rewrite A1; apply typed_direct; [reflexivity | discriminate] |].
  split; [apply typed_integer; exact A2 |]. split; [intuition |]. split; [apply typed_integer; exact A3 |]. split; [intuition lia |]. split.
  { destruct A4 as [(V & _ & N) | (VR & l & I & B & N)].
    - exists 40. split; [left; auto |]. rewrite N. reflexivity.
    - exists l. split; [right; split; [intuition lia |] |].
      + destruct I as [I | [I ->]]; [left; apply typed_integer; exact I |]. right. split; [| reflexivity]. left. rewrite I. constructor.
      + assert (l / 8 = Z.of_nat (pr_n pr)) by (rewrite N, Z.mul_comm; apply Z.div_mul; lia). lia. }
  split; [rewrite A5; apply typed_direct; [reflexivity | discriminate] |]. split; [rewrite A6; apply typed_direct; [reflexivity | discriminate] |]. split; [apply typed_integer; exact A7 |]. split.
  { destruct A8 as [[-> ->] | [[-> ->] | [-> ->]]]; [right; split; [left; constructor | reflexivity] | left; apply typed_direct; [reflexivity | discriminate] | left; apply typed_direct; [reflexivity | discriminate]]. }
  exists (OStr (pr_id pr) :: ids). split; [rewrite (TR _ _ A9); apply typed_direct; [reflexivity | discriminate] | apply typed_direct; [reflexivity | discriminate]].
Qed.

(** The state in which the password is checked. *)
Lemma gate : forall E fuel ord file pw r p off secs is enc n0, (2 <= fuel)%nat -> (forall m, Permutation (ord m) m) ->
  load fuel E ord file pw (new_parser file) = Ok (r, p) -> offsets_ok (pxref p) ->
  last_start (last256 file) off -> off < 2 ^ 63 -> chain E file off [] secs ->
  only_at file is -> (forall k, In k is -> exists n, header_at file k n) -> encryption E file is secs enc n0 ->
  exists q, reads file q /\ offsets_ok (pxref q) /\ (forall k o, newest_key k secs = Some o -> entry (ptrailer q) k = Some o) /\
    typed E file q is_dict (entry (ptrailer q) (lit "Encrypt")) enc /\ set_password fuel E file pw q = Ok (r, p).
Proof.
  intros E fuel ord file pw r p off secs is enc n0 F P H OO LS LO CH ON HA EN.
  destruct (load_before E fuel ord file pw r p off secs F P H LS LO CH) as (q & l & os & W & SH & TR & SC & RC & TB & SP).
  assert (X : exists x, entry (ptrailer q) (lit "Encrypt") = Some x).
  { destruct EN as [EN | i o e g EN _ _ _]; (eexists; apply TR; exact EN). }
  destruct X as (x & EX). rewrite <- dget_entry in EX. rewrite EX in SP. unfold bind in SP. destruct (exempt_encrypt x q) as [[u p5]| |] eqn:F5; try discriminate.
  destruct (exempt_same file x q u p5 0 F5 W) as [W5 _]. destruct (exempt_trailer _ _ _ _ F5) as [T5 S5]. destruct (set_password_sparing _ _ _ _ _ _ _ W5 SP) as (_ & Xp & Tp). rewrite Xp in OO.
  exists p5. split; [exact W5 |]. split; [exact OO |]. split; [intros k o Q; rewrite T5; apply TR; exact Q |]. split; [| exact SP].
  rewrite T5. destruct EN as [EN | i o e g EN OA PL IV].
  - rewrite (TR _ _ EN). apply typed_direct; [reflexivity | discriminate].
  - rewrite (TR _ _ EN). destruct (position _ _ _ _ _ _ _ _ _ _ ON HA SC RC TB (object_header_at _ _ _ _ OA) PL) as (e' & X & X1 & X2 & X3 & _).
    destruct (exempt_same file x q u p5 (inum o) F5 W) as [_ SE]. rewrite X in SE. destruct (xget (inum o) (pxref p5)) as [e5 |] eqn:X5; [| destruct SE]. destruct SE as (Y1 & Y2 & Y3 & _).
    assert (FE : fetched E file p5 (inum o) o) by (eapply fetch_object; [exact OA | exact W5 | rewrite S5; exact SH | exact X5 | congruence | congruence | congruence]).
    destruct (resolve_first_value E file p5 (inum o) [] (inum o) o W5 OO (hop_here _ _ _ _) FE) as (f0 & RS); [rewrite IV; discriminate |].
    destruct (RS f0 (le_n _)) as (p6 & Q6). exists (ival o). split; [| exact IV]. apply v_ref. exists f0, p6. exact Q6.
Qed.

Lemma same_answer : forall E file pw q fuel r p e f0, set_password fuel E file pw q = Ok (r, p) ->
  (forall f, (f0 <= f)%nat -> exists p', set_password f E file pw q = Ok (Some e, p')) -> r = Some e.
Proof.
  intros E file pw q fuel r p e f0 SP RJ. destruct (RJ (Nat.max f0 fuel) (Nat.le_max_l _ _)) as (p' & Q').
  assert (QE : set_password (Nat.max f0 fuel) E file pw q = Ok (r, p)).
  { unfold set_password in *. destruct (init_security_mono fuel (Nat.max f0 fuel) (Nat.le_max_r _ _) E file pw (ptrailer q) q) as [Q | Q]; congruence. }
  congruence.
Qed.
Lemma load_refuses : forall E fuel ord file pw r p off secs is enc n0 pr, (2 <= fuel)%nat -> (forall m, Permutation (ord m) m) -> (forall x, List.length (e_md5 E x) = 16%nat) ->
  load fuel E ord file pw (new_parser file) = Ok (r, p) -> offsets_ok (pxref p) ->
  last_start (last256 file) off -> off < 2 ^ 63 -> chain E file off [] secs ->
  only_at file is -> (forall k, In k is -> exists n, header_at file k n) -> encryption E file is secs enc n0 ->
  locked secs enc pr -> u_full pr -> ~ user_password E pr pw -> r = Some EncryptionPasswordError.
Proof.
  intros E fuel ord file pw r p off secs is enc n0 pr F P M H OO LS LO CH ON HA EN LK UF NU.
  destruct (gate _ _ _ _ _ _ _ _ _ _ _ _ F P H OO LS LO CH ON HA EN) as (q & W & OQ & TR & TE & SP).
  destruct (password_rejected E file q pw enc pr W OQ M (locked_standard _ _ _ _ _ _ TR TE LK) UF NU) as (f0 & RJ).
  eapply same_answer; [exact SP |]. intros f L. destruct (RJ f L) as (p' & Q & _). exists p'. exact Q.
Qed.
Lemma typed_or_direct : forall E file p x n, integer_or_0 x n -> typed_or E file p is_int x 0 n.
Proof. intros E file p x n [H | [-> ->]]; [left; apply typed_integer; exact H |]. right. split; [left; constructor | reflexivity]. Qed.
Lemma typed_named : forall E file p x n, named x n -> typed E file p is_name x n.
Proof. intros E file p x n ->. apply typed_direct; [reflexivity | discriminate]. Qed.
Lemma load_refuses_unknown : forall E fuel ord file pw r p off secs is enc n0, (2 <= fuel)%nat -> (forall m, Permutation (ord m) m) ->
  load fuel E ord file pw (new_parser file) = Ok (r, p) -> offsets_ok (pxref p) ->
  last_start (last256 file) off -> off < 2 ^ 63 -> chain E file off [] secs ->
  only_at file is -> (forall k, In k is -> exists n, header_at file k n) -> encryption E file is secs enc n0 ->
  unknown enc -> r = Some EncryptionUnsupported.
Proof.
  intros E fuel ord file pw r p off secs is enc n0 F P H OO LS LO CH ON HA EN UN.
  destruct (gate _ _ _ _ _ _ _ _ _ _ _ _ F P H OO LS LO CH ON HA EN) as (q & W & OQ & TR & TE & SP).
  destruct (password_unsupported E file q pw enc W OQ TE) as (f0 & RJ); [| eapply same_answer; [exact SP | exact RJ]].
  destruct UN as [f N D | N | v N V D | v r' N V VI R D].
  - left. exists (Some (OName f)). split; [rewrite N; apply v_direct; discriminate | congruence].
  - left. exists None. split; [rewrite N; constructor | discriminate].
  - right. left. split; [apply typed_named; exact N |]. exists v. split; [apply typed_or_direct; exact V | exact D].
  - right. right. split; [apply typed_named; exact N |]. exists v, r'. split; [apply typed_integer; exact V |]. split; [exact VI |]. split; [apply typed_or_direct; exact R | exact D].
Qed.

(** Parse hands the error of Load on and puts nothing out. *)
Lemma create_all : forall S l, (forall f, s_create S f = true) -> snd (create_files S l) = true.
Proof. intros S l C. induction l as [| f l IH]; [reflexivity |]. cbn [create_files]. rewrite C. destruct (create_files S l) as [[ops opened] ok]. exact IH. Qed.
Lemma new_output_quiet : forall S e, ~ In (OpEv e) (fst (fst (new_output S))).
Proof. intros S e I. destruct (new_output_ops _ _ I) as [X | [X | (g & X)]]; discriminate. Qed.
Lemma close_quiet : forall l e, ~ In (OpEv e) (close_output l).
Proof. intros l e I. destruct (close_ops _ _ I) as (g & X & _); discriminate. Qed.
Lemma parse_refused : forall E OD fuel S file pw ops r e p, s_input S = Some file -> (forall f, s_create S f = true) ->
  parse E OD fuel S pw = (ops, Ok r) -> load fuel E (o_objects OD) file pw (new_parser file) = Ok (Some e, p) ->
  r = PEnc e /\ forall x, ~ In (OpEv x) ops.
Proof.
  intros E OD fuel S file pw ops r e p I C H L. unfold parse in H. rewrite I in H.
  assert (OKC : snd (new_output S) = true).
  { unfold new_output. pose proof (create_all S output_files C) as Q. destruct (create_files S output_files) as [[o1 o2] ok]. exact Q. }
  pose proof (new_output_quiet S) as Z1. destruct (new_output S) as [[ops1 opened] ok]. cbn [snd] in OKC. subst ok. cbn [fst] in Z1.
  destruct (parse_body E OD fuel file pw (new_parser file)) as [w [[[e' |] q]| |]] eqn:B; try discriminate.
  - destruct (body_ok _ _ _ _ _ _ _ _ _ B) as (p1 & L1 & _ & X). rewrite (X ltac:(discriminate)) in H. assert (e' = e) by congruence. subst e'.
    split; [congruence |]. assert (Q : ops = ops1 ++ [] ++ close_output opened) by (cbn [map] in H; congruence). intros x J. rewrite Q in J. apply in_app_iff in J. destruct J as [J | J]; [exact (Z1 x J) | exact (close_quiet opened x J)].
  - destruct (body_ok _ _ _ _ _ _ _ _ _ B) as (p1 & L1 & _). congruence.
Qed.

Lemma refused : forall E OD fuel S file pw ops r x p off secs is enc n0 pr, (2 <= fuel)%nat -> order_ok OD -> (forall x, List.length (e_md5 E x) = 16%nat) ->
  s_input S = Some file -> (forall f, s_create S f = true) -> parse E OD fuel S pw = (ops, Ok r) ->
  load fuel E (o_objects OD) file pw (new_parser file) = Ok (x, p) -> offsets_ok (pxref p) ->
  last_start (last256 file) off -> off < 2 ^ 63 -> chain E file off [] secs ->
  only_at file is -> (forall k, In k is -> exists n, header_at file k n) -> encryption E file is secs enc n0 ->
  locked secs enc pr -> u_full pr -> ~ user_password E pr pw ->
  r = PEnc EncryptionPasswordError /\ forall x, ~ In (OpEv x) ops.
Proof.
  intros E OD fuel S file pw ops r x p off secs is enc n0 pr F (_ & OB & _) M I C H L OO LS LO CH ON HA EN LK UF NU.
  assert (Q : x = Some EncryptionPasswordError) by (eapply (load_refuses E fuel (o_objects OD) file pw x p); eauto; intros m; apply Permutation_sym, OB).
  subst x. eapply parse_refused; eassumption.
Qed.
Lemma refused_unknown : forall E OD fuel S file pw ops r x p off secs is enc n0, (2 <= fuel)%nat -> order_ok OD ->
  s_input S = Some file -> (forall f, s_create S f = true) -> parse E OD fuel S pw = (ops, Ok r) ->
  load fuel E (o_objects OD) file pw (new_parser file) = Ok (x, p) -> offsets_ok (pxref p) ->
  last_start (last256 file) off -> off < 2 ^ 63 -> chain E file off [] secs ->
  only_at file is -> (forall k, In k is -> exists n, header_at file k n) -> encryption E file is secs enc n0 -> unknown enc ->
  r = PEnc EncryptionUnsupported /\ forall x, ~ In (OpEv x) ops.
Proof.
  intros E OD fuel S file pw ops r x p off secs is enc n0 F (_ & OB & _) I C H L OO LS LO CH ON HA EN UN.
  assert (Q : x = Some EncryptionUnsupported) by (eapply (load_refuses_unknown E fuel (o_objects OD) file pw x p); eauto; intros m; apply Permutation_sym, OB).
  subst x. eapply parse_refused; eassumption.
Qed.
