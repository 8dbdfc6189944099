(** PassP.v -- what the password is used for (C126). *)
From Verif Require Import Base BaseP Msg Reader ReaderP Num Lexer Obj ReadObj Env Getters Crypt GetObj Regex Xref Security Load Output Parse SpecLex SpecObj SpecRead SpecFetch SpecLook SpecStream SpecScan SpecXref
  SpecCrypt SpecSecurity SpecRecover SpecOut SecurityP ScanP XrefP OrderP RepairP WriteLoadP CryptObjP DocP HybridP FetchP.
From Coq Require Import Strings.String Sorting.Permutation.

Lemma bind_agree : forall A B (m : M A) (k k' : A -> M B) p, (forall a q, k a q = k' a q) -> bind m k p = bind m k' p.
Proof. intros A B m k k' p H. unfold bind. destruct (m p) as [[a q]| |]; auto. Qed.
Lemma bind_agree_l : forall A B (m m' : M A) (k : A -> M B) p, m p = m' p -> bind m k p = bind m' k p.
Proof. intros A B m m' k p H. unfold bind. rewrite H. reflexivity. Qed.

Section Same.
  Variables (pw1 pw2 : bytes).
  Hypothesis same : firstn 32 (pw1 ++ pad32) = firstn 32 (pw2 ++ pad32).

  Lemma key_same : forall E ep n, compute_key E ep pw1 n = compute_key E ep pw2 n.
  Proof. intros E ep n. unfold compute_key. rewrite !pad_password_spec, same. reflexivity. Qed.

  Lemma cf_same : forall E rs ep n cf fs p, load_cf E rs ep pw1 n cf fs p = load_cf E rs ep pw2 n cf fs p.
  Proof.
    intros E rs ep n cf. induction cf as [|[k o] cf IH]; intros fs p; [reflexivity|]. cbn [load_cf].
    destruct o; try apply IH. apply bind_agree. intros [m ok] q.
    eapply eq_trans; [apply bind_agree; intros a r; apply IH|]. apply bind_agree_l.
    destruct ok; [|reflexivity]. apply bind_agree. intros [l ok] r.
    rewrite key_same. reflexivity.
  Qed.

  Lemma init_same : forall E rs tr p, init_security E rs pw1 tr p = init_security E rs pw2 tr p.
  Proof.
    intros E rs tr p. unfold init_security.
    repeat match goal with
      | |- (if ?c then ret _ else _) _ = _ => destruct c; [exact eq_refl|]
      | |- bind (d_dict _ _ _) _ _ = _ => apply bind_agree; intros [? ?] ?; cbv beta iota zeta
      | |- bind (d_name _ _ _) _ _ = _ => apply bind_agree; intros [? ?] ?; cbv beta iota zeta
      | |- bind (d_int _ _ _) _ _ = _ => apply bind_agree; intros [? ?] ?; cbv beta iota zeta
      | |- bind (d_bool _ _ _) _ _ = _ => apply bind_agree; intros [? ?] ?; cbv beta iota zeta
      | |- bind (d_string _ _ _) _ _ = _ => apply bind_agree; intros [? ?] ?; cbv beta iota zeta
      | |- bind (d_array _ _ _) _ _ = _ => apply bind_agree; intros [? ?] ?; cbv beta iota zeta
      | |- bind (a_string _ _ _) _ _ = _ => apply bind_agree; intros [? ?] ?; cbv beta iota zeta
      | |- bind (if _ then ret (40, true) else _) _ _ = _ => apply bind_agree; intros ? ?; cbv beta iota zeta
      end.
    rewrite key_same. apply bind_agree. intros key s1. apply bind_agree. intros good s2. destruct (negb good); [exact eq_refl|].
    apply bind_agree_l. match goal with |- (if ?c then _ else _) _ = _ => destruct c; [|exact eq_refl] end.
    apply bind_agree. intros [cf ok] s3. apply bind_agree_l. apply cf_same.
  Qed.

  Lemma load_same : forall fuel E ord file p, load fuel E ord file pw1 p = load fuel E ord file pw2 p.
  Proof.
    intros fuel E ord file p. unfold load. apply bind_agree. intros os q. do 3 (apply bind_agree; intros ? ?).
    match goal with |- context [dget (lit "Encrypt") ?t] => destruct (dget (lit "Encrypt") t) end; [|reflexivity].
    apply bind_agree. intros ? ?. apply init_same.
  Qed.
End Same.

(** The password comes in through the state after loading only. *)
Lemma parse_by_load : forall E OD fuel S pw1 pw2, (forall file, s_input S = Some file ->
  load fuel E (o_objects OD) file pw1 (new_parser file) = load fuel E (o_objects OD) file pw2 (new_parser file)) ->
  parse E OD fuel S pw1 = parse E OD fuel S pw2.
Proof.
  intros E OD fuel S pw1 pw2 H. unfold parse. destruct (s_input S) as [file|] eqn:I; [|reflexivity].
  destruct (new_output S) as [[ops opened] ok]. destruct ok; [|reflexivity].
  assert (Q : parse_body E OD fuel file pw1 (new_parser file) = parse_body E OD fuel file pw2 (new_parser file)); [|rewrite Q; reflexivity].
  unfold parse_body, xbind, xlift, lift. destruct (debug E); [|reflexivity|reflexivity]. rewrite (H file eq_refl). reflexivity.
Qed.

Lemma main_by_parse : forall E OD fuel S n f pw1 pw2, parse E OD fuel S pw1 = parse E OD fuel S pw2 -> main E OD fuel S n f pw1 = main E OD fuel S n f pw2.
Proof. intros E OD fuel S n f pw1 pw2 H. unfold main. rewrite H. reflexivity. Qed.

Lemma first_bytes : forall E OD fuel S n f pw1 pw2, firstn 32 (pw1 ++ pad32) = firstn 32 (pw2 ++ pad32) ->
  main E OD fuel S n f pw1 = main E OD fuel S n f pw2 /\ parse E OD fuel S pw1 = parse E OD fuel S pw2.
Proof.
  intros E OD fuel S n f pw1 pw2 H.
  assert (Q : parse E OD fuel S pw1 = parse E OD fuel S pw2) by (apply parse_by_load; intros; apply load_same; exact H).
  split; [apply main_by_parse|]; exact Q.
Qed.

Lemma load_unused : forall fuel E ord file pw1 pw2 x p, (2 <= fuel)%nat -> (forall m, Permutation (ord m) m) ->
  load fuel E ord file pw1 (new_parser file) = Ok (x, p) -> entry (ptrailer p) (lit "Encrypt") = None ->
  load fuel E ord file pw2 (new_parser file) = Ok (x, p).
Proof.
  intros fuel E ord file pw1 pw2 x p F P H NE. unfold load in *. unfold bind at 1 in H. unfold bind at 1.
  destruct (find_objects_records E file (new_parser file) fuel (open_wf file) eq_refl F) as (l & os & p1 & F1 & SC & RC & W1 & X1 & T1 & S1 & ND). rewrite F1 in *. unfold bind at 1 in H. unfold bind at 1.
  destruct (pseek file (zlen file) p1) as [[u p2]| |] eqn:F2; try discriminate. unfold bind at 1 in H. unfold bind at 1.
  destruct (holds_pseek file _ _ _ _ W1 F2) as [W2 S2].
  destruct (load_all fuel E file _ p2) as [[[] p3]| |] eqn:F3; try discriminate. unfold bind at 1 in H. unfold bind at 1.
  destruct (holds_load_all file _ _ _ _ _ _ W2 F3) as [W3 S3].
  destruct (repair_any_order file (ord os) os p3 W3 ND (P os)) as (p4 & F4 & W4 & T4 & S4 & C4 & _). rewrite F4 in *.
  destruct (dget (lit "Encrypt") (ptrailer p4)) as [enc |] eqn:DE; [| exact H]. exfalso. unfold bind in H.
  destruct (exempt_encrypt enc p4) as [[u5 p5]| |] eqn:F5; try discriminate.
  destruct (exempt_same file enc p4 u5 p5 0 F5 W4) as [W5 _]. destruct (set_password_sparing _ _ _ _ _ _ _ W5 H) as (_ & _ & Tp).
  rewrite Tp, (proj1 (exempt_trailer _ _ _ _ F5)) in NE. rewrite dget_entry in DE. congruence.
Qed.

Lemma unused : forall E OD fuel S n f file pw1 pw2 x p, (2 <= fuel)%nat -> order_ok OD -> s_input S = Some file ->
  load fuel E (o_objects OD) file pw1 (new_parser file) = Ok (x, p) -> entry (ptrailer p) (lit "Encrypt") = None ->
  main E OD fuel S n f pw1 = main E OD fuel S n f pw2 /\ parse E OD fuel S pw1 = parse E OD fuel S pw2.
Proof.
  intros E OD fuel S n f file pw1 pw2 x p F (_ & P & _) I H NE.
  assert (Q : parse E OD fuel S pw1 = parse E OD fuel S pw2).
  { apply parse_by_load. intros file' I'. assert (file' = file) by congruence. subst file'. rewrite H. symmetry.
    apply (load_unused fuel E _ file pw1 pw2 x p F (fun m => Permutation_sym (P m)) H NE). }
  split; [apply main_by_parse|]; exact Q.
Qed.
