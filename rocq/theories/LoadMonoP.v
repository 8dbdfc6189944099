(** LoadMonoP.v -- more fuel never changes the result of loading and parsing. *)
From Verif Require Import Base BaseP Msg Reader ReaderP Num Lexer Obj ReadObj Env Getters Crypt GetObj Regex Xref Security Font Page Tree Output Render Extract Load Parse GetObjP XTermP FuelP.
From Coq Require Import Strings.String.
Local Open Scope m_scope.

Lemma mle_at : forall A (m m' : M A), mle m m' -> forall p, le_res (m p) (m' p).
Proof. intros A m m' H. exact H. Qed.
Ltac eta := let p := fresh "p" in intros p; cbv beta; match goal with |- le_res (?m p) (?m' p) => apply (mle_at _ m m') end.

Section Fuel.
  Variables f f' : nat.
  Hypothesis L : (f <= f')%nat.
  Variable E : env.
  Variable file : bytes.
  Let RS : forall n, mle (Resolve f E file n) (Resolve f' E file n) := rs_mle f f' E file L.

  Ltac getter := first [apply d_object_mono; exact RS | apply a_object_mono; exact RS | exact (RS _)].
  Ltac go := unfold d_int, a_int, d_number, d_array, d_name, d_dict, d_string, d_bool, a_string, a_number; mm; try getter.

  Lemma find_objects_mono : mle (find_objects f E file) (find_objects f' E file).
  Proof.
    unfold find_objects. apply bind_mle; [apply mle_refl | intros _]. generalize (Datatypes.S (List.length file)), 0, (@nil (Z * xentry)).
    induction n as [| k IH]; intros off os; [apply mle_refl |]. cbn [find_objects_loop]. destruct (rfind start_obj_regexp (zdrop off file) 0) as [[i j] |]; [| apply mle_refl].
    go.
  Qed.
  Lemma stream_sections_mono : forall k i index w0 w1 w2 data,
    mle (stream_sections k f (Resolve f E file) i index w0 w1 w2 data) (stream_sections k f' (Resolve f' E file) i index w0 w1 w2 data).
  Proof.
    induction k as [| k IH]; intros i index w0 w1 w2 data; [apply mle_refl |]. cbn [stream_sections]. destruct (_ <? _); [| apply mle_refl].
    go. intros p. destruct (stream_entries_mono f f' 0 z0 z w0 w1 w2 data (pxref p) L) as [-> | ->]; [left; reflexivity |].
    destruct (stream_entries f' 0 z0 z w0 w1 w2 data (pxref p)) as [[[x data'] []] | |]; [apply IH | right; reflexivity | right; reflexivity | left; reflexivity].
  Qed.
  Lemma load_stream_entries_mono : forall xoff o t,
    mle (load_stream_entries f (Resolve f E file) xoff o t) (load_stream_entries f' (Resolve f' E file) xoff o t).
  Proof. intros xoff o t. unfold load_stream_entries. go. apply stream_sections_mono. Qed.
  Lemma load_cf_mono : forall ep pw len cf fs, mle (load_cf E (Resolve f E file) ep pw len cf fs) (load_cf E (Resolve f' E file) ep pw len cf fs).
  Proof. induction cf as [| [k []] cf IH]; intros fs; cbn [load_cf]; try apply mle_refl; auto. go. Qed.
  Lemma init_security_mono : forall pw t, mle (init_security E (Resolve f E file) pw t) (init_security E (Resolve f' E file) pw t).
  Proof. intros pw t. unfold init_security, override. go. apply load_cf_mono. Qed.
End Fuel.

Lemma load_xref_mono : forall f f', (f <= f')%nat -> forall E file off seen, mle (load_xref f E file off seen) (load_xref f' E file off seen).
Proof.
  induction f as [| f IH]; intros f' L E file off seen; [intros p; left; reflexivity |]. destruct f' as [| f']; [lia |]. assert (L' : (f <= f')%nat) by lia.
  cbn [load_xref]. destruct (zmem off seen); [apply mle_refl |]. cbv zeta. unfold d_int. mm; try (apply d_object_mono; apply rs_mle; exact L').
  eta. mm; first [apply (proj1 (get_resolve_mono f f' E file L')) | apply d_object_mono; apply rs_mle; exact L' | apply load_stream_entries_mono; exact L' | apply IH; exact L'].
Qed.
Lemma load_all_mono : forall f f', (f <= f')%nat -> forall E file offs, mle (load_all f E file offs) (load_all f' E file offs).
Proof. intros f f' L E file. induction offs as [| o offs IH]; cbn [load_all]; [apply mle_refl |]. apply bind_mle; [apply load_xref_mono; exact L | intros _; exact IH]. Qed.
Lemma load_mono : forall f f', (f <= f')%nat -> forall E ord file pw, mle (load f E ord file pw) (load f' E ord file pw).
Proof.
  intros f f' L E ord file pw. unfold load. apply bind_mle; [apply find_objects_mono; exact L | intros os]. apply bind_mle; [apply mle_refl | intros _].
  apply bind_mle; [apply load_all_mono; exact L | intros _]. apply bind_mle; [apply mle_refl | intros _]. intros p. destruct (dget (lit "Encrypt") (ptrailer p)) as [e |]; [| right; reflexivity].
  apply (bind_mle _ _ (exempt_encrypt e) (exempt_encrypt e)); [apply mle_refl | intros _]. intros q. unfold set_password. apply init_security_mono. exact L.
Qed.
Lemma load_more : forall f f' E ord file pw p x, (f <= f')%nat -> load f E ord file pw p = Ok x -> load f' E ord file pw p = Ok x.
Proof. intros f f' E ord file pw p x L H. destruct (load_mono f f' L E ord file pw p) as [Q | Q]; congruence. Qed.
Lemma load_det : forall f f' E ord file pw p x y, load f E ord file pw p = Ok x -> load f' E ord file pw p = Ok y -> x = y.
Proof.
  intros f f' E ord file pw p x y H H'. destruct (Nat.le_ge_cases f f') as [L | L]; [pose proof (load_more _ _ _ _ _ _ _ _ L H) | pose proof (load_more _ _ _ _ _ _ _ _ L H')]; congruence.
Qed.
