(** ManifestP.v -- the lines of files.txt (C72), exit codes (C71). *)
From Verif Require Import Base BaseP Msg Reader ReaderP Num Lexer Obj ReadObj Env Getters Crypt GetObj Font Page Tree Output Render Extract Load Parse
  RelP GetObjP SpecRead FetchP LookP SecurityP OutP OutTopP RawP ExtractP SourceP SpecFetch SpecLook SpecTree SpecOut SpecSource FetchEx Md5 OutEx SourceEx.
From Coq Require Import Strings.String Sorting.Permutation.

Lemma zeros_hash : hash_name zeros.
Proof. split; [reflexivity |]. intros c H. repeat (destruct H as [<- | H]; [left; reflexivity |]). destruct H. Qed.
Lemma hexed_digits : forall d x, hexed d x -> List.length x = (2 * List.length d)%nat /\ forall c, In c x -> In c (lit "0123456789abcdef").
Proof.
  intros d x H. induction H as [| b h l d s A B H [IH1 IH2]]; [split; [reflexivity | intros c []] |]. split; [cbn [List.length]; lia |].
  intros c [<- | [<- | J]]; [eapply nth_error_In; exact A | eapply nth_error_In; exact B | apply IH2; exact J].
Qed.
Lemma hash_of_hexed : forall d x, List.length d = 16%nat -> hexed d x -> hash_name x.
Proof. intros d x L H. destruct (hexed_digits _ _ H) as [A B]. split; [lia | exact B]. Qed.
Lemma content_lines : forall ops (G : bytes * bytes -> Prop),
  (forall b, In (OpEv (EWrite FFiles b)) ops -> exists x, G x /\ b = entry_line x) ->
  exists l, content FFiles ops = List.concat (map entry_line l) /\ Forall G l.
Proof.
  induction ops as [| o ops IH]; intros G H; [exists []; split; [reflexivity | constructor] |].
  destruct (IH G (fun b J => H b (or_intror J))) as (l & Q & F).
  assert (N : content FFiles (o :: ops) = appended FFiles o ++ content FFiles ops) by reflexivity.
  destruct o as [| | f | [f b | n d] | f]; try (exists l; rewrite N, Q; split; [reflexivity | exact F]).
  destruct f; try (exists l; rewrite N, Q; split; [reflexivity | exact F]).
  destruct (H b (or_introl eq_refl)) as (x & Gx & ->). exists (x :: l). rewrite N, Q. split; [reflexivity | constructor; assumption].
Qed.
Lemma run_lines : forall E OD fuel S pw file p, order_ok OD -> (forall b, List.length (e_md5 E b) = 16%nat) -> s_input S = Some file ->
  load fuel E (o_objects OD) file pw (new_parser file) = Ok (None, p) -> offsets_ok (pxref p) ->
  exists l, content FFiles (fst (parse E OD fuel S pw)) = List.concat (map entry_line l) /\
    Forall (fun x => hash_name (fst x) /\ about_file E file p x) l.
Proof.
  intros E OD fuel S pw file p OK M I L Of. apply content_lines. intros b H.
  destruct (manifest_source E OD fuel S pw file p OK I L Of b H) as (h & D & [(name & data & x & EM & HX & ->) | (f & EX & ->)]).
  - exists (x, name). split; [| reflexivity]. split; [eapply hash_of_hexed; [apply M | exact HX] |]. exists h. split; [exact D |]. left. exists data. auto.
  - exists (zeros, f). split; [| reflexivity]. split; [apply zeros_hash |]. exists h. split; [exact D |]. right. auto.
Qed.
Lemma split_line : forall a b r s, one_line a -> one_line b -> a ++ x0a :: r = b ++ x0a :: s -> a = b /\ r = s.
Proof.
  induction a as [| x a IH]; intros [| y b] r s A B Q; cbn in Q.
  - injection Q as ->. auto.
  - injection Q as Q _. exfalso. apply B. left. symmetry. exact Q.
  - injection Q as Q _. exfalso. apply A. left. exact Q.
  - injection Q as -> Q. destruct (IH b r s) as [-> ->]; [intros H; apply A; right; exact H | intros H; apply B; right; exact H | exact Q | auto].
Qed.
Lemma app_same : forall A (a b c d : list A), List.length a = List.length b -> a ++ c = b ++ d -> a = b /\ c = d.
Proof. induction a as [| x a IH]; intros [| y b] c d L Q; try discriminate; [auto |]. injection Q as -> Q. injection L as L. destruct (IH b c d L Q) as [-> ->]. auto. Qed.
Lemma hash_one_line : forall x, hash_name x -> one_line x.
Proof. intros x [_ H] J. apply H in J. vm_compute in J. repeat (destruct J as [J | J]; [discriminate |]). exact J. Qed.
Lemma lines_unique : forall l l', Forall (fun x => hash_name (fst x) /\ one_line (snd x)) l -> Forall (fun x => hash_name (fst x) /\ one_line (snd x)) l' ->
  List.concat (map entry_line l) = List.concat (map entry_line l') -> l = l'.
Proof.
  assert (NE : forall x r, entry_line x ++ r <> []) by (intros [x n] r H; unfold entry_line in H; cbn in H; destruct x; discriminate).
  induction l as [| [x n] l IH]; intros [| [y m] l'] F F' Q; cbn [map List.concat] in Q; [reflexivity | exfalso; symmetry in Q; exact (NE _ _ Q) | exfalso; exact (NE _ _ Q) |].
  inversion F as [| ? ? [Hx Nx] F1]; subst. inversion F' as [| ? ? [Hy Ny] F2]; subst. cbn [fst snd] in *. unfold entry_line in Q. cbn [fst snd] in Q.
  rewrite <- !app_assoc in Q. destruct (app_same _ x y _ _ (eq_trans (proj1 Hx) (eq_sym (proj1 Hy))) Q) as [-> Q1]. cbn in Q1. injection Q1 as Q1.
  destruct (split_line n m _ _ Nx Ny Q1) as [-> Q2]. f_equal. apply IH; assumption.
Qed.

(** ** A name with a line break *)
Definition forged : bytes :=
  lit "1 0 obj<</A<</S/GoToR/F(a" ++ x0a :: lit "00000000000000000000000000000000:b)>>>> endobj ".
Definition S6 : sys := mksys (Some forged) (fun _ => true) StatNotExist.
Definition forged_p : pst := match load 20 E1 (fun l => l) forged [] (new_parser forged) with Ok (_, p) => p | _ => nothing end.
Definition forged_a : dict := [(lit "S", OName (lit "GoToR")); (lit "F", OStr (lit "a" ++ x0a :: lit "00000000000000000000000000000000:b"))].
Definition forged_d : dict := [(lit "A", ODict forged_a)].
Lemma forged_offsets : offsets_ok (pxref forged_p).
Proof.
  intros n e H T. unfold xget in H. remember (pxref forged_p) as x eqn:Q. vm_compute in Q. subst x. cbn [mget] in H.
  repeat match type of H with (if ?c then _ else _) = _ => destruct c; [injection H as <-; cbn; lia|] end. discriminate.
Qed.
Lemma forged_only : forall n o, in_use forged_p n -> fetched E1 forged forged_p n o -> o = plain 1 (ODict forged_d).
Proof.
  intros n o (e & X & T) F. unfold xget in X. remember (pxref forged_p) as x eqn:Q. vm_compute in Q. subst x. cbn [mget] in X.
  destruct (Z.eqb n 1) eqn:B; [| discriminate]. apply Z.eqb_eq in B. subst n.
  eapply fetched_det; [exact F |]. exists 9%nat. eexists. vm_compute. reflexivity.
Qed.
Lemma forged_holds : forall h, holds (ODict forged_d) h -> h = forged_d \/ h = forged_a.
Proof.
  intros h H. apply holds_inv in H. destruct H as [-> | (k & x & I & H)]; [auto |]. destruct I as [I | []]. injection I as <- <-.
  apply holds_inv in H. destruct H as [-> | (k & x & I & H)]; [auto |]. destruct I as [I | [I | []]]; injection I as <- <-; apply holds_inv in H; destruct H.
Qed.
Lemma forged_action : forall h a, holds (ODict forged_d) h -> action_of E1 forged forged_p h a -> a = forged_a.
Proof.
  intros h a H A. destruct (forged_holds _ H) as [-> | ->]; destruct A as [a T | a T | aa k a T I T']; try (exfalso; typed_none T).
  entry_of T. apply typed_direct in T; [injection T as <-; reflexivity | discriminate].
Qed.
Lemma forged_tree : forall h k x, holds (ODict forged_d) h -> (k = "EmbeddedFiles")%string -> ~ value_in E1 forged forged_p h k x.
Proof. intros h k x H -> (root & l & i & T & _). destruct (forged_holds _ H) as [-> | ->]; typed_none T. Qed.
Lemma forged_spec : forall h fs, holds (ODict forged_d) h -> ~ mentioned E1 forged forged_p h fs.
Proof.
  intros h fs H M. destruct M as [a fs A F | x fs T _].
  - rewrite (forged_action _ _ H A) in F. destruct F as [fs T | fs T]; typed_none T.
  - exact (forged_tree _ _ _ H eq_refl T).
Qed.
Ltac one := let H := fresh in intros H; vm_compute in H; repeat (destruct H as [H | H]; [discriminate |]); exact H.
Lemma forged_refuted : exists E OD fuel S pw file p l, order_ok OD /\ (forall b, List.length (e_md5 E b) = 16%nat) /\ s_input S = Some file /\
  load fuel E (o_objects OD) file pw (new_parser file) = Ok (None, p) /\ offsets_ok (pxref p) /\
  content FFiles (fst (parse E OD fuel S pw)) = List.concat (map entry_line l) /\ Forall (fun x => hash_name (fst x) /\ one_line (snd x)) l /\
  exists x, In x l /\ ~ about_file E file p x.
Proof.
  exists E1, OD1, 20%nat, S6, [], forged, forged_p, [(zeros, lit "a"); (zeros, lit "b")]. split; [apply OD1_ok |]. split; [exact md5_16 |]. split; [reflexivity |].
  split; [vm_compute; reflexivity |]. split; [apply forged_offsets |]. split; [vm_compute; reflexivity |].
  split. { constructor; [split; [apply zeros_hash | one] |]. constructor; [split; [apply zeros_hash | one] | constructor]. }
  exists (zeros, lit "b"). split; [right; left; reflexivity |]. intros (h & (n & o & d & U & F & V & H) & C).
  rewrite (forged_only n o U F) in V. cbn in V. injection V as <-. cbn [fst snd] in C. destruct C as [(data & EM & _) | [_ EX]].
  - inversion EM as [fs ef name data' M _ _ _ _ Q1 Q2 | data' R Q1 Q2 | l data' _ T _ Q1 Q2]; subst; try discriminate. exact (forged_spec _ _ H M).
  - inversion EX as [a f A T | fs f M N | x f T]; subst.
    + rewrite (forged_action _ _ H A) in T. typed_none T.
    + exact (forged_spec _ _ H M).
    + exact (forged_tree _ _ _ H eq_refl T).
Qed.
Lemma C72_ex : (forall b, List.length (e_md5 E1 b) = 16%nat) /\
  content FFiles (fst (parse E1 OD1 20 S3 [])) = List.concat (map entry_line [(abc_sum, lit "form.xml")]) /\
  Forall (fun x => hash_name (fst x) /\ one_line (snd x)) [(abc_sum, lit "form.xml")].
Proof.
  split; [exact md5_16 |]. split; [vm_compute; reflexivity |]. constructor; [split; [exact (proj2 C57_ex) | one] | constructor].
Qed.

(** ** Exit codes *)
Lemma exit_code : forall E OD fuel S nargs ow pw c, snd (main E OD fuel S nargs ow pw) = Ok c -> (nargs = 2 -> c = 0) /\ (nargs <> 2 -> c = 1).
Proof.
  intros E OD fuel S nargs ow pw c H. unfold main in H. destruct (nargs =? 2) eqn:B; cbn [negb] in H.
  - apply Z.eqb_eq in B. split; [intros _ | congruence]. destruct ((match s_stat S with StatNotExist => false | _ => true end) && negb ow); [cbn in H; congruence |].
    destruct (parse E OD fuel S pw) as [ops [r| |]]; cbn in H; congruence.
  - apply Z.eqb_neq in B. split; [congruence | intros _]. cbn in H. congruence.
Qed.
Lemma exit_crash : forall E OD fuel S nargs ow pw,
  snd (main E OD fuel S nargs ow pw) = Panic <-> nargs = 2 /\ (s_stat S = StatNotExist \/ ow = true) /\ snd (parse E OD fuel S pw) = Panic.
Proof.
  intros E OD fuel S nargs ow pw. unfold main. destruct (nargs =? 2) eqn:B; cbn [negb].
  2: { apply Z.eqb_neq in B. cbn. split; [discriminate | intros [Q _]; congruence]. }
  apply Z.eqb_eq in B. destruct (s_stat S), ow; cbn [andb negb]; destruct (parse E OD fuel S pw) as [ops [r| |]]; cbn [snd];
    (split; [intros H; try discriminate H; auto | intros (_ & [Q | Q] & H); try discriminate Q; try discriminate H; reflexivity]).
Qed.
Lemma exit_refuted : exists E OD fuel S ow pw, order_ok OD /\ snd (parse E OD fuel S pw) = Ok POpen /\ snd (main E OD fuel S 2 ow pw) = Ok 0.
Proof. exists E1, OD1, 20%nat, (mksys None (fun _ => true) StatNotExist), false, []. split; [apply OD1_ok |]. split; vm_compute; reflexivity. Qed.
Lemma C71_ex : snd (main E1 OD1 20 S1 2 false []) = Ok 0 /\ snd (main E1 OD1 20 S1 3 false []) = Ok 1.
Proof. split; vm_compute; reflexivity. Qed.
