(** OutTopP.v -- proofs about Parse and main as a whole. *)
From Verif Require Import Base BaseP Msg Reader ReaderP Num Lexer Obj ReadObj Env Getters Crypt GetObj Font Page Tree Output Render Extract Load Parse
  OutP SpecFetch SpecLook SpecOut.
From Coq Require Import Strings.String Sorting.Permutation.
Local Open Scope x_scope.

(** ** Hexadecimal names *)
Lemma hexdigit_ok : forall v, 0 <= v < 16 -> hexdigit_of v (hexdigit v).
Proof.
  intros v H. assert (C : v = 0 \/ v = 1 \/ v = 2 \/ v = 3 \/ v = 4 \/ v = 5 \/ v = 6 \/ v = 7 \/ v = 8 \/ v = 9 \/ v = 10 \/ v = 11 \/ v = 12 \/ v = 13 \/ v = 14 \/ v = 15) by lia.
  repeat (destruct C as [-> | C]; [reflexivity |]). subst v. reflexivity.
Qed.
Lemma hex_encode_ok : forall d, hexed d (hex_encode d).
Proof.
  induction d as [| b d IH]; [apply hx_nil |]. pose proof (bv_range b) as R.
  change (hex_encode (b :: d)) with (hexdigit (bv b / 16) :: hexdigit (bv b mod 16) :: hex_encode d).
  apply hx_cons; [apply hexdigit_ok | apply hexdigit_ok | exact IH].
  - split; [apply Z.div_pos; lia | apply Z.div_lt_upper_bound; lia].
  - apply Z.mod_pos_bound. lia.
Qed.
Lemma hexed_length : forall d s, hexed d s -> List.length s = (2 * List.length d)%nat.
Proof. intros d s H. induction H; cbn [List.length]; lia. Qed.
Lemma hexed_digits : forall d s, hexed d s -> forall c, In c s -> In c (lit "0123456789abcdef").
Proof.
  intros d s H. induction H as [| b h l d s H1 H2 H IH]; intros c I; [destruct I |]. destruct I as [<- | [<- | I]]; [| | apply IH; exact I].
  - eapply nth_error_In. exact H1.
  - eapply nth_error_In. exact H2.
Qed.

(** ** What the body of Parse writes *)
Section Body.
  Variables (E : env) (OD : order) (P : list ev -> Prop).
  Hypothesis OK : order_ok OD.
  Hypothesis Pnil : P [].
  Hypothesis Papp : forall a b, P a -> P b -> P (a ++ b).
  Hypothesis Pwrite : forall f b, P [EWrite f b].
  Hypothesis Pdump : forall n d, P (dump_file E n d).
  Let em {A} := @emits P A.

  Lemma extract_one_emits : forall fuel file kv, em (extract_one E OD fuel file kv).
  Proof.
    intros fuel file [n e]. unfold extract_one. destruct (x_type e =? _); [| apply emits_ret, Pnil].
    apply emits_bind; [exact Papp | apply emits_lift, Pnil |]. intros _. apply emits_bind; [exact Papp | apply emits_lift, Pnil |]. intros o.
    apply emits_bind; [exact Papp | apply object_extract_emits; auto |]. intros _. apply emits_out, Pwrite.
  Qed.
  Lemma extract_all_emits : forall fuel file l, em (extract_all E OD fuel file l).
  Proof.
    intros fuel file l. induction l as [| kv l IH]; [apply emits_ret, Pnil |]. cbn [extract_all].
    apply emits_bind; [exact Papp | apply extract_one_emits | intros _; exact IH].
  Qed.
  Lemma parse_body_emits : forall fuel file pw, em (parse_body E OD fuel file pw).
  Proof.
    intros fuel file pw. unfold parse_body. apply emits_bind; [exact Papp | apply emits_lift, Pnil |]. intros _.
    apply emits_bind; [exact Papp | apply emits_lift, Pnil |]. intros [e |]; [apply emits_ret, Pnil |].
    apply emits_bind; [exact Papp | intros p; apply extract_all_emits | intros _; apply emits_ret, Pnil].
  Qed.
End Body.

(** Parse is: nothing, or NewOutput, then events that the body wrote, then
    possibly Close *)
Lemma parse_shape : forall E OD fuel S pw, parse E OD fuel S pw = ([], Ok POpen) /\ s_input S = None \/
  exists file w tail, s_input S = Some file /\ fst (parse E OD fuel S pw) = fst (fst (new_output S)) ++ map OpEv w ++ tail /\
    (tail = [] \/ tail = close_output (snd (fst (new_output S)))) /\
    (w = [] \/ w = fst (parse_body E OD fuel file pw (new_parser file))).
Proof.
  intros E OD fuel S pw. unfold parse. destruct (s_input S) as [file |]; [right | left; auto]. exists file.
  destruct (new_output S) as [[ops opened] ok]. destruct ok.
  - destruct (parse_body E OD fuel file pw (new_parser file)) as [w [[[e |] q] | |]]; exists w;
      [exists (close_output opened) | exists (close_output opened) | exists (close_output opened) | exists []];
      cbn [fst snd]; rewrite ?app_nil_r; auto.
  - exists [], (close_output opened). cbn [fst snd map app]. auto.
Qed.
Lemma main_shape : forall E OD fuel S nargs ow pw, fst (main E OD fuel S nargs ow pw) = [] \/
  fst (main E OD fuel S nargs ow pw) = fst (parse E OD fuel S pw) /\ nargs = 2 /\ (s_stat S = StatNotExist \/ ow = true).
Proof.
  intros. unfold main. destruct (nargs =? 2) eqn:N; [| left; reflexivity]. apply Z.eqb_eq in N. cbn [negb].
  assert (F : fst match parse E OD fuel S pw with (ops, Ok _) => (ops, Ok 0) | (ops, Panic) => (ops, Panic) | (ops, OutOfFuel) => (ops, OutOfFuel) end
    = fst (parse E OD fuel S pw)) by (destruct (parse E OD fuel S pw) as [ops []]; reflexivity).
  destruct (s_stat S) eqn:T; destruct ow; cbn [negb andb]; try (left; reflexivity); right; rewrite F; auto.
Qed.

(** ** C50 *)
Lemma file_inside : forall f, In (ofile_name f) fixed_names.
Proof. intros []; cbn; tauto. Qed.
Lemma create_ops : forall S l o, In o (fst (fst (create_files S l))) -> exists f, In f l /\ o = OpCreate f.
Proof.
  intros S l. induction l as [| f l IH]; intros o H; [destruct H |]. cbn [create_files] in H. destruct (s_create S f).
  - destruct (create_files S l) as [[ops opened] ok] eqn:C. cbn [fst] in *. destruct H as [<- | H]; [exists f; split; [left |]; reflexivity |].
    destruct (IH o H) as (g & I & ->). exists g. split; [right; assumption | reflexivity].
  - cbn [fst] in H. destruct H as [<- | []]. exists f. split; [left |]; reflexivity.
Qed.
Lemma new_output_ops : forall S o, In o (fst (fst (new_output S))) -> o = OpRemoveAll \/ o = OpMkdirAll \/ exists f, o = OpCreate f.
Proof.
  intros S o H. unfold new_output in H. destruct (create_files S output_files) as [[ops opened] ok] eqn:C. cbn [fst] in H.
  destruct H as [<- | [<- | H]]; auto. destruct (create_ops S output_files o) as (f & _ & ->); [rewrite C; exact H |]. eauto.
Qed.
Lemma close_ops : forall opened o, In o (close_output opened) -> exists f, o = OpClose f /\ is_open opened f = true.
Proof.
  intros opened o H. unfold close_output, close_if in H.
  repeat (apply in_app_or in H; destruct H as [H | H]);
    match type of H with In _ (if ?b then _ else _) => destruct b eqn:C; [| destruct H] end;
    apply andb_prop in C; destruct C as [_ C]; destruct H as [<- | []]; eauto.
Qed.

Lemma parse_inside : forall E OD, order_ok OD -> (forall b, List.length (e_md5 E b) = 16%nat) ->
  forall fuel S pw, Forall inside (fst (parse E OD fuel S pw)).
Proof.
  intros E OD OK M fuel S pw. destruct (parse_shape E OD fuel S pw) as [[-> _] | (file & w & tail & _ & -> & T & W)]; [constructor |].
  apply Forall_forall. intros o I. apply in_app_or in I. destruct I as [I | I].
  { destruct (new_output_ops _ _ I) as [-> | [-> | (f & ->)]]; cbn; auto using file_inside. left. apply file_inside. }
  apply in_app_or in I. destruct I as [I | I].
  - assert (B : Forall inside (map OpEv w)).
    { destruct W as [-> | ->]; [constructor |].
      refine (parse_body_emits E OD (fun w => Forall inside (map OpEv w)) OK _ _ _ _ fuel file pw _).
      - constructor.
      - intros a b Ha Hb. rewrite map_app. apply Forall_app. auto.
      - intros f b. constructor; [left; apply file_inside | constructor].
      - intros n d. constructor; [left; apply (file_inside FFiles) |]. constructor; [| constructor]. right. pose proof (hex_encode_ok (e_md5 E d)) as X. split.
        + rewrite (hexed_length _ _ X), M. reflexivity.
        + apply (hexed_digits _ _ X). }
    exact (proj1 (Forall_forall _ _) B _ I).
  - destruct T as [-> | ->]; [destruct I |]. destruct (close_ops _ _ I) as (f & -> & _). left. apply file_inside.
Qed.
Lemma main_inside : forall E OD, order_ok OD -> (forall b, List.length (e_md5 E b) = 16%nat) ->
  forall fuel S nargs ow pw, Forall inside (fst (main E OD fuel S nargs ow pw)).
Proof.
  intros E OD OK M fuel S nargs ow pw. destruct (main_shape E OD fuel S nargs ow pw) as [-> | [-> _]]; [constructor | apply parse_inside; assumption].
Qed.

(** ** C51 *)
Lemma main_spares : forall E OD fuel S nargs ow pw, fst (main E OD fuel S nargs ow pw) <> [] ->
  nargs = 2 /\ (s_stat S = StatNotExist \/ ow = true) /\ s_input S <> None.
Proof.
  intros E OD fuel S nargs ow pw H. destruct (main_shape E OD fuel S nargs ow pw) as [Q | (Q & N & T)]; [congruence |].
  split; [exact N |]. split; [exact T |]. intros I. apply H. rewrite Q. unfold parse. rewrite I. reflexivity.
Qed.
Lemma main_runs : forall E OD fuel S ow pw file, s_stat S = StatNotExist \/ ow = true -> s_input S = Some file ->
  exists l, fst (main E OD fuel S 2 ow pw) = OpRemoveAll :: OpMkdirAll :: l.
Proof.
  intros E OD fuel S ow pw file T I.
  assert (Q : fst (main E OD fuel S 2 ow pw) = fst (parse E OD fuel S pw)).
  { unfold main. change (negb (2 =? 2)) with false. cbv iota.
    destruct (parse E OD fuel S pw) as [ops r]. destruct T as [-> | ->]; [| rewrite andb_false_r]; destruct r; reflexivity. }
  rewrite Q. destruct (parse_shape E OD fuel S pw) as [[_ N] | (f & w & tail & _ & -> & _)]; [congruence |].
  unfold new_output. destruct (create_files S output_files) as [[ops opened] ok]. cbn [fst app]. eauto.
Qed.

(** ** C57 *)
Lemma manifested_app : forall md a b, manifested md a -> manifested md b -> manifested md (a ++ b).
Proof. intros md a b H. induction H; intros B; cbn [app]; [exact B | apply mf_write; auto | apply mf_dump; auto]. Qed.
Lemma body_manifested : forall E OD, order_ok OD -> forall fuel file pw p, manifested (e_md5 E) (fst (parse_body E OD fuel file pw p)).
Proof.
  intros E OD OK fuel file pw p. refine (parse_body_emits E OD (manifested (e_md5 E)) OK _ _ _ _ fuel file pw p).
  - constructor.
  - apply manifested_app.
  - intros. apply mf_write, mf_nil.
  - intros n d. apply mf_dump; [apply hex_encode_ok | apply mf_nil].
Qed.
Lemma parse_manifested : forall E OD, order_ok OD -> forall fuel S pw, exists pre w post,
  fst (parse E OD fuel S pw) = pre ++ map OpEv w ++ post /\ manifested (e_md5 E) w /\
  forall e, ~ In (OpEv e) pre /\ ~ In (OpEv e) post.
Proof.
  intros E OD OK fuel S pw. destruct (parse_shape E OD fuel S pw) as [[-> _] | (file & w & tail & _ & -> & T & W)].
  - exists [], [], []. split; [reflexivity |]. split; [constructor |]. intros e. split; intros [].
  - eexists _, w, tail. split; [reflexivity |]. split.
    + destruct W as [-> | ->]; [constructor | apply body_manifested; assumption].
    + intros e. split.
      * intros I. destruct (new_output_ops _ _ I) as [X | [X | (f & X)]]; discriminate.
      * intros I. destruct T as [-> | ->]; [destruct I |]. destruct (close_ops _ _ I) as (f & X & _). discriminate.
Qed.

(** ** C52 *)
Lemma created_open : forall S l, snd (create_files S l) = true -> snd (fst (create_files S l)) = l.
Proof.
  intros S l. induction l as [| f l IH]; intros H; [reflexivity |]. cbn [create_files] in *. destruct (s_create S f); [| discriminate].
  destruct (create_files S l) as [[ops opened] ok]. cbn [fst snd] in *. rewrite IH; auto.
Qed.
Lemma is_open_in : forall l f, is_open l f = true <-> In f l.
Proof.
  intros l f. unfold is_open. rewrite existsb_exists. split.
  - intros (g & I & Q). destruct f, g; try discriminate; exact I.
  - intros I. exists f. split; [exact I | destruct f; reflexivity].
Qed.
Lemma closes : forall opened f, f <> FErrors -> In f opened -> In (OpClose f) (close_output opened).
Proof.
  intros opened f N I. apply is_open_in in I. unfold close_output.
  destruct f; try congruence; unfold close_if; rewrite I; cbn [andb];
    repeat first [left; reflexivity | apply in_or_app; first [left; left; reflexivity | right]].
Qed.
Lemma never_errors : forall opened, ~ In (OpClose FErrors) (close_output opened).
Proof.
  intros opened H. unfold close_output, close_if in H.
  repeat (apply in_app_or in H; destruct H as [H | H]);
    match type of H with In _ (if ?b then _ else _) => destruct b; [| destruct H] end; destruct H as [H | []]; discriminate.
Qed.
