(** GetObjP.v -- GetObject and Resolve: what they preserve, what they depend
    on, and monotonicity in the fuel. *)
From Verif Require Import Base BaseP Msg Reader ReaderP Num Lexer LexerP Obj ReadObj ReadObjP Bits Filters Env Getters Crypt Stream GetObj RelP.
From Coq Require Import Strings.String.
Local Open Scope m_scope.

(** ** Related computations on parsers *)
Section RelM.
  Variable file : bytes.
  Variable R : rd -> rd -> Prop.
  Hypothesis HR : respects file R.
  Hypothesis HS : forall off s t, R s t -> R (seek file off s) (seek file off t).

  Record frame (p q : pst) : Prop := {
    fr_xref : pxref p = pxref q;
    fr_trailer : ptrailer p = ptrailer q;
    fr_sh : psh p = psh q
  }.
  Lemma frame_refl : forall p, frame p p.
  Proof. intros; split; reflexivity. Qed.
  Lemma frame_trans : forall p q r, frame p q -> frame q r -> frame p r.
  Proof. intros p q r [A B C] [A2 B2 C2]; split; congruence. Qed.
  Lemma frame_sym : forall p q, frame p q -> frame q p.
  Proof. intros p q [A B C]; split; congruence. Qed.

  (** the same objects: GetObject does not look at the trailer *)
  Definition alike (p q : pst) : Prop := pxref p = pxref q /\ psh p = psh q.
  Lemma frame_alike : forall p q, frame p q -> alike p q.
  Proof. intros p q [A B C]; split; auto. Qed.

  Definition RP (p q : pst) : Prop := R (prd p) (prd q) /\ alike p q.
  Definition relmx {A} (p q : pst) (x y : res (A * pst)) : Prop :=
    match x, y with
    | Ok (a, p'), Ok (b, q') => a = b /\ RP p' q' /\ frame p p'
    | Panic, Panic => True
    | OutOfFuel, OutOfFuel => True
    | _, _ => False
    end.
  Definition relm {A} (m : M A) : Prop := forall p q, RP p q -> relmx p q (m p) (m q).

  Lemma ret_rel : forall A (a : A), relm (ret a).
  Proof. intros A a p q H. split; auto. split; auto. apply frame_refl. Qed.

  Lemma bind_rel : forall A B (m : M A) (k : A -> M B), relm m -> (forall a, relm (k a)) -> relm (bind m k).
  Proof.
    intros A B m k Hm Hk p q H. unfold bind. specialize (Hm p q H).
    destruct (m p) as [[a p']| |], (m q) as [[b q']| |]; simpl in Hm; try tauto.
    destruct Hm as (<- & H' & F). specialize (Hk a p' q' H').
    destruct (k a p') as [[c p'']| |], (k a q') as [[d q'']| |]; simpl in *; try tauto.
    destruct Hk as (-> & H'' & F'). split; auto. split; auto. eapply frame_trans; eauto.
  Qed.

  Lemma lift_rel : forall A (x : res A), relm (lift x).
  Proof. intros A x p q H. unfold lift. destruct x; simpl; auto. split; auto. split; auto. apply frame_refl. Qed.

  Lemma mpanic_rel : forall A, relm (@mpanic A).
  Proof. intros A p q H. exact I. Qed.

  Lemma with_rd_RP : forall p q s t, RP p q -> R s t -> RP (with_rd s p) (with_rd t q).
  Proof. intros p q s t [H [A B]] K. split; [exact K|split; auto]. Qed.
  Lemma with_rd_frame : forall p s, frame p (with_rd s p).
  Proof. intros; split; reflexivity. Qed.

  Lemma onrd_rel : forall A (f : rd -> A * rd), rel1 R f -> relm (onrd f).
  Proof.
    intros A f Hf p q H. unfold onrd. specialize (Hf _ _ (proj1 H)).
    destruct (f (prd p)) as [a s], (f (prd q)) as [b t]. simpl in *. destruct Hf as [-> K].
    split; auto. split; [apply with_rd_RP; auto|apply with_rd_frame].
  Qed.
  Lemma onrdr_rel : forall A (f : rd -> res (A * rd)), relr R f -> relm (onrdr f).
  Proof.
    intros A f Hf p q H. unfold onrdr. specialize (Hf _ _ (proj1 H)).
    destruct (f (prd p)) as [[a s]| |], (f (prd q)) as [[b t]| |]; simpl in *; auto. destruct Hf as [-> K].
    split; auto. split; [apply with_rd_RP; auto|apply with_rd_frame].
  Qed.
  Lemma pseek_rel : forall off, relm (pseek file off).
  Proof.
    intros off p q H. unfold pseek. split; auto. split; [|apply with_rd_frame].
    apply with_rd_RP; auto. apply HS, H.
  Qed.

  Ltac rm := repeat match goal with
    | |- relm (ret _) => apply ret_rel
    | |- relm (lift _) => apply lift_rel
    | |- relm (bind _ _) => apply bind_rel; [|intros]
    | |- relm (let '(_, _) := ?x in _) => destruct x
    | |- relm (if ?b then _ else _) => destruct b
    | |- forall _, _ => intro
    end; auto.

  Section Rs.
    Variable E : env.
    Variable rs : Z -> M iobj.
    Hypothesis Hrs : forall n, relm (rs n).
    Variable fuel : nat.

    Lemma d_object_rel : forall d k, relm (d_object rs d k).
    Proof. intros d k. unfold d_object. destruct (dget k d) as [[]|]; rm. Qed.
    Lemma a_object_rel : forall d k, relm (a_object rs d k).
    Proof. intros d k. unfold a_object. destruct (zget d k) as [[]|]; rm. Qed.
    Hint Resolve d_object_rel a_object_rel : core.
    Lemma d_name_rel : forall d k, relm (d_name rs d k). Proof. intros; unfold d_name; rm. Qed.
    Lemma d_int_rel : forall d k, relm (d_int rs d k). Proof. intros; unfold d_int; rm. Qed.
    Lemma d_array_rel : forall d k, relm (d_array rs d k). Proof. intros; unfold d_array; rm. Qed.
    Lemma d_dict_rel : forall d k, relm (d_dict rs d k). Proof. intros; unfold d_dict; rm. Qed.
    Lemma d_bool_rel : forall d k, relm (d_bool rs d k). Proof. intros; unfold d_bool; rm. Qed.
    Lemma d_number_rel : forall d k, relm (d_number rs d k). Proof. intros; unfold d_number; rm. Qed.
    Lemma d_string_rel : forall d k, relm (d_string rs d k). Proof. intros; unfold d_string; rm. Qed.
    Lemma d_stream_rel : forall d k, relm (d_stream rs d k).
    Proof. intros; unfold d_stream. destruct (dget k d) as [[]|]; rm. Qed.
    Lemma a_name_rel : forall d k, relm (a_name rs d k). Proof. intros; unfold a_name; rm. Qed.
    Lemma a_int_rel : forall d k, relm (a_int rs d k). Proof. intros; unfold a_int; rm. Qed.
    Lemma a_array_rel : forall d k, relm (a_array rs d k). Proof. intros; unfold a_array; rm. Qed.
    Lemma a_dict_rel : forall d k, relm (a_dict rs d k). Proof. intros; unfold a_dict; rm. Qed.
    Lemma a_bool_rel : forall d k, relm (a_bool rs d k). Proof. intros; unfold a_bool; rm. Qed.
    Lemma a_number_rel : forall d k, relm (a_number rs d k). Proof. intros; unfold a_number; rm. Qed.
    Lemma a_string_rel : forall d k, relm (a_string rs d k). Proof. intros; unfold a_string; rm. Qed.
    Lemma a_stream_rel : forall d k, relm (a_stream rs d k).
    Proof. intros; unfold a_stream. destruct (zget d k) as [[]|]; rm. Qed.
    Hint Resolve d_name_rel d_int_rel d_array_rel d_dict_rel a_name_rel a_dict_rel : core.

    Lemma int_or_rel : forall d k z, relm (int_or rs d k z).
    Proof. intros; unfold int_or; rm. Qed.
    Hint Resolve int_or_rel : core.
    Lemma rev_predictor_rel : forall data parms, relm (rev_predictor rs fuel data parms).
    Proof. intros; unfold rev_predictor; rm. Qed.
    Hint Resolve rev_predictor_rel : core.
    Lemma decode_stream_rel : forall f data parms, relm (decode_stream E rs fuel f data parms).
    Proof.
      intros f data parms; unfold decode_stream. destruct data as [[|x data]|]; rm.
      - unfold flate_decode. destruct (e_zlib E (x :: data)) as [[out err]|]; rm.
      - unfold lzw_decode; rm.
    Qed.
    Hint Resolve decode_stream_rel : core.
    Lemma decode_loop_rel : forall k i fl pl data, relm (decode_loop E rs fuel k i fl pl data).
    Proof. induction k as [|k IH]; intros; cbn [decode_loop]; rm. Qed.
    Hint Resolve decode_loop_rel : core.
    Lemma read_stream_rel : forall dec fl pl, relm (read_stream E rs fuel dec fl pl).
    Proof.
      intros; unfold read_stream. apply bind_rel; [apply onrd_rel, (read_stream_raw_rel file R HR)|].
      intros [d|]; rm.
    Qed.
    Lemma filter_list_rel : forall d, relm (filter_list rs d). Proof. intros; unfold filter_list; rm. Qed.
    Lemma parms_list_rel : forall d, relm (parms_list rs d). Proof. intros; unfold parms_list; rm. Qed.
    Lemma choose_crypt_rel : forall e d fl pl, relm (choose_crypt rs e d fl pl).
    Proof.
      intros e d fl pl. unfold choose_crypt. destruct e; [|rm]. intros p q H.
      rewrite <- (proj2 (proj2 H)).
      match goal with |- relmx p q (?m p) (?m2 q) => change m2 with m; assert (X : relm m); [|exact (X p q H)] end.
      destruct fl; rm.
    Qed.
    Hint Resolve filter_list_rel parms_list_rel choose_crypt_rel read_stream_rel : core.
    Lemma get_in_use_rel : forall n e, relm (get_in_use E rs fuel file n e).
    Proof.
      intros n e. unfold get_in_use. apply bind_rel; [apply pseek_rel|intros _].
      apply bind_rel; [apply onrd_rel, (read_object_header_rel file R HR)|intros _].
      intros p q H. rewrite <- (proj2 (proj2 H)).
      match goal with |- relmx p q (?m p) (?m2 q) => change m2 with m; assert (X : relm m); [|exact (X p q H)] end.
      apply bind_rel; [apply onrdr_rel, (ReadObject_rel file R HR)|intros [v er]].
      apply bind_rel; [apply onrd_rel, (read_keyword_rel file R HR)|intros kw]. rm.
    Qed.
  End Rs.

  Lemma restoring_rel : forall m, relm m -> relm (restoring file m).
  Proof.
    intros m Hm p q H. unfold restoring. rewrite <- (r_pos _ _ HR _ _ (proj1 H)).
    match goal with |- relmx p q (?m p) (?m2 q) => change m2 with m; assert (X : relm m); [|exact (X p q H)] end.
    apply bind_rel; auto. intros o. apply bind_rel; [apply pseek_rel|]. intros; apply ret_rel.
  Qed.

  Lemma get_resolve_rel : forall fuel E,
    (forall n, relm (get_object fuel E file n)) /\ (forall n seen, relm (resolve fuel E file n seen)).
  Proof.
    induction fuel as [|f IH]; intros E; (split; [intros n|intros n seen]); [exact (fun p q H => I)|exact (fun p q H => I)| |];
      destruct (IH E) as [IG IRs].
    - intros p q H. cbn [get_object]. rewrite <- (proj1 (proj2 H)).
      destruct (xget n (pxref p)) as [e|]; [|split; auto; split; auto; apply frame_refl].
      destruct (x_type e =? XrefTypeIndirectObject); [|split; auto; split; auto; apply frame_refl].
      apply get_in_use_rel; auto. intros m. apply restoring_rel. apply IRs.
    - cbn [resolve]. destruct (zmem n seen); [apply ret_rel|]. apply bind_rel; auto.
      intros o. destruct (ival o); try apply ret_rel; auto.
  Qed.
  Lemma get_object_rel : forall fuel E n, relm (get_object fuel E file n).
  Proof. intros. apply get_resolve_rel. Qed.
  Lemma Resolve_rel : forall fuel E n, relm (Resolve fuel E file n).
  Proof. intros. apply restoring_rel, get_resolve_rel. Qed.
End RelM.

(** ** Instance: consistent reader states *)
Definition keeps (file : bytes) (s t : rd) : Prop := s = t /\ wf file s.
Lemma keeps_respects : forall file, respects file (keeps file).
Proof.
  intros file. split.
  - intros s t [-> _]; reflexivity.
  - intros s t [-> _]; reflexivity.
  - intros s t [<- W]. split; auto. split; auto. apply read_byte_wf; auto.
  - intros s t [<- W]. split; auto. apply unread_byte_wf; auto.
  - intros m s t [<- W]. split; auto. apply log_error_wf; auto.
  - intros s t [<- W]. split; auto. split; auto. destruct (pk_St _ _ _ _ _ (St_intro _ _ W)) as (s' & -> & S' & _). apply S'.
  - intros s t n [<- W] L. split; auto. pose proof (pk_last s) as PL. destruct (pk_St _ _ _ _ _ (St_intro _ _ W)) as (s' & E & S' & B).
    rewrite E in *. cbn [snd fst] in *. rewrite firstn_length in L. eapply dc_St; eauto. unfold zlen in B. lia.
  - intros s t n Hn [<- W]. split; auto. split; auto. destruct (rest s) as [|b r] eqn:E.
    + unfold read_upto. rewrite E. exact W.
    + assert (S' : St file s (b :: r) (pos s + zlen (b :: r)) (log s)) by (split; [exact W|split; [exact E|split; reflexivity]]).
      destruct (ru_cons file s n b r _ _ S') as (k & s' & _ & _ & -> & S2 & _); [lia|apply S2].
  - intros s0 s t [<- W] _. split; auto. apply seek_wf; auto.
Qed.
Lemma keeps_seek : forall file off s t, keeps file s t -> keeps file (seek file off s) (seek file off t).
Proof. intros file off s t [<- W]. split; auto. apply seek_wf; auto. Qed.

Definition pwf (file : bytes) (p : pst) : Prop := wf file (prd p).

Lemma RP_keeps : forall file p, pwf file p -> RP (keeps file) p p.
Proof. intros file p H. split; split; auto. Qed.

(** Every computation that respects [keeps] leaves cross-reference table,
    trailer and security handler alone and the reader consistent. *)
Lemma relm_keeps : forall file A (m : M A) p a p', relm (keeps file) m -> pwf file p -> m p = Ok (a, p') ->
  pwf file p' /\ frame p p'.
Proof.
  intros file A m p a p' H W E. specialize (H p p (RP_keeps file p W)). rewrite E in H. simpl in H.
  destruct H as (_ & [[_ W'] _] & F). split; auto.
Qed.
Lemma get_object_keeps : forall fuel E file n p o p', pwf file p -> get_object fuel E file n p = Ok (o, p') ->
  pwf file p' /\ frame p p'.
Proof. intros. eapply relm_keeps; eauto. apply get_object_rel; [apply keeps_respects|apply keeps_seek]. Qed.

(** ** Instance: equal up to the log *)
Definition same_but_log (l1 l2 : list msg) (s t : rd) : Prop :=
  pos s = pos t /\ buf s = buf t /\ last s = last t /\ rest s = rest t /\ exists ms, log s = l1 ++ ms /\ log t = l2 ++ ms.
Lemma same_respects : forall file l1 l2, respects file (same_but_log l1 l2).
Proof.
  intros file l1 l2. split.
  - intros s t (A & B & C & D & E). congruence.
  - intros s t (A & B & C & D & E). congruence.
  - intros s t (A & B & C & D & E). unfold read_byte, filled. rewrite A, B, D. destruct (rest t) eqn:T; split; auto; repeat split; cbn [snd]; auto; try congruence; exact E.
  - intros s t (A & B & C & D & E). unfold unread_byte. rewrite A, B, C, D. destruct (last t) eqn:T; repeat split; cbn [snd]; auto; try congruence; exact E.
  - intros m s t (A & B & C & D & ms & E & F). unfold log_error. repeat split; auto. exists (ms ++ [m]). simpl.
    rewrite E, F, !app_assoc; auto.
  - intros s t (A & B & C & D & E). unfold peek2, filled. rewrite A, B, D. split; auto. repeat split; auto.
  - intros s t n (A & B & C & D & E) _. unfold peek2, discard, filled. simpl. rewrite A, B, D. repeat split; auto.
  - intros s t n _ (A & B & C & D & E). unfold read_upto, filled. rewrite A, B, C, D. destruct (rest t) eqn:T.
    + split; auto. repeat split; cbn [snd]; auto; congruence.
    + split; auto. repeat split; auto.
  - intros s0 s t (A & B & C & D & E) _. unfold seek. rewrite A, B, D. destruct (_ <? 0); repeat split; auto.
Qed.
Lemma same_seek : forall file l1 l2 off s t, same_but_log l1 l2 s t -> same_but_log l1 l2 (seek file off s) (seek file off t).
Proof.
  intros file l1 l2 off s t (A & B & C & D & E). unfold seek. rewrite A, B, D. destruct (_ <? 0); repeat split; auto.
Qed.
(** a seek forgets everything else *)
Lemma seek_same : forall file off s t, 0 <= off -> same_but_log (log s) (log t) (seek file off s) (seek file off t).
Proof.
  intros file off s t H. unfold seek. destruct (off <? 0) eqn:E; [apply Z.ltb_lt in E; lia|].
  repeat split; auto. exists []. rewrite !app_nil_r. auto.
Qed.

(** ** The fuel *)
Definition le_res {A} (x y : res A) : Prop := x = OutOfFuel \/ x = y.
Definition mle {A} (m m' : M A) : Prop := forall p, le_res (m p) (m' p).
Lemma le_res_refl : forall A (x : res A), le_res x x. Proof. right; reflexivity. Qed.
Lemma mle_refl : forall A (m : M A), mle m m. Proof. intros A m p. apply le_res_refl. Qed.
Lemma bind_mle : forall A B (m m' : M A) (k k' : A -> M B), mle m m' -> (forall a, mle (k a) (k' a)) -> mle (bind m k) (bind m' k').
Proof.
  intros A B m m' k k' H K p. unfold bind. destruct (H p) as [-> | ->]; [left; reflexivity|].
  destruct (m' p) as [[a p']| |]; [apply K|right; auto|left; auto].
Qed.
Lemma lift_mle : forall A (x y : res A), le_res x y -> mle (lift x) (lift y).
Proof. intros A x y [-> | ->] p; [left|right]; reflexivity. Qed.

Lemma tiff_loop_mono : forall f f' rw bpc colors columns r c i data, (f <= f')%nat ->
  le_res (tiff_loop f rw bpc colors columns r c i data) (tiff_loop f' rw bpc colors columns r c i data).
Proof.
  induction f as [|f IH]; intros f' rw bpc colors columns r c i data L; [left; reflexivity|].
  destruct f' as [|f']; [lia|]. cbn [tiff_loop].
  destruct (_ <? zlen data); [|right; auto]. destruct (c <? columns); [|apply IH; lia].
  destruct (i <? colors); [|apply IH; lia]. destruct (_ <=? _); [right; auto|].
  destruct (get_bits _ _ _); [|right; auto]. destruct (get_bits _ _ _); [|right; auto].
  destruct (set_bits _ _ _ _); [apply IH; lia|right; auto].
Qed.
Lemma reverse_predictor_mono : forall f f' predictor bpc colors columns data, (f <= f')%nat ->
  le_res (reverse_predictor f predictor bpc colors columns data) (reverse_predictor f' predictor bpc colors columns data).
Proof.
  intros. unfold reverse_predictor. repeat (match goal with |- context [if ?b then _ else _] => destruct b end; try apply le_res_refl).
  all: apply tiff_loop_mono; auto.
Qed.

Section Mono.
  Variable E : env.
  Variables rs rs' : Z -> M iobj.
  Hypothesis Hrs : forall n, mle (rs n) (rs' n).
  Variables fuel fuel' : nat.
  Hypothesis Hf : (fuel <= fuel')%nat.

  Ltac mm := repeat match goal with
    | |- mle (bind _ _) (bind _ _) => apply bind_mle; [|intros]
    | |- mle (let '(_, _) := ?x in _) _ => destruct x
    | |- mle (if ?b then _ else _) _ => destruct b
    | |- mle ?m ?m => apply mle_refl
    | |- forall _, _ => intro
    end; auto.

  Lemma d_object_mono : forall d k, mle (d_object rs d k) (d_object rs' d k).
  Proof. intros d k. unfold d_object. destruct (dget k d) as [[]|]; mm. Qed.
  Lemma a_object_mono : forall d k, mle (a_object rs d k) (a_object rs' d k).
  Proof. intros d k. unfold a_object. destruct (zget d k) as [[]|]; mm. Qed.
  Hint Resolve d_object_mono a_object_mono : core.
  Lemma int_or_mono : forall d k z, mle (int_or rs d k z) (int_or rs' d k z).
  Proof. intros. unfold int_or, d_int. mm. Qed.
  Hint Resolve int_or_mono : core.
  Lemma rev_predictor_mono : forall data parms, mle (rev_predictor rs fuel data parms) (rev_predictor rs' fuel' data parms).
  Proof. intros. unfold rev_predictor. mm. apply lift_mle, reverse_predictor_mono; auto. Qed.
  Hint Resolve rev_predictor_mono : core.
  Lemma decode_stream_mono : forall f data parms, mle (decode_stream E rs fuel f data parms) (decode_stream E rs' fuel' f data parms).
  Proof.
    intros f data parms; unfold decode_stream. destruct data as [[|x data]|]; mm.
    - unfold flate_decode. destruct (e_zlib E (x :: data)) as [[out err]|]; mm.
    - unfold lzw_decode; mm.
  Qed.
  Hint Resolve decode_stream_mono : core.
  Lemma decode_loop_mono : forall k i fl pl data, mle (decode_loop E rs fuel k i fl pl data) (decode_loop E rs' fuel' k i fl pl data).
  Proof. induction k as [|k IH]; intros; cbn [decode_loop]; unfold a_name, a_dict; mm. Qed.
  Hint Resolve decode_loop_mono : core.
  Lemma read_stream_mono : forall dec fl pl, mle (read_stream E rs fuel dec fl pl) (read_stream E rs' fuel' dec fl pl).
  Proof. intros; unfold read_stream. mm. destruct a; mm. Qed.
  Hint Resolve read_stream_mono : core.
  Lemma filter_list_mono : forall d, mle (filter_list rs d) (filter_list rs' d).
  Proof. intros; unfold filter_list, d_array, d_name; mm. Qed.
  Lemma parms_list_mono : forall d, mle (parms_list rs d) (parms_list rs' d).
  Proof. intros; unfold parms_list, d_array, d_dict; mm. Qed.
  Lemma choose_crypt_mono : forall e d fl pl, mle (choose_crypt rs e d fl pl) (choose_crypt rs' e d fl pl).
  Proof.
    intros e d fl pl. unfold choose_crypt. destruct e; [|mm]. intros p.
    match goal with |- le_res (?m p) (?m2 p) => assert (X : mle m m2); [|exact (X p)] end.
    unfold d_name, a_name, a_dict. destruct fl; mm.
  Qed.
  Hint Resolve filter_list_mono parms_list_mono choose_crypt_mono : core.
  Lemma get_in_use_mono : forall file n e, mle (get_in_use E rs fuel file n e) (get_in_use E rs' fuel' file n e).
  Proof.
    intros file n e. unfold get_in_use. mm. intros p.
    match goal with |- le_res (?m p) (?m2 p) => assert (X : mle m m2); [|exact (X p)] end. mm.
  Qed.
End Mono.

Lemma restoring_mono : forall file m m', mle m m' -> mle (restoring file m) (restoring file m').
Proof.
  intros file m m' H p. unfold restoring.
  match goal with |- le_res (?m p) (?m2 p) => assert (X : mle m m2); [|exact (X p)] end.
  apply bind_mle; auto. intros; apply mle_refl.
Qed.

Lemma get_resolve_mono : forall f f' E file, (f <= f')%nat ->
  (forall n, mle (get_object f E file n) (get_object f' E file n)) /\
  (forall n seen, mle (resolve f E file n seen) (resolve f' E file n seen)).
Proof.
  induction f as [|f IH]; intros f' E file L; (split; [intros n|intros n seen]); [left; auto|left; auto| |];
    (destruct f' as [|f']; [lia|]); destruct (IH f' E file) as [IG IRs]; try lia.
  - intros p. cbn [get_object]. destruct (xget n (pxref p)) as [e|]; [|right; auto].
    destruct (_ =? _); [|right; auto]. apply get_in_use_mono; [|lia]. intros m. apply restoring_mono, IRs.
  - cbn [resolve]. destruct (zmem n seen); [apply mle_refl|]. apply bind_mle; auto.
    intros o. destruct (ival o); try apply mle_refl; auto.
Qed.

Lemma get_object_mono : forall f f' E file n p x, (f <= f')%nat -> get_object f E file n p = Ok x -> get_object f' E file n p = Ok x.
Proof.
  intros f f' E file n p x L H. destruct (proj1 (get_resolve_mono f f' E file L) n p) as [K|K]; congruence.
Qed.
Lemma get_object_mono_panic : forall f f' E file n p, (f <= f')%nat -> get_object f E file n p = Panic -> get_object f' E file n p = Panic.
Proof.
  intros f f' E file n p L H. destruct (proj1 (get_resolve_mono f f' E file L) n p) as [K|K]; congruence.
Qed.
Lemma Resolve_mono : forall f f' E file n p x, (f <= f')%nat -> Resolve f E file n p = Ok x -> Resolve f' E file n p = Ok x.
Proof.
  intros f f' E file n p x L H. unfold Resolve in *.
  destruct (restoring_mono file _ _ (proj2 (get_resolve_mono f f' E file L) n []) p) as [K|K]; congruence.
Qed.
