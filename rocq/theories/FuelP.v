(** FuelP.v -- more fuel never changes a result. *)
From Verif Require Import Base BaseP Msg Reader ReaderP Num Lexer Obj ReadObj Env Getters Crypt GetObj Regex Xref Security Font Page Tree Output Render Extract Load Parse GetObjP.
From Coq Require Import Strings.String.
Local Open Scope x_scope.

(** events up to the point where the fuel ends may differ *)
Definition le_run {A} (x y : list ev * res A) : Prop := snd x = OutOfFuel \/ x = y.
Definition xle {A} (m m' : X A) : Prop := forall p, le_run (m p) (m' p).
Lemma xle_refl : forall A (m : X A), xle m m. Proof. intros A m p. right. reflexivity. Qed.
Lemma xle_lift : forall A (m m' : M A), mle m m' -> xle (xlift m) (xlift m').
Proof. intros A m m' H p. unfold le_run, xlift. destruct (H p) as [-> | ->]; [left | right]; reflexivity. Qed.
Lemma xle_bind : forall A B (m m' : X A) (k k' : A -> X B), xle m m' -> (forall a, xle (k a) (k' a)) -> xle (xbind m k) (xbind m' k').
Proof.
  intros A B m m' k k' H K p. unfold xbind. destruct (H p) as [Q | ->].
  - left. destruct (m p) as [w r]. cbn [snd] in Q. subst r. reflexivity.
  - destruct (m' p) as [w [[a p']| |]]; [| right; reflexivity | left; reflexivity]. destruct (K a p') as [Q | Q].
    + left. destruct (k a p') as [w' r]. exact Q.
    + right. rewrite Q. reflexivity.
Qed.
Lemma xle_pure : forall A (x y : list ev * res A), le_run x y -> xle (xpure x) (xpure y).
Proof. intros A x y [Q | ->] p; [left; unfold xpure; cbn [snd]; rewrite Q; reflexivity | right; reflexivity]. Qed.
Lemma xle_seq : forall l l', Forall2 xle l l' -> xle (xseq l) (xseq l').
Proof. induction 1 as [| m m' l l' H F IH]; [apply xle_refl |]. cbn [xseq]. apply xle_bind; [exact H | intros _; exact IH]. Qed.

Lemma rs_mle : forall f f' E file, (f <= f')%nat -> forall n, mle (Resolve f E file n) (Resolve f' E file n).
Proof. intros f f' E file L n. unfold Resolve. apply restoring_mono. apply (proj2 (get_resolve_mono f f' E file L)). Qed.

Ltac mm := repeat match goal with
  | |- mle (bind _ _) (bind _ _) => apply bind_mle; [|intros]
  | |- mle (let '(_, _) := ?x in _) _ => destruct x
  | |- mle (match ?x with _ => _ end) (match ?x with _ => _ end) => destruct x
  | |- mle ?m ?m => apply mle_refl
  | |- forall _, _ => intro
  end; auto.
Ltac xm := repeat match goal with
  | |- xle (xbind _ _) (xbind _ _) => apply xle_bind; [|intros]
  | |- xle (xlift _) (xlift _) => apply xle_lift
  | |- xle (let '(_, _) := ?x in _) _ => destruct x
  | |- xle (if ?b then _ else _) _ => destruct b
  | |- xle ?m ?m => apply xle_refl
  | |- forall _, _ => intro
  end; auto.

(** ** Fonts *)
Lemma range_loop_mono : forall f f' j hi v g, (f <= f')%nat -> le_res (range_loop f j hi v g) (range_loop f' j hi v g).
Proof.
  induction f as [| f IH]; intros f' j hi v g L; [left; reflexivity |]. destruct f' as [| f']; [lia |]. cbn [range_loop].
  destruct (j <=? hi); [apply IH; lia | right; reflexivity].
Qed.
Lemma bfrange_mono : forall f f' i count g, (f <= f')%nat -> mle (bfrange_loop f i count g) (bfrange_loop f' i count g).
Proof.
  induction f as [| f IH]; intros f' i count g L; [left; reflexivity |]. destruct f' as [| f']; [lia |]. cbn [bfrange_loop]. mm.
  - apply lift_mle, range_loop_mono. exact L.
  - apply IH. lia.
Qed.
Lemma bfchar_mono : forall f f' i count g, (f <= f')%nat -> mle (bfchar_loop f i count g) (bfchar_loop f' i count g).
Proof.
  induction f as [| f IH]; intros f' i count g L; [left; reflexivity |]. destruct f' as [| f']; [lia |]. cbn [bfchar_loop]. mm. apply IH. lia.
Qed.
Section Getters.
  Variables rs rs' : Z -> M iobj.
  Hypothesis Hrs : forall n, mle (rs n) (rs' n).
  Hint Resolve d_object_mono a_object_mono : core.
  Lemma d_typed_mono : forall A d k (f : obj * bool -> A), mle (bind (d_object rs d k) (fun x => ret (f x))) (bind (d_object rs' d k) (fun x => ret (f x))).
  Proof. intros. mm. Qed.
  Lemma a_typed_mono : forall A d k (f : obj * bool -> A), mle (bind (a_object rs d k) (fun x => ret (f x))) (bind (a_object rs' d k) (fun x => ret (f x))).
  Proof. intros. mm. Qed.
  Lemma d_stream_mono : forall d k, mle (d_stream rs d k) (d_stream rs' d k).
  Proof. intros d k. unfold d_stream. destruct (dget k d) as [[] |]; mm. Qed.
  Lemma a_stream_mono : forall d k, mle (a_stream rs d k) (a_stream rs' d k).
  Proof. intros d k. unfold a_stream. destruct (zget d k) as [[] |]; mm. Qed.
End Getters.
Ltac gg H := first [apply (d_typed_mono _ _ H) | apply (a_typed_mono _ _ H) | apply (d_stream_mono _ _ H) | apply (a_stream_mono _ _ H)].
Lemma font_loop_mono : forall f f' E cmap g, (f <= f')%nat -> mle (font_loop f E cmap g) (font_loop f' E cmap g).
Proof.
  induction f as [| f IH]; intros f' E cmap g L; [left; reflexivity |]. destruct f' as [| f']; [lia |]. cbn [font_loop]. apply bind_mle; [apply mle_refl |].
  intros [[cmd ops] e]. assert (L' : (f <= f')%nat) by lia. pose proof (rs_mle f f' E cmap L') as R.
  destruct e; mm; try (gg R); first [apply bfrange_mono; exact L' | apply bfchar_mono; exact L' | apply IH; exact L'].
Qed.
Lemma cmap_font_mono : forall f f' E cmap, (f <= f')%nat -> le_res (cmap_font f E cmap) (cmap_font f' E cmap).
Proof.
  intros f f' E cmap L. unfold cmap_font, with_parser. destruct (font_loop_mono f f' E cmap font_default L (new_parser cmap)) as [-> | ->]; [left; reflexivity | right; reflexivity].
Qed.

(** ** Pages *)
Lemma tj_mono : forall rs rs', (forall n, mle (rs n) (rs' n)) -> forall k i a acc, mle (tj_strings k rs i a acc) (tj_strings k rs' i a acc).
Proof. intros rs rs' R. induction k as [| k IH]; intros i a acc; cbn [tj_strings]; mm. gg R. Qed.
Lemma text_loop_mono : forall f f' E c fonts cur, (f <= f')%nat -> xle (text_loop E c fonts f cur) (text_loop E c fonts f' cur).
Proof.
  induction f as [| f IH]; intros f' E c fonts cur L; [left; reflexivity |]. destruct f' as [| f']; [lia |]. cbn [text_loop]. apply xle_bind; [apply xle_refl |].
  intros [[cmd ops] e]. assert (L' : (f <= f')%nat) by lia. pose proof (rs_mle f f' E c L') as R.
  destruct e; xm; try (gg R); try (apply IH; exact L'); apply (tj_mono _ _ R).
Qed.
Lemma contents_loop_mono : forall f f' E c fonts, (f <= f')%nat -> xle (contents_loop E c fonts f) (contents_loop E c fonts f').
Proof.
  induction f as [| f IH]; intros f' E c fonts L; [left; reflexivity |]. destruct f' as [| f']; [lia |]. cbn [contents_loop]. apply xle_bind; [apply xle_refl |].
  intros [[cmd ops] e]. assert (L' : (f <= f')%nat) by lia. destruct e; xm; try (apply IH; exact L'); apply text_loop_mono; exact L'.
Qed.
Lemma page_text_mono : forall f f' E fonts c, (f <= f')%nat -> le_run (page_text f E fonts c) (page_text f' E fonts c).
Proof.
  intros f f' E fonts c L. unfold page_text. destruct (contents_loop_mono f f' E c fonts L (new_parser c)) as [Q | Q].
  - left. destruct (contents_loop E c fonts f (new_parser c)) as [w r]. cbn [snd] in Q. subst r. reflexivity.
  - rewrite Q. right. reflexivity.
Qed.

Section Doc.
  Variables (E : env) (OD : order) (rs rs' : Z -> M iobj) (f f' : nat).
  Hypothesis R : forall n, mle (rs n) (rs' n).
  Hypothesis L : (f <= f')%nat.
  Lemma load_fonts_mono : forall names fonts fm, mle (load_fonts E rs f names fonts fm) (load_fonts E rs' f' names fonts fm).
  Proof.
    induction names as [| k names IH]; intros fonts fm; cbn [load_fonts]; mm; [gg R |]. unfold new_font. mm; [gg R |]. apply lift_mle, cmap_font_mono, L.
  Qed.
  Lemma contents_array_mono : forall k i fm a, xle (contents_array E rs f k i fm a) (contents_array E rs' f' k i fm a).
  Proof. induction k as [| k IH]; intros i fm a; cbn [contents_array]; xm; [gg R |]. apply xle_pure, page_text_mono, L. Qed.
  Lemma page_extract_mono : forall st d, xle (page_extract E OD rs f st d) (page_extract E OD rs' f' st d).
  Proof.
    intros st d. unfold page_extract. xm; try (gg R); [apply load_fonts_mono | apply xle_pure, page_text_mono, L | apply contents_array_mono].
  Qed.

  (** ** Trees *)
  Lemma name_tree_mono : forall g g', (g <= g')%nat ->
    (forall d s, mle (name_tree rs g d s) (name_tree rs' g' d s)) /\
    (forall k i kids acc s, mle (name_kids rs g k i kids acc s) (name_kids rs' g' k i kids acc s)).
  Proof.
    induction g as [| g IH]; intros g' Lg; [split; intros; left; reflexivity |]. destruct g' as [| g']; [lia |]. destruct (IH g' ltac:(lia)) as [I1 I2].
    split; intros; cbn [name_tree name_kids].
    - mm; gg R.
    - destruct k; mm. gg R.
  Qed.
  Lemma name_tree_map_mono : forall d k, mle (name_tree_map rs f d k) (name_tree_map rs' f' d k).
  Proof. intros. unfold name_tree_map. mm; [gg R |]. apply (proj1 (name_tree_mono f f' L)). Qed.
  Lemma resolve_kids_mono : forall g g', (g <= g')%nat ->
    (forall d s, mle (resolve_kids rs g d s) (resolve_kids rs' g' d s)) /\
    (forall kids acc s, mle (page_kids rs g kids acc s) (page_kids rs' g' kids acc s)).
  Proof.
    induction g as [| g IH]; intros g' Lg; [split; intros; left; reflexivity |]. destruct g' as [| g']; [lia |]. destruct (IH g' ltac:(lia)) as [I1 I2].
    split; intros; cbn [resolve_kids page_kids].
    - mm; gg R.
    - destruct kids as [| [] kids]; mm.
  Qed.
  Lemma page_tree_mono : forall d k, mle (page_tree rs f d k) (page_tree rs' f' d k).
  Proof. intros. unfold page_tree. mm; [gg R |]. apply (proj1 (resolve_kids_mono f f' L)). Qed.

  (** ** Extraction *)
  Lemma file_extract_mono : forall d c, xle (file_extract E rs d c) (file_extract E rs' d c).
  Proof. intros. unfold file_extract. xm; gg R. Qed.
  Hint Resolve file_extract_mono : core.
  Lemma action_extract_mono : forall d, xle (action_extract E rs d) (action_extract E rs' d).
  Proof. intros. unfold action_extract. xm; try (gg R). Qed.
  Hint Resolve action_extract_mono : core.
  Lemma action_at_mono : forall d k, xle (action_at E rs d k) (action_at E rs' d k).
  Proof. intros. unfold action_at. xm; gg R. Qed.
  Hint Resolve action_at_mono : core.
  Lemma additional_mono : forall st d, xle (additional_actions E OD rs st d) (additional_actions E OD rs' st d).
  Proof.
    intros. unfold additional_actions. xm; [gg R |]. apply xle_seq. generalize (o_map OD (0 :: st) bytes (map fst d0)). induction l as [| k l IH]; constructor; auto.
  Qed.
  Lemma xfa_mono : forall k i a acc, mle (xfa_streams rs k i a acc) (xfa_streams rs' k i a acc).
  Proof. induction k as [| k IH]; intros i a acc; cbn [xfa_streams]; mm. gg R. Qed.
  Lemma forms_mono : forall d, xle (forms E rs d) (forms E rs' d).
  Proof. intros. unfold forms. xm; try (gg R). apply xfa_mono. Qed.
  Lemma embedded_loop_mono : forall k i l, xle (embedded_loop E rs k i l) (embedded_loop E rs' k i l).
  Proof. induction k as [| k IH]; intros i l; cbn [embedded_loop]; xm; gg R. Qed.
  Lemma urls_loop_mono : forall k i l, xle (urls_loop rs k i l) (urls_loop rs' k i l).
  Proof. induction k as [| k IH]; intros i l; cbn [urls_loop]; xm; gg R. Qed.
  Lemma pages_loop_mono : forall l st i, xle (pages_loop E OD rs f st i l) (pages_loop E OD rs' f' st i l).
  Proof. induction l as [| d l IH]; intros st i; cbn [pages_loop]; xm. apply page_extract_mono. Qed.
  Hint Resolve additional_mono forms_mono embedded_loop_mono urls_loop_mono pages_loop_mono : core.
  Lemma extract_here_mono : forall st d, xle (extract_here E OD rs f st d) (extract_here E OD rs' f' st d).
  Proof.
    intros. unfold extract_here, embedded_files, javascript, page_text_of, uris, urls_tree.
    xm; first [apply name_tree_map_mono | apply page_tree_mono | gg R].
  Qed.
End Doc.
