(** CMapListP.v -- character maps with lists of values (C105). *)
From Verif Require Import Base BaseP Msg Reader ReaderP Num Lexer LexerP Obj ReadObj Plain PObjP Env Getters GetObj Font SpecLex SpecLexP SpecObj SpecNumP SpecObjP SpecRead ReadP SpecFilters SpecText TextP RawReadP SpecCMap.
From Coq Require Import Strings.String.

Lemma hex0_text : forall t v, hex0 t v -> hex_text t v /\ v <> [] /\ obj_text t (OStr v).
Proof. intros t v H. destruct H as [t ds v D P N]. split; [apply (ht_intro t ds 0 v D P) |]. split; [exact N | apply (ot_hex t ds v D P)]. Qed.
Lemma item1 : forall t o r l, obj_text t o -> self_delimited o -> items r l -> items (t ++ r) (o :: l).
Proof. intros t o r l T D I. apply (it_cons [] t o r l); [constructor | exact T | exact I | left; exact D]. Qed.
Lemma hexes_items : forall u vs, hexes u vs -> items u (map OStr vs).
Proof.
  intros u vs H. induction H as [g G | g t v r l G T H IH]; [apply it_nil; exact G |]. cbn [map].
  apply it_cons; [exact G | apply (hex0_text _ _ T) | exact IH | left; exact I].
Qed.
Definition objs_of (w : wline) : list obj :=
  match w with WMap (MChar c v) => [OStr c; OStr v] | WMap (MRange lo hi v) => [OStr lo; OStr hi; OStr v] | WList lo hi vs => [OStr lo; OStr hi; OArr (map OStr vs)] end.
Lemma wline_items : forall t w, wline_text t w -> forall r l, items r l -> items (t ++ r) (objs_of w ++ l).
Proof.
  intros t w H r l IR. destruct H as [a lo g1 b hi g2 c v A G1 B G2 C | a lo g1 b hi g2 u vs A G1 B G2 U _]; cbn [objs_of app]; rewrite <- !app_assoc.
  - apply item1; [apply (hex0_text _ _ A) | exact I |]. apply items_gap; [exact G1 |]. apply item1; [apply (hex0_text _ _ B) | exact I |]. apply items_gap; [exact G2 |].
    apply item1; [apply (hex0_text _ _ C) | exact I | exact IR].
  - apply item1; [apply (hex0_text _ _ A) | exact I |]. apply items_gap; [exact G1 |]. apply item1; [apply (hex0_text _ _ B) | exact I |]. apply items_gap; [exact G2 |].
    apply (item1 ("["%byte :: u ++ ["]"%byte])); [apply ot_arr, hexes_items, U | exact I | exact IR].
Qed.
Lemma wlines_items : forall t ws, wlines_text t ws -> forall r l, items r l -> items (t ++ r) (flat_map objs_of ws ++ l).
Proof.
  intros t ws H. induction H as [t w T | t w g r0 ws T G H IH]; intros r l IR; cbn [flat_map].
  - rewrite app_nil_r. apply wline_items; assumption.
  - rewrite <- !app_assoc. apply wline_items; [exact T |]. apply items_gap; [exact G |]. apply IH, IR.
Qed.
Lemma objs_plain : forall ws, Forall no_section (flat_map objs_of ws).
Proof.
  induction ws as [| w ws IH]; [constructor |]. cbn [flat_map]. apply Forall_app. split; [| exact IH].
  destruct w as [[c v | lo hi v] | lo hi vs]; cbn [objs_of]; repeat constructor; discriminate.
Qed.
(** lines in front of a map *)
Lemma wcmap_lines : forall t ws r ss, wlines_text t ws -> wcmap_text r ss -> wcmap_text (t ++ r) ss.
Proof.
  intros t ws r ss T H. destruct H as [r l I F | r l q p ms r' ss I F C N H | r l q p ws' r' ss I F C N H].
  - apply (wc_end (t ++ r) (flat_map objs_of ws ++ l)); [apply wlines_items; assumption | apply Forall_app; split; [apply objs_plain | exact F]].
  - rewrite app_assoc. apply (wc_chars (t ++ r) (flat_map objs_of ws ++ l) q); try assumption; [rewrite <- app_assoc; apply wlines_items; assumption | apply Forall_app; split; [apply objs_plain | exact F]].
  - rewrite app_assoc. apply (wc_ranges (t ++ r) (flat_map objs_of ws ++ l) q); try assumption; [rewrite <- app_assoc; apply wlines_items; assumption | apply Forall_app; split; [apply objs_plain | exact F]].
Qed.
Lemma wcmap_gap : forall g r ss, gap g -> wcmap_text r ss -> wcmap_text (g ++ r) ss.
Proof.
  intros g r ss G H. destruct H as [r l I F | r l q p ms r' ss I F C N H | r l q p ws' r' ss I F C N H].
  - apply (wc_end (g ++ r) l); [apply items_gap; assumption | exact F].
  - rewrite app_assoc. apply (wc_chars (g ++ r) l q); try assumption. apply items_gap; assumption.
  - rewrite app_assoc. apply (wc_ranges (g ++ r) l q); try assumption. apply items_gap; assumption.
Qed.

(** ** A stray closing bracket *)
Lemma close_read : forall file s g r, wf file s -> gap g -> rest s = g ++ "]"%byte :: r ->
  exists s', ReadObject file no_decryptor s = Ok ((KEYWORD_NULL, EEndOfArray), s') /\ wf file s' /\ rest s' = r.
Proof.
  intros file s g r W G R. pose proof (ReadObject_plain file no_decryptor s W) as Q. change (P_object no_decryptor (rest s)) with (P0 (rest s)) in Q.
  rewrite R, P0_gap, P0_close_arr in Q by exact G. cbn in Q. destruct Q as (s' & H1 & H2 & H3 & _). exists s'. auto.
Qed.
Lemma command_loop_close : forall file vs u r n acc s, wf file s -> rest s = u ++ "]"%byte :: r -> hexes u vs -> (List.length (rest s) < n)%nat ->
  exists ops s', read_command_loop n file acc s = Ok (((lit "null", ops), EEndOfArray), s') /\ wf file s' /\ rest s' = r.
Proof.
  intros file vs u r n acc s W R H. revert n acc s W R. induction H as [g G | g t v r0 l G T H IH]; intros n acc s W R L; (destruct n as [| n]; [lia |]); cbn [read_command_loop].
  - destruct (close_read _ _ _ _ W G R) as (s' & -> & W' & R'). cbn [rbind]. eexists _, _. split; [reflexivity | auto].
  - assert (IT : items (g ++ t ++ r0) (OStr v :: map OStr l)) by (apply it_cons; [exact G | apply (hex0_text _ _ T) | apply hexes_items, H | left; exact I]).
    destruct (read_plain file no_decryptor (fun v => v) s (rest s) (r0 ++ "]"%byte :: r) (OStr v) [] W (fun v => eq_refl) eq_refl) as (s' & H1 & H2).
    { rewrite R, <- !app_assoc, P0_gap by exact G. apply (proj1 obj_items_read _ _ (proj2 (proj2 (hex0_text _ _ T)))). apply (items_follow _ r0 (map OStr l)); [apply hexes_items, H | right; do 2 eexists; split; [reflexivity |]; split; reflexivity | left; exact I]. }
    cbn [map_strings] in H1. rewrite H1. cbn [rbind]. destruct H2 as (W' & R' & _).
    apply IH; [exact W' | exact R' |]. rewrite R'. rewrite R in L. destruct (hex_text_first _ _ (proj1 (hex0_text _ _ T))) as (t' & ->).
    rewrite !app_length in *. cbn [List.length] in *. lia.
Qed.
Lemma skip_list : forall E cmap u vs r n f p, hexes u vs -> wf cmap (prd p) -> rest (prd p) = u ++ "]"%byte :: r ->
  exists s', wf cmap s' /\ rest s' = r /\ font_loop (S n) E cmap f p = font_loop n E cmap f (with_rd s' p).
Proof.
  intros E cmap u vs r n f p H W R. cbn [font_loop]. unfold bind at 1, onrdr.
  destruct (command_loop_close cmap vs u r (enough (prd p)) [] (prd p) W R H) as (ops & s' & Q & W' & R'); [unfold enough; lia |].
  unfold ReadCommand. rewrite Q. exists s'. split; [exact W' |]. split; [exact R' |]. reflexivity.
Qed.

(** ** Sections *)
Definition turns (f f' : font) (ms : list mapping) (zs : list Z) : Prop :=
  (forall c, fmap f' c = after ms c (fmap f c)) /\ f_width f' = List.last zs (f_width f).
Lemma last_app : forall (a b : list Z) d, List.last (a ++ b) d = List.last b (List.last a d).
Proof.
  induction a as [| x a IH]; intros b d; [reflexivity |]. destruct a as [| y a].
  - cbn [app]. destruct b as [| z b]; [reflexivity |]. change (List.last (x :: z :: b) d) with (List.last (z :: b) d). change (List.last [x] d) with x.
    clear. revert z. induction b as [| w b IH]; intros z; [reflexivity |]. change (List.last (z :: w :: b) ?d) with (List.last (w :: b) d). apply IH.
  - change (List.last ((x :: y :: a) ++ b) d) with (List.last ((y :: a) ++ b) d). rewrite IH. reflexivity.
Qed.
Lemma turns_trans : forall f g h a b x y, turns f g a x -> turns g h b y -> turns f h (a ++ b) (x ++ y).
Proof. intros f g h a b x y [M1 W1] [M2 W2]. split; [intros c; rewrite M2, M1, after_app; reflexivity | rewrite W2, W1, last_app; reflexivity]. Qed.
Lemma becomes_turns : forall f f' ms, becomes f f' ms -> turns f f' ms (map (fun m => zlen (source m)) ms).
Proof. intros f f' ms [M W]. split; [exact M | rewrite W, wafter_last; reflexivity]. Qed.

Definition wbounded (ws : list wline) : Prop := Forall bounded (before ws).
Lemma wline_first : forall t w, wline_text t w -> exists r, t = "<"%byte :: r.
Proof.
  intros t w H. destruct H as [a lo g1 b hi g2 c v A G1 B G2 C | a lo g1 b hi g2 u vs A G1 B G2 U _]; destruct (hex_text_first _ _ (proj1 (hex0_text _ _ A))) as (r & ->); eexists; reflexivity.
Qed.
Lemma wlines_closer : forall t ws r, wlines_text t ws -> closer (t ++ r).
Proof.
  intros t ws r H. right. destruct H as [t w T | t w g r0 l T _ _]; destruct (wline_first _ _ T) as (r1 & ->); do 2 eexists; (split; [reflexivity | split; reflexivity]).
Qed.
Lemma not_hex : forall file s g r, wf file s -> gap g -> rest s = g ++ "["%byte :: r -> exists s', read_hex_string no_decryptor s = Ok ([], s') /\ wf file s' /\ rest s' = r.
Proof.
  intros file s g r W G Q. pose proof (ws_sim _ _ _ _ _ (wf_St _ _ W)) as S1. rewrite Q in S1 at 1. rewrite gap_ws_app in S1 by auto. rewrite p_ws_id in S1 by reflexivity.
  unfold read_hex_string, read_hex_raw. destruct (rb_cons _ _ _ _ _ _ S1) as (s1 & -> & H1 & _). change (beq "["%byte "<"%byte) with false. cbv iota.
  exists s1. split; [reflexivity |]. rewrite <- (app_nil_r (log s)) in H1. pose proof (St_moved _ _ _ _ _ W H1) as M. destruct M as (W' & R' & _). auto.
Qed.
Lemma not_hex_str : forall file p g r, wf file (prd p) -> gap g -> rest (prd p) = g ++ "["%byte :: r -> exists s', hex_str p = Ok ([], with_rd s' p) /\ wf file s' /\ rest s' = r.
Proof. intros file p g r W G R. destruct (not_hex file (prd p) g r W G R) as (s' & Q & W' & R'). exists s'. split; [unfold hex_str, onrdr; rewrite Q; reflexivity | auto]. Qed.
Lemma wlen_ltb : forall (w : wline) l i count, count - i = zlen (w :: l) -> (i <? count) = true.
Proof. intros. apply Z.ltb_lt. rewrite zlen_cons in *. pose proof (zlen_nonneg _ l). lia. Qed.

(** one line, and what is left behind it *)
Lemma range_line : forall file a lo g1 b hi g2 c v, hex0 a lo -> gap g1 -> hex0 b hi -> gap g2 -> hex0 c v -> bounded (MRange lo hi v) -> exists F, forall n i count g r f p, (F <= n)%nat ->
  (i <? count) = true -> wf file (prd p) -> rest (prd p) = g ++ a ++ g1 ++ b ++ g2 ++ c ++ r -> gap g ->
  exists f' s', bfrange_loop (S n) i count f p = bfrange_loop n (i + 1) count f' (with_rd s' p) /\ wf file s' /\ rest s' = r /\ becomes f f' [MRange lo hi v].
Proof.
  intros file a lo g1 b hi g2 c v A G1 B G2 C BD. exists (S (range_size (MRange lo hi v))). intros n i count g r f p L CT W R G. cbn [bfrange_loop]. rewrite CT.
  destruct (hex0_text _ _ A) as (Ha & Na & _). destruct (hex0_text _ _ B) as (Hb & Nb & _). destruct (hex0_text _ _ C) as (Hc & Nc & _).
  destruct (hex_str_read file p g a lo _ W R G Ha) as (s1 & Q1 & W1 & R1). unfold bind at 1. rewrite Q1.
  destruct (range_becomes (S n) lo hi v f BD) as (f1 & RL & BC); [lia |]. destruct lo as [| x lo]; [congruence |]. cbv zeta.
  destruct (hex_str_read file (with_rd s1 p) g1 b hi _ W1 R1 G1 Hb) as (s2 & Q2 & W2 & R2). unfold bind at 1. rewrite Q2.
  destruct hi as [| y hi]; [congruence |]. rewrite with_rd_twice.
  destruct (hex_str_read file (with_rd s2 p) g2 c v _ W2 R2 G2 Hc) as (s3 & Q3 & W3 & R3). unfold bind at 1. rewrite Q3.
  destruct v as [| z v]; [congruence |]. rewrite with_rd_twice. unfold bind at 1, lift. rewrite RL. exists f1, s3. auto.
Qed.
Lemma list_line : forall file a lo g1 b hi g2 n i count g r f p, hex0 a lo -> gap g1 -> hex0 b hi -> gap g2 ->
  (i <? count) = true -> wf file (prd p) -> rest (prd p) = g ++ a ++ g1 ++ b ++ g2 ++ "["%byte :: r -> gap g ->
  exists s', bfrange_loop (S n) i count f p = Ok (set_width (zlen lo) f, with_rd s' p) /\ wf file s' /\ rest s' = r.
Proof.
  intros file a lo g1 b hi g2 n i count g r f p A G1 B G2 CT W R G. cbn [bfrange_loop]. rewrite CT.
  destruct (hex0_text _ _ A) as (Ha & Na & _). destruct (hex0_text _ _ B) as (Hb & Nb & _).
  destruct (hex_str_read file p g a lo _ W R G Ha) as (s1 & Q1 & W1 & R1). unfold bind at 1. rewrite Q1. destruct lo as [| x lo]; [congruence |]. cbv zeta.
  destruct (hex_str_read file (with_rd s1 p) g1 b hi _ W1 R1 G1 Hb) as (s2 & Q2 & W2 & R2). unfold bind at 1. rewrite Q2.
  destruct hi as [| y hi]; [congruence |]. rewrite with_rd_twice.
  destruct (not_hex_str file (with_rd s2 p) g2 r W2 G2 R2) as (s3 & Q3 & W3 & R3). unfold bind at 1. rewrite Q3. exists s3. auto.
Qed.
Definition left_text (z : option (bytes * list bytes * bytes)) (r : bytes) : bytes :=
  match z with None => r | Some (u, _, v) => u ++ "]"%byte :: v ++ r end.
Definition left_ok (z : option (bytes * list bytes * bytes)) : Prop :=
  match z with None => True | Some (u, vs, v) => hexes u vs /\ forall r ss, wcmap_text r ss -> wcmap_text (v ++ r) ss end.
Lemma turns_list : forall f (lo : bytes), turns f (set_width (zlen lo) f) [] [zlen lo]. Proof. intros f lo. split; reflexivity. Qed.
Lemma wranges_read : forall file t ws, wlines_text t ws -> wbounded ws -> exists F z, left_ok z /\ forall n i count g r f p, (F <= n)%nat -> count - i = zlen ws ->
  wf file (prd p) -> rest (prd p) = g ++ t ++ r -> gap g ->
  exists f' s', bfrange_loop n i count f p = Ok (f', with_rd s' p) /\ wf file s' /\ rest s' = left_text z r /\ turns f f' (before ws) (widths ws).
Proof.
  intros file t ws H. induction H as [t w T | t w g3 r0 ws T G3 H IH]; intros BD.
  - destruct T as [a lo g1 b hi g2 c v A G1 B G2 C | a lo g1 b hi g2 u vs A G1 B G2 U _].
    + destruct (range_line file a lo g1 b hi g2 c v A G1 B G2 C) as (F & GO); [inversion BD; assumption |]. exists (S (S F)), None. split; [exact I |].
      intros n i count g r f p L CT W R G. destruct n as [| n]; [lia |]. rewrite <- !app_assoc in R.
      destruct (GO n i count g r f p ltac:(lia) (wlen_ltb _ _ _ _ CT) W R G) as (f' & s' & -> & W' & R' & BC). destruct n as [| n]; [lia |]. cbn [bfrange_loop].
      change (zlen [WMap (MRange lo hi v)]) with 1 in CT. replace (i + 1 <? count) with false by (symmetry; apply Z.ltb_ge; lia).
      exists f', s'. split; [reflexivity |]. split; [exact W' |]. split; [exact R' |]. apply (becomes_turns _ _ _ BC).
    + exists 1%nat, (Some (u, vs, [])). split; [split; [exact U | intros r ss H; exact H] |].
      intros n i count g r f p L CT W R G. destruct n as [| n]; [lia |]. rewrite <- !app_assoc in R. cbn [app] in R. rewrite <- app_assoc in R. cbn [app] in R.
      destruct (list_line file a lo g1 b hi g2 n i count g _ f p A G1 B G2 (wlen_ltb _ _ _ _ CT) W R G) as (s' & Q & W' & R').
      exists (set_width (zlen lo) f), s'. split; [exact Q |]. split; [exact W' |]. split; [exact R' | apply turns_list].
  - destruct T as [a lo g1 b hi g2 c v A G1 B G2 C | a lo g1 b hi g2 u vs A G1 B G2 U _].
    + unfold wbounded in BD. cbn [before] in BD. inversion BD as [| m l' BD1 BD2]; subst.
      destruct (range_line file a lo g1 b hi g2 c v A G1 B G2 C BD1) as (F & GO). destruct (IH BD2) as (F2 & z & Z & GO2). exists (S (F + F2)), z. split; [exact Z |].
      intros n i count g r f p L CT W R G. destruct n as [| n]; [lia |]. rewrite <- !app_assoc in R.
      destruct (GO n i count g _ f p ltac:(lia) (wlen_ltb _ _ _ _ CT) W R G) as (f1 & s1 & -> & W1 & R1 & BC). rewrite zlen_cons in CT.
      destruct (GO2 n (i + 1) count g3 r f1 (with_rd s1 p)) as (f' & s' & Q & W' & R' & BC'); [lia | lia | exact W1 | exact R1 | exact G3 |]. rewrite Q, with_rd_twice.
      exists f', s'. split; [reflexivity |]. split; [exact W' |]. split; [exact R' |]. apply (turns_trans _ _ _ _ _ _ _ (becomes_turns _ _ _ BC) BC').
    + exists 1%nat, (Some (u, vs, g3 ++ r0)). split; [split; [exact U | intros r ss X; rewrite <- app_assoc; apply wcmap_gap; [exact G3 | apply (wcmap_lines r0 ws); assumption]] |].
      intros n i count g r f p L CT W R G. destruct n as [| n]; [lia |]. rewrite <- !app_assoc in R. cbn [app] in R. rewrite <- !app_assoc in R. cbn [app] in R.
      destruct (list_line file a lo g1 b hi g2 n i count g _ f p A G1 B G2 (wlen_ltb _ _ _ _ CT) W R G) as (s' & Q & W' & R').
      exists (set_width (zlen lo) f), s'. split; [exact Q |]. split; [exact W' |]. split; [cbn [left_text]; rewrite <- app_assoc; exact R' | apply turns_list].
Qed.
Lemma before_map : forall ms, before (map WMap ms) = ms. Proof. induction ms as [| m ms IH]; [reflexivity |]. cbn. rewrite IH. reflexivity. Qed.
Lemma widths_map : forall ms, widths (map WMap ms) = map (fun m => zlen (source m)) ms. Proof. induction ms as [| m ms IH]; [reflexivity |]. cbn. rewrite IH. reflexivity. Qed.
Lemma font_loop_lists : forall E cmap ss, Forall wbounded ss -> forall t, wcmap_text t ss -> exists F, forall n f p, (F <= n)%nat -> wf cmap (prd p) -> rest (prd p) = t ->
  exists f' p', font_loop n E cmap f p = Ok (f', p') /\ turns f f' (flat_map before ss) (flat_map widths ss).
Proof.
  intros E cmap. induction ss as [| ws ss IH]; intros BD t H.
  - inversion H as [t' l I F | |]; subst. destruct (font_loop_end E cmap l t I F) as (F0 & GO). exists F0. intros n f p L W R. destruct (GO n f p L W R) as (p' & Q).
    exists f, p'. split; [exact Q | split; reflexivity].
  - inversion BD as [| x y BD1 BD2]; subst. inversion H as [| t' l q pt ms r ss' I F CH CT HR | t' l q pt ws' r ss' I F RG CT HR]; subst.
    + destruct (IH BD2 r HR) as (F0 & GO).
      destruct (font_loop_section E cmap q (lit "beginbfchar") (pt ++ r) (or_intror eq_refl) (chars_closer _ _ _ CH) l t' I F) as (j & g & G & SEC).
      exists (j + S (S (List.length ms) + F0))%nat. intros n f p L W R. replace n with (j + S (n - j - 1))%nat by lia.
      destruct (SEC (n - j - 1)%nat f p W R) as (s' & W' & R' & ->). unfold bind at 1.
      destruct (bfchar_text cmap pt ms CH (n - j - 1) 0 (num_int q) g r f (with_rd s' p)) as (f1 & s1 & Q1 & W1 & R1 & B1); [lia | lia | exact W' | exact R' | exact G |].
      change (section_loop (lit "beginbfchar")) with bfchar_loop. rewrite Q1. destruct (GO (n - j - 1)%nat f1 (with_rd s1 (with_rd s' p))) as (f' & p' & Q & B); [lia | exact W1 | exact R1 |].
      exists f', p'. split; [exact Q |]. cbn [flat_map]. apply (turns_trans _ f1 _); [rewrite before_map, widths_map; apply becomes_turns, B1 | exact B].
    + destruct (wranges_read cmap pt ws RG BD1) as (F1 & z & Z & BR).
      destruct (font_loop_section E cmap q (lit "beginbfrange") (pt ++ r) (or_introl eq_refl) (wlines_closer _ _ _ RG) l t' I F) as (j & g & G & SEC).
      assert (NX : exists F0, forall n f p, (F0 <= n)%nat -> wf cmap (prd p) -> rest (prd p) = left_text z r -> exists f' p', font_loop n E cmap f p = Ok (f', p') /\ turns f f' (flat_map before ss) (flat_map widths ss)).
      { destruct z as [[[u vs] v] |]; cbn [left_ok left_text] in *.
        - destruct Z as [U V]. destruct (IH BD2 (v ++ r) (V r ss HR)) as (F0 & GO). exists (S F0). intros n f p L W R. destruct n as [| n]; [lia |].
          destruct (skip_list E cmap u vs (v ++ r) n f p U W R) as (s' & W' & R' & ->). apply GO; [lia | exact W' | exact R'].
        - exact (IH BD2 r HR). }
      destruct NX as (F0 & GO). exists (j + S (F1 + F0))%nat. intros n f p L W R. replace n with (j + S (n - j - 1))%nat by lia.
      destruct (SEC (n - j - 1)%nat f p W R) as (s' & W' & R' & ->). unfold bind at 1.
      destruct (BR (n - j - 1)%nat 0 (num_int q) g r f (with_rd s' p)) as (f1 & s1 & Q1 & W1 & R1 & B1); [lia | lia | exact W' | exact R' | exact G |].
      change (section_loop (lit "beginbfrange")) with bfrange_loop. rewrite Q1. destruct (GO (n - j - 1)%nat f1 (with_rd s1 (with_rd s' p))) as (f' & p' & Q & B); [lia | exact W1 | exact R1 |].
      exists f', p'. split; [exact Q |]. cbn [flat_map]. apply (turns_trans _ f1 _ _ _ _ _ B1 B).
Qed.
Theorem lists_loaded : forall E cmap ss, wcmap_text cmap ss -> Forall (fun ws => Forall bounded (before ws)) ss -> exists F, forall fuel, (F <= fuel)%nat ->
  exists f, cmap_font fuel E cmap = Ok f /\ f_width f = List.last (flat_map widths ss) 1 /\ forall c, mapped taken (flat_map before ss) c (mget Z.eqb c (f_map f)).
Proof.
  intros E cmap ss H BD. destruct (font_loop_lists E cmap ss BD cmap H) as (F & GO). exists F. intros fuel L.
  destruct (GO fuel font_default (new_parser cmap) L) as (f & p' & Q & M & WD); [apply open_wf | reflexivity |].
  exists f. split; [unfold cmap_font, with_parser; rewrite Q; reflexivity |]. split; [exact WD |]. intros c. pose proof (M c) as MC. unfold fmap in MC. rewrite MC. cbn [f_map font_default mget].
  destruct (after_mapped (flat_map before ss) c None) as [[Q1 F1] | (a & m & b & Q1 & C & F1 & Q2)].
  - left. rewrite Q1. auto.
  - right. exists a, m, b. rewrite Q2. auto.
Qed.
