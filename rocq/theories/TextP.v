(** TextP.v -- fonts and content streams (C43-C45, C48, C49). *)
From Verif Require Import Base BaseP Msg Reader ReaderP Num Lexer Obj ReadObj Plain PObjP Bits Env Getters GetObj Font Output Page
  SpecLex SpecLexP SpecObj SpecObjP SpecRead ReadP SpecFilters FiltersP SpecText SpecLook LookP XrefP RelP GetObjP FetchP SpecFetch.
From Coq Require Import Strings.String.

(** ** Operators *)
Lemma text_nonempty : forall t o, obj_text t o -> (0 < List.length t)%nat.
Proof. intros t o H. destruct (first_kind_start _ _ (obj_text_first _ _ H)) as (b & r & -> & _). cbn. lia. Qed.
Lemma item_read : forall t o l c, items t (o :: l) -> closer c -> exists t', items t' l /\ (List.length t' < List.length t)%nat /\
  forall file s, wf file s -> rest s = t ++ c ->
  exists s', ReadObject file no_decryptor s = Ok ((o, ENone), s') /\ wf file s' /\ rest s' = t' ++ c.
Proof.
  intros t o l c H C. inversion H as [| g t0 o' r l' G T I D]; subst. exists r. split; [exact I |].
  split; [pose proof (text_nonempty _ _ T); rewrite !app_length; lia |]. intros file s W R.
  destruct (read_plain file no_decryptor (fun v => v) s (rest s) (r ++ c) o [] W (fun v => eq_refl) eq_refl) as (s' & H1 & H2).
  { rewrite R, <- !app_assoc, P0_gap by exact G. apply (proj1 obj_items_read _ _ T). eapply items_follow; eassumption. }
  rewrite map_strings_id in H1. exists s'. split; [exact H1 |]. destruct H2 as (W' & R' & _). auto.
Qed.
Lemma end_read : forall file s t, wf file s -> rest s = t -> items t [] ->
  exists s', ReadObject file no_decryptor s = Ok ((KEYWORD_NULL, EReadError), s') /\ wf file s'.
Proof.
  intros file s t W R H. inversion H as [g G |]; subst. pose proof (ReadObject_plain file no_decryptor s W) as S.
  change (P_object no_decryptor (rest s)) with (P0 (rest s)) in S.
  replace (P0 (rest s)) with (P0 []) in S. 2: { rewrite <- (app_nil_r (rest s)), P0_gap by assumption. reflexivity. }
  rewrite P0_nil in S. cbn in S. destruct S as (s' & H1 & H2 & _). exists s'. split; assumption.
Qed.

Lemma command_loop_items : forall ops t k l c, Forall operand ops -> items t (ops ++ OKw k :: l) -> closer c ->
  exists t', items t' l /\ (List.length t' < List.length t)%nat /\
  forall file n acc s, wf file s -> rest s = t ++ c -> (List.length (rest s) < n)%nat ->
  exists s', read_command_loop n file acc s = Ok (((k, acc ++ ops), ENone), s') /\ wf file s' /\ rest s' = t' ++ c.
Proof.
  induction ops as [| o ops IH]; intros t k l c F I C; cbn [app] in I; destruct (item_read _ _ _ _ I C) as (t' & I' & L' & RD).
  - exists t'. split; [exact I' |]. split; [exact L' |]. intros file n acc s W R L. destruct n as [| n]; [lia |]. cbn [read_command_loop].
    destruct (RD file s W R) as (s' & -> & W' & R'). cbn [rbind]. exists s'. rewrite app_nil_r. auto.
  - inversion F as [| o' ops' Ho Fo]; subst. destruct (IH t' k l c Fo I' C) as (t2 & I2 & L2 & GO). exists t2. split; [exact I2 |]. split; [lia |].
    intros file n acc s W R L. destruct n as [| n]; [lia |]. cbn [read_command_loop].
    destruct (RD file s W R) as (s' & -> & W' & R'). cbn [rbind]. rewrite R, app_length in L.
    destruct (GO file n (acc ++ [o]) s' W' R') as (s2 & Q & W2 & R2); [rewrite R', app_length; lia |].
    exists s2. rewrite <- app_assoc in Q. cbn [app] in Q. split; [| auto].
    destruct o; try exact Q. exfalso. apply (Ho v). reflexivity.
Qed.
Lemma read_command_items : forall t ops k l c, Forall operand ops -> items t (ops ++ OKw k :: l) -> closer c ->
  exists t', items t' l /\ (List.length t' < List.length t)%nat /\ forall file s, wf file s -> rest s = t ++ c ->
  exists s', ReadCommand file s = Ok (((k, ops), ENone), s') /\ wf file s' /\ rest s' = t' ++ c.
Proof.
  intros t ops k l c F I C. destruct (command_loop_items ops t k l c F I C) as (t' & I' & L & GO). exists t'. split; [exact I' |]. split; [exact L |].
  intros file s W R. unfold ReadCommand, enough. apply (GO file _ [] s W R). lia.
Qed.
Lemma command_loop_end : forall file ops t n acc s, wf file s -> rest s = t -> Forall operand ops -> items t ops -> (List.length (rest s) < n)%nat ->
  exists s', read_command_loop n file acc s = Ok (((lit "null", acc ++ ops), EReadError), s') /\ wf file s'.
Proof.
  intros file. induction ops as [| o ops IH]; intros t n acc s W R F I L; (destruct n as [| n]; [lia |]); cbn [read_command_loop].
  - destruct (end_read _ _ _ W R I) as (s' & -> & W'). cbn [rbind]. exists s'. rewrite app_nil_r. auto.
  - destruct (item_read t o ops [] I) as (t' & I' & L' & RD); [left; reflexivity |]. destruct (RD file s W) as (s' & -> & W' & R'); [rewrite app_nil_r; exact R |]. cbn [rbind].
    inversion F as [| o' ops' Ho Fo]; subst. rewrite app_nil_r in R'.
    destruct (IH t' n (acc ++ [o]) s' W' R' Fo I') as (s2 & Q & W2); [rewrite R'; lia |]. exists s2. rewrite <- app_assoc in Q. split; [| exact W2].
    destruct o; try exact Q. exfalso. apply (Ho v). reflexivity.
Qed.
Lemma read_command_end : forall file s t ops, wf file s -> rest s = t -> Forall operand ops -> items t ops ->
  exists s', ReadCommand file s = Ok (((lit "null", ops), EReadError), s') /\ wf file s'.
Proof. intros. unfold ReadCommand, enough. eapply (command_loop_end file ops t _ []); try eassumption. lia. Qed.
(** a sequence of objects is a sequence of commands, with one choice *)
Lemma operand_dec : forall o, {operand o} + {exists k, o = OKw k}.
Proof. intros o. destruct o; try (left; intros k; discriminate). right. eexists. reflexivity. Qed.
Lemma commands_exist : forall l, exists cs, commands l cs.
Proof.
  assert (H : forall l, (exists ops, l = ops /\ Forall operand ops) \/ exists ops k r, l = ops ++ OKw k :: r /\ Forall operand ops).
  { induction l as [| o l IH]; [left; exists []; auto |]. destruct (operand_dec o) as [O | (k & ->)].
    - destruct IH as [(ops & -> & F) | (ops & k & r & -> & F)]; [left; exists (o :: ops); auto | right; exists (o :: ops), k, r; auto].
    - right. exists [], k, l. auto. }
  intros l. remember (List.length l) as n eqn:N. revert l N. induction n as [n IH] using lt_wf_ind. intros l ->.
  destruct (H l) as [(ops & -> & F) | (ops & k & r & -> & F)].
  - exists []. apply co_end. exact F.
  - destruct (IH (List.length r)) with (l := r) as (cs & C); [rewrite app_length; cbn; lia | reflexivity |]. exists ((k, ops) :: cs). apply co_cons; assumption.
Qed.

(** ** C43 *)
Definition fmap (f : font) : Z -> option bytes := fun c => mget Z.eqb c (f_map f).
Lemma decode_decoded : forall f n b, 1 <= f_width f -> (List.length b < n)%nat -> exists out, decode_font n f b = Ok out /\ decoded (fmap f) (f_width f) b out.
Proof.
  intros f n b W. revert b. induction n as [| n IH]; intros b L; [lia |]. cbn [decode_font].
  destruct (f_width f <=? zlen b) eqn:Q.
  - apply Z.leb_le in Q. replace (f_width f <? 0) with false by (symmetry; apply Z.ltb_ge; lia).
    destruct (IH (zdrop (f_width f) b)) as (out & E & D). { pose proof (zdrop_len _ (f_width f) b). unfold zlen in *. lia. }
    rewrite E. cbn [rbind]. rewrite bytes_to_int_wraps. fold (code (ztake (f_width f) b)).
    assert (LT : zlen (ztake (f_width f) b) = f_width f). { rewrite ztake_firstn by lia. unfold zlen in *. rewrite firstn_length. lia. }
    eexists. split; [reflexivity |]. replace b with (ztake (f_width f) b ++ zdrop (f_width f) b) at 1 by (apply ztake_zdrop; lia).
    destruct (mget Z.eqb (code (ztake (f_width f) b)) (f_map f)) as [v |] eqn:M; [apply de_mapped | apply de_kept]; assumption.
  - apply Z.leb_gt in Q. eexists. split; [reflexivity |]. apply de_end. exact Q.
Qed.
Lemma decoded_unique : forall m w b o1, 1 <= w -> decoded m w b o1 -> forall o2, decoded m w b o2 -> o1 = o2.
Proof.
  assert (SPLIT : forall w (c r c' r' : bytes), zlen c = w -> zlen c' = w -> c ++ r = c' ++ r' -> c = c' /\ r = r').
  { intros w c r c' r' H1 H2 Q. subst w. split.
    - apply (f_equal (ztake (zlen c))) in Q. rewrite ztake_app, <- H2, ztake_app in Q. exact Q.
    - apply (f_equal (zdrop (zlen c))) in Q. rewrite zdrop_app, <- H2, zdrop_app in Q. exact Q. }
  intros m w b o1 W D. induction D as [b L | c r v out L M D IH | c r out L M D IH]; intros o2 D2;
    inversion D2 as [b' L' Q1 Q2 | c' r' v' out' L' M' D' Q1 Q2 | c' r' out' L' M' D' Q1 Q2]; subst; try reflexivity;
    try (exfalso; rewrite zlen_app in *; match goal with H : context [zlen ?x + zlen ?y] |- _ => pose proof (zlen_nonneg _ x); pose proof (zlen_nonneg _ y) end; lia).
  - destruct (SPLIT _ _ _ _ _ L' eq_refl Q1) as [-> ->]. f_equal; [congruence | apply IH; exact D'].
  - destruct (SPLIT _ _ _ _ _ L' eq_refl Q1) as [-> ->]. congruence.
  - destruct (SPLIT _ _ _ _ _ L' eq_refl Q1) as [-> ->]. congruence.
  - destruct (SPLIT _ _ _ _ _ L' eq_refl Q1) as [-> ->]. f_equal. apply IH; exact D'.
Qed.
Theorem font_decoded : forall f b, 1 <= f_width f -> exists out, font_decode f b = Ok out /\ decoded (fmap f) (f_width f) b out /\
  forall o, decoded (fmap f) (f_width f) b o -> o = out.
Proof.
  intros f b W. destruct (decode_decoded f (S (List.length b)) b W) as (out & E & D); [lia |]. exists out. split; [exact E |]. split; [exact D |].
  intros o H. eapply decoded_unique; eassumption.
Qed.
Theorem default_identity : forall b, font_decode font_default b = Ok b.
Proof.
  intros b. destruct (font_decoded font_default b) as (out & E & D & U); [cbn; lia |]. rewrite E. f_equal. symmetry. apply U. clear.
  induction b as [| x b IH]; [apply de_end; reflexivity |]. change (x :: b) with ([x] ++ b) at 1. change (x :: b) with ([x] ++ b). apply de_kept; [reflexivity | reflexivity | exact IH].
Qed.

(** widths *)
Lemma range_width : forall n j hi v f f', range_loop n j hi v f = Ok f' -> f_width f' = f_width f.
Proof.
  induction n as [| n IH]; intros j hi v f f' H; [discriminate |]. cbn [range_loop] in H. destruct (j <=? hi); [apply IH in H; exact H | congruence].
Qed.
Lemma nonempty_len : forall (b : byte) l, 1 <= zlen (b :: l).
Proof. intros. rewrite zlen_cons. pose proof (zlen_nonneg _ l). lia. Qed.
Lemma bfrange_width : forall n i c f p f' p', bfrange_loop n i c f p = Ok (f', p') -> 1 <= f_width f -> 1 <= f_width f'.
Proof.
  induction n as [| n IH]; intros i c f p f' p' H L; [discriminate |]. cbn [bfrange_loop] in H. destruct (i <? c); [| assert (f' = f) by (unfold ret in H; congruence); subst; exact L].
  unfold bind at 1 in H. destruct (hex_str p) as [[st p1] | |]; try discriminate. destruct st as [| b st]; [assert (f' = f) by (unfold ret in H; congruence); subst; exact L |].
  cbv zeta in H. pose proof (nonempty_len b st). unfold bind at 1 in H. destruct (hex_str p1) as [[hi p2] | |]; try discriminate.
  destruct hi as [| b2 hi]; [assert (f' = set_width (zlen (b :: st)) f) by (unfold ret in H; congruence); subst; assumption |].
  unfold bind at 1 in H. destruct (hex_str p2) as [[v p3] | |]; try discriminate.
  destruct v as [| b3 v]; [assert (f' = set_width (zlen (b :: st)) f) by (unfold ret in H; congruence); subst; assumption |].
  unfold bind at 1, lift at 1 in H. destruct (range_loop _ _ _ _ _) as [f2 | |] eqn:R; try discriminate. apply IH in H; [exact H |].
  apply range_width in R. rewrite R. assumption.
Qed.
Lemma bfchar_width : forall n i c f p f' p', bfchar_loop n i c f p = Ok (f', p') -> 1 <= f_width f -> 1 <= f_width f'.
Proof.
  induction n as [| n IH]; intros i c f p f' p' H L; [discriminate |]. cbn [bfchar_loop] in H. destruct (i <? c); [| assert (f' = f) by (unfold ret in H; congruence); subst; exact L].
  unfold bind at 1 in H. destruct (hex_str p) as [[st p1] | |]; try discriminate. destruct st as [| b st]; [assert (f' = f) by (unfold ret in H; congruence); subst; exact L |].
  cbv zeta in H. pose proof (nonempty_len b st). unfold bind at 1 in H. destruct (hex_str p1) as [[hi p2] | |]; try discriminate.
  destruct hi as [| b2 hi]; [assert (f' = set_width (zlen (b :: st)) f) by (unfold ret in H; congruence); subst; assumption |].
  apply IH in H; [exact H |]. assumption.
Qed.
Lemma font_loop_width : forall n E cmap f p f' p', font_loop n E cmap f p = Ok (f', p') -> 1 <= f_width f -> 1 <= f_width f'.
Proof.
  induction n as [| n IH]; intros E cmap f p f' p' H L; [discriminate |]. cbn [font_loop] in H. unfold bind at 1 in H.
  destruct (onrdr (ReadCommand cmap) p) as [[[[cmd ops] e] p1] | |]; try discriminate.
  assert (STOP : ret f p1 = Ok (f', p') -> 1 <= f_width f') by (unfold ret; intros Q; assert (f' = f) by congruence; subst; exact L).
  assert (GO : (if bseq cmd (lit "beginbfrange") then
            bind (a_int (Resolve n E cmap) ops (zlen ops - 1)) (fun '(count, _) =>
            bind (bfrange_loop n 0 count f) (fun f => font_loop n E cmap f))
          else if bseq cmd (lit "beginbfchar") then
            bind (a_int (Resolve n E cmap) ops (zlen ops - 1)) (fun '(count, _) =>
            bind (bfchar_loop n 0 count f) (fun f => font_loop n E cmap f))
          else font_loop n E cmap f) p1 = Ok (f', p') -> 1 <= f_width f').
  { intros Q. destruct (bseq cmd (lit "beginbfrange")); [| destruct (bseq cmd (lit "beginbfchar")); [| eapply IH; eassumption]].
    - unfold bind at 1 in Q. destruct (a_int _ _ _ p1) as [[[c b] p2] | |]; try discriminate. unfold bind at 1 in Q.
      destruct (bfrange_loop n 0 c f p2) as [[f2 p3] | |] eqn:B; try discriminate. eapply IH; [exact Q |]. eapply bfrange_width; eassumption.
    - unfold bind at 1 in Q. destruct (a_int _ _ _ p1) as [[[c b] p2] | |]; try discriminate. unfold bind at 1 in Q.
      destruct (bfchar_loop n 0 c f p2) as [[f2 p3] | |] eqn:B; try discriminate. eapply IH; [exact Q |]. eapply bfchar_width; eassumption. }
  destruct e; auto.
Qed.
Theorem new_font_width : forall fuel E cmap f, cmap_font fuel E cmap = Ok f -> 1 <= f_width f.
Proof.
  intros fuel E cmap f H. unfold cmap_font, with_parser in H. destruct (font_loop _ _ _ _ _) as [[f' p'] | |] eqn:Q; try discriminate.
  assert (f' = f) by congruence. subst. eapply font_loop_width; [exact Q |]. cbn. lia.
Qed.
Theorem new_font_decodes : forall fuel E cmap f b, cmap_font fuel E cmap = Ok f -> exists out, font_decode f b = Ok out /\ decoded (fmap f) (f_width f) b out.
Proof. intros fuel E cmap f b H. destruct (font_decoded f b (new_font_width _ _ _ _ H)) as (out & A & B & _). exists out. auto. Qed.

(** ** C44, C45 *)
Lemma hex_text_read : forall file s g t v r, wf file s -> rest s = g ++ t ++ r -> gap g -> hex_text t v ->
  exists s', read_hex_string no_decryptor s = Ok (v, s') /\ wf file s' /\ rest s' = r.
Proof.
  intros file s g t v r W R G H. destruct H as [t ds k v D P]. rewrite <- app_comm_cons, <- app_assoc in R. cbn [app] in R.
  destruct (read_hex_exact file no_decryptor s g t ds k v r v W G D P eq_refl R) as (s' & Q & W' & R' & _). exists s'. auto.
Qed.
Definition coversb (m : mapping) (c : Z) : bool :=
  match m with
  | MChar k _ => c =? code k
  | MRange lo hi _ => (code lo <=? c) && (c <=? code hi)
  end.
Lemma coversb_ok : forall m c, coversb m c = true <-> covers m c.
Proof. intros [k v | lo hi v] c; cbn; [apply Z.eqb_eq |]. rewrite andb_true_iff, !Z.leb_le. reflexivity. Qed.
Fixpoint after (ms : list mapping) (c : Z) (x : option bytes) : option bytes :=
  match ms with
  | [] => x
  | m :: ms' => after ms' c (if coversb m c then Some (taken m) else x)
  end.
Fixpoint wafter (ms : list mapping) (w : Z) : Z := match ms with [] => w | m :: ms' => wafter ms' (zlen (source m)) end.
Lemma after_app : forall a b c x, after (a ++ b) c x = after b c (after a c x).
Proof. induction a as [| m a IH]; intros; [reflexivity |]. cbn. apply IH. Qed.
Lemma wafter_app : forall a b w, wafter (a ++ b) w = wafter b (wafter a w).
Proof. induction a as [| m a IH]; intros; [reflexivity |]. cbn. apply IH. Qed.
Lemma after_mapped : forall ms c x, (after ms c x = x /\ Forall (fun m => ~ covers m c) ms) \/
  exists a m b, ms = a ++ m :: b /\ covers m c /\ Forall (fun m => ~ covers m c) b /\ after ms c x = Some (taken m).
Proof.
  induction ms as [| m ms IH]; intros c x; [left; auto |]. cbn [after].
  destruct (IH c (if coversb m c then Some (taken m) else x)) as [[Q F] | (a & m' & b & -> & C & F & Q)].
  - destruct (coversb m c) eqn:B.
    + right. exists [], m, ms. apply coversb_ok in B. auto.
    + left. split; [exact Q |]. constructor; [| exact F]. intros K. apply coversb_ok in K. congruence.
  - right. exists (m :: a), m', b. auto.
Qed.
Lemma wafter_last : forall ms w, wafter ms w = List.last (map (fun m => zlen (source m)) ms) w.
Proof.
  induction ms as [| m ms IH]; intros w; [reflexivity |]. cbn [wafter]. rewrite IH. cbn [map]. destruct ms as [| m' ms]; [reflexivity |].
  cbn [map]. change (List.last (zlen (source m) :: zlen (source m') :: map (fun m0 => zlen (source m0)) ms) w) with (List.last (zlen (source m') :: map (fun m0 => zlen (source m0)) ms) w).
  clear IH. generalize (zlen (source m')). generalize (map (fun m0 => zlen (source m0)) ms). clear. intros l. induction l as [| y l IH]; intros x; [reflexivity |].
  change (List.last (x :: y :: l) ?d) with (List.last (y :: l) d). apply IH.
Qed.

Definition becomes (f f' : font) (ms : list mapping) : Prop :=
  (forall c, fmap f' c = after ms c (fmap f c)) /\ f_width f' = wafter ms (f_width f).
Lemma becomes_trans : forall f g h a b, becomes f g a -> becomes g h b -> becomes f h (a ++ b).
Proof.
  intros f g h a b [M1 W1] [M2 W2]. split; [intros c; rewrite M2, M1, after_app; reflexivity | rewrite W2, W1, wafter_app; reflexivity].
Qed.
Lemma becomes_refl : forall f, becomes f f []. Proof. split; reflexivity. Qed.

Lemma range_loop_spec : forall k n j hi v f, hi < two63 - 1 -> - two63 <= j -> (k < n)%nat -> hi - j < Z.of_nat k -> exists f',
  range_loop n j hi v f = Ok f' /\ f_width f' = f_width f /\ forall c, fmap f' c = if (j <=? c) && (c <=? hi) then Some v else fmap f c.
Proof.
  induction k as [| k IH]; intros n j hi v f H J L B; (destruct n as [| n]; [lia |]); cbn [range_loop].
  - replace (j <=? hi) with false by (symmetry; apply Z.leb_gt; lia). exists f. split; [reflexivity |]. split; [reflexivity |]. intros c.
    destruct (j <=? c) eqn:Q1; [| reflexivity]. destruct (c <=? hi) eqn:Q2; [| reflexivity]. apply Z.leb_le in Q1, Q2. lia.
  - destruct (j <=? hi) eqn:Q.
    + apply Z.leb_le in Q. rewrite wrap64_small by lia.
      destruct (IH n (j + 1) hi v (set_map j v f)) as (f' & E & W & M); [lia | lia | lia | lia |]. exists f'. split; [exact E |]. split; [exact W |].
      intros c. rewrite M. destruct (Z.eq_dec c j) as [-> | N].
      * replace (j + 1 <=? j) with false by (symmetry; apply Z.leb_gt; lia). replace (j <=? j) with true by (symmetry; apply Z.leb_le; lia).
        replace (j <=? hi) with true by (symmetry; apply Z.leb_le; lia). cbn [andb]. unfold fmap, set_map. cbn [f_map]. apply (mget_mset_same Z.eqb Zeqb_ok).
      * replace (j + 1 <=? c) with (j <=? c). 2: { destruct (j <=? c) eqn:A; symmetry; [apply Z.leb_le in A; apply Z.leb_le; lia | apply Z.leb_gt in A; apply Z.leb_gt; lia]. }
        destruct ((j <=? c) && (c <=? hi)); [reflexivity |]. unfold fmap, set_map. cbn [f_map]. apply (mget_mset_other Z.eqb Zeqb_ok). exact N.
    + apply Z.leb_gt in Q. exists f. split; [reflexivity |]. split; [reflexivity |]. intros c.
      destruct (j <=? c) eqn:Q1; [| reflexivity]. destruct (c <=? hi) eqn:Q2; [| reflexivity]. apply Z.leb_le in Q1, Q2. lia.
Qed.

Lemma hex_str_read : forall file p g t v r, wf file (prd p) -> rest (prd p) = g ++ t ++ r -> gap g -> hex_text t v ->
  exists s', hex_str p = Ok (v, with_rd s' p) /\ wf file s' /\ rest s' = r.
Proof.
  intros file p g t v r W R G H. destruct (hex_text_read file (prd p) g t v r W R G H) as (s' & Q & W' & R'). exists s'. split; [| auto].
  unfold hex_str, onrdr. rewrite Q. reflexivity.
Qed.
Lemma zlen_pos_ltb : forall (m : mapping) l i count, count - i = zlen (m :: l) -> (i <? count) = true.
Proof. intros. apply Z.ltb_lt. rewrite zlen_cons in *. pose proof (zlen_nonneg _ l). lia. Qed.

Lemma char_becomes : forall f c v, becomes f (set_map (bytes_to_int c) v (set_width (zlen c) f)) [MChar c v].
Proof.
  intros f c v. split; [| reflexivity]. intros x. cbn [after coversb taken]. unfold fmap, set_map, set_width. cbn [f_map]. rewrite bytes_to_int_wraps. fold (code c).
  destruct (x =? code c) eqn:Q; [apply Z.eqb_eq in Q; subst; apply (mget_mset_same Z.eqb Zeqb_ok) | apply Z.eqb_neq in Q; apply (mget_mset_other Z.eqb Zeqb_ok); exact Q].
Qed.
Lemma with_rd_twice : forall a b p, with_rd a (with_rd b p) = with_rd a p. Proof. reflexivity. Qed.

Lemma bfchar_text : forall file t ms, chars_text t ms -> forall n i count g r f p, (List.length ms < n)%nat -> count - i = zlen ms ->
  wf file (prd p) -> rest (prd p) = g ++ t ++ r -> gap g ->
  exists f' s', bfchar_loop n i count f p = Ok (f', with_rd s' p) /\ wf file s' /\ rest s' = r /\ becomes f f' ms.
Proof.
  intros file t ms H. induction H as [a c g1 b v Ha Hc Hg1 Hb Hv | a c g1 b v g2 r0 l Ha Hc Hg1 Hb Hv Hg2 HR IH];
    intros n i count g r f p L CT W R G; (destruct n as [| n]; [lia |]); cbn [bfchar_loop]; rewrite (zlen_pos_ltb _ _ _ _ CT).
  - rewrite <- !app_assoc in R. destruct (hex_str_read file p g a c _ W R G Ha) as (s1 & Q1 & W1 & R1). unfold bind at 1. rewrite Q1.
    destruct c as [| x c]; [congruence |]. cbv zeta.
    destruct (hex_str_read file (with_rd s1 p) g1 b v r W1 R1 Hg1 Hb) as (s2 & Q2 & W2 & R2). unfold bind at 1. rewrite Q2.
    destruct v as [| y v]; [congruence |]. cbn [List.length] in L. destruct n as [| n]; [lia |]. cbn [bfchar_loop].
    change (zlen [MChar (x :: c) (y :: v)]) with 1 in CT. replace (i + 1 <? count) with false by (symmetry; apply Z.ltb_ge; lia).
    eexists. exists s2. split; [reflexivity |]. split; [exact W2 |]. split; [exact R2 |]. apply char_becomes.
  - rewrite <- !app_assoc in R. destruct (hex_str_read file p g a c _ W R G Ha) as (s1 & Q1 & W1 & R1). unfold bind at 1. rewrite Q1.
    destruct c as [| x c]; [congruence |]. cbv zeta.
    destruct (hex_str_read file (with_rd s1 p) g1 b v (g2 ++ r0 ++ r) W1 R1 Hg1 Hb) as (s2 & Q2 & W2 & R2). unfold bind at 1. rewrite Q2.
    destruct v as [| y v]; [congruence |]. rewrite with_rd_twice. rewrite zlen_cons in CT.
    destruct (IH n (i + 1) count g2 r (set_map (bytes_to_int (x :: c)) (y :: v) (set_width (zlen (x :: c)) f)) (with_rd s2 p)) as (f' & s' & Q & W' & R' & B');
      [cbn in L; lia | lia | exact W2 | exact R2 | exact Hg2 |].
    exists f', s'. split; [exact Q |]. split; [exact W' |]. split; [exact R' |]. apply (becomes_trans f _ f' [_] l (char_becomes f (x :: c) (y :: v)) B').
Qed.

(** ranges that end *)
Definition range_size (m : mapping) : nat := match m with MChar _ _ => 0%nat | MRange lo hi _ => Z.to_nat (code hi - code lo + 1) end.
Lemma range_becomes : forall n lo hi v f, code hi < 2 ^ 63 - 1 -> (range_size (MRange lo hi v) < n)%nat ->
  exists f', range_loop n (bytes_to_int lo) (bytes_to_int hi) v (set_width (zlen lo) f) = Ok f' /\ becomes f f' [MRange lo hi v].
Proof.
  intros n lo hi v f B L. rewrite !bytes_to_int_wraps. fold (code lo) (code hi). pose proof (wrap64_range (be lo)) as W. fold (code lo) in W. cbn [range_size] in L.
  destruct (range_loop_spec (Z.to_nat (code hi - code lo + 1)) n (code lo) (code hi) v (set_width (zlen lo) f)) as (f' & Q & WD & M);
    [change two63 with (2 ^ 63); lia | lia | lia | lia |].
  exists f'. split; [exact Q |]. split; [intros c; rewrite M; reflexivity | exact WD].
Qed.
Lemma bfrange_text : forall file t ms, ranges_text t ms -> Forall bounded ms -> exists F, forall n i count g r f p, (F <= n)%nat -> count - i = zlen ms ->
  wf file (prd p) -> rest (prd p) = g ++ t ++ r -> gap g ->
  exists f' s', bfrange_loop n i count f p = Ok (f', with_rd s' p) /\ wf file s' /\ rest s' = r /\ becomes f f' ms.
Proof.
  intros file t ms H FB. induction H as [a lo g1 b hi g2 c v Ha Hc Hg1 Hb Hh Hg2 Hcv Hv | a lo g1 b hi g2 c v g3 r0 l Ha Hc Hg1 Hb Hh Hg2 Hcv Hv Hg3 HR IH].
  - exists (S (S (S (range_size (MRange lo hi v))))). intros n i count g r f p L CT W R G. destruct n as [| n]; [lia |]. cbn [bfrange_loop]. rewrite (zlen_pos_ltb _ _ _ _ CT).
    rewrite <- !app_assoc in R. destruct (hex_str_read file p g a lo _ W R G Ha) as (s1 & Q1 & W1 & R1). unfold bind at 1. rewrite Q1.
    inversion FB as [| m' ms' B _]; subst. cbn [bounded] in B.
    destruct (range_becomes (S n) lo hi v f B) as (f1 & RL & BC); [lia |].
    destruct lo as [| x lo]; [congruence |]. cbv zeta.
    destruct (hex_str_read file (with_rd s1 p) g1 b hi _ W1 R1 Hg1 Hb) as (s2 & Q2 & W2 & R2). unfold bind at 1. rewrite Q2.
    destruct hi as [| y hi]; [congruence |]. rewrite with_rd_twice.
    destruct (hex_str_read file (with_rd s2 p) g2 c v _ W2 R2 Hg2 Hcv) as (s3 & Q3 & W3 & R3). unfold bind at 1. rewrite Q3.
    destruct v as [| z v]; [congruence |]. rewrite with_rd_twice. unfold bind at 1, lift. rewrite RL.
    destruct n as [| n]; [lia |]. cbn [bfrange_loop].
    change (zlen [MRange (x :: lo) (y :: hi) (z :: v)]) with 1 in CT. replace (i + 1 <? count) with false by (symmetry; apply Z.ltb_ge; lia).
    exists f1, s3. split; [reflexivity |]. split; [exact W3 |]. split; [exact R3 |]. exact BC.
  - inversion FB as [| m' ms' B FB']; subst. cbn [bounded] in B. destruct (IH FB') as (F & IHF). exists (S (S (S (range_size (MRange lo hi v)) + F))).
    intros n i count g r f p L CT W R G. destruct n as [| n]; [lia |]. cbn [bfrange_loop]. rewrite (zlen_pos_ltb _ _ _ _ CT).
    rewrite <- !app_assoc in R. destruct (hex_str_read file p g a lo _ W R G Ha) as (s1 & Q1 & W1 & R1). unfold bind at 1. rewrite Q1.
    destruct (range_becomes (S n) lo hi v f B) as (f1 & RL & BC); [lia |].
    destruct lo as [| x lo]; [congruence |]. cbv zeta.
    destruct (hex_str_read file (with_rd s1 p) g1 b hi _ W1 R1 Hg1 Hb) as (s2 & Q2 & W2 & R2). unfold bind at 1. rewrite Q2.
    destruct hi as [| y hi]; [congruence |]. rewrite with_rd_twice.
    destruct (hex_str_read file (with_rd s2 p) g2 c v _ W2 R2 Hg2 Hcv) as (s3 & Q3 & W3 & R3). unfold bind at 1. rewrite Q3.
    destruct v as [| z v]; [congruence |]. rewrite with_rd_twice. unfold bind at 1, lift. rewrite RL. rewrite zlen_cons in CT.
    destruct (IHF n (i + 1) count g3 r f1 (with_rd s3 p)) as (f' & s' & Q & W' & R' & B'); [lia | lia | exact W3 | exact R3 | exact Hg3 |].
    exists f', s'. split; [exact Q |]. split; [exact W' |]. split; [exact R' |]. apply (becomes_trans f f1 f' [_] l BC B').
Qed.

(** operators outside the sections *)
Lemma split_first : forall l : list obj, Forall operand l \/ exists ops k r, l = ops ++ OKw k :: r /\ Forall operand ops.
Proof.
  induction l as [| o l IH]; [left; constructor |]. destruct (operand_dec o) as [O | (k & ->)].
  - destruct IH as [F | (ops & k & r & -> & F)]; [left; constructor; assumption | right; exists (o :: ops), k, r; split; [reflexivity | constructor; assumption]].
  - right. exists [], k, l. split; [reflexivity | constructor].
Qed.
Lemma no_section_kw : forall ops k r, Forall no_section (ops ++ OKw k :: r) -> bseq k (lit "beginbfrange") = false /\ bseq k (lit "beginbfchar") = false /\ Forall no_section r.
Proof.
  intros ops k r F. apply Forall_app in F. destruct F as [_ F]. inversion F as [| o l [N1 N2] F']; subst. split; [| split; [| exact F']].
  - apply bseq_neq. intros ->. apply N2. reflexivity.
  - apply bseq_neq. intros ->. apply N1. reflexivity.
Qed.
Lemma font_loop_end : forall E cmap l t, items t l -> Forall no_section l -> exists F, forall n f p, (F <= n)%nat -> wf cmap (prd p) -> rest (prd p) = t ->
  exists p', font_loop n E cmap f p = Ok (f, p').
Proof.
  intros E cmap l. remember (List.length l) as m eqn:Hm. revert l Hm. induction m as [m IH] using lt_wf_ind. intros l -> t I F.
  destruct (split_first l) as [O | (ops & k & r & -> & O)].
  - exists 1%nat. intros n f p L W R. destruct n as [| n]; [lia |]. cbn [font_loop]. unfold bind at 1, onrdr.
    destruct (read_command_end cmap (prd p) t l W R O I) as (s' & Q & _). rewrite Q. eexists. reflexivity.
  - destruct (no_section_kw _ _ _ F) as (N1 & N2 & F').
    destruct (read_command_items t ops k r [] O I) as (t' & I' & _ & RD); [left; reflexivity |].
    destruct (IH (List.length r)) with (l := r) (t := t') as (F0 & GO); [rewrite app_length; cbn; lia | reflexivity | exact I' | exact F' |].
    exists (S F0). intros n f p L W R. destruct n as [| n]; [lia |]. cbn [font_loop]. unfold bind at 1, onrdr.
    destruct (RD cmap (prd p) W) as (s' & Q & W' & R'); [rewrite app_nil_r; exact R |]. rewrite Q, N1, N2. rewrite app_nil_r in R'.
    apply GO; [lia | exact W' | exact R'].
Qed.
Definition section_loop (kw : bytes) := if bseq kw (lit "beginbfrange") then bfrange_loop else bfchar_loop.
Lemma font_loop_section : forall E cmap q kw c, kw = lit "beginbfrange" \/ kw = lit "beginbfchar" -> closer c ->
  forall l t, items t (l ++ [ONum q; OKw kw]) -> Forall no_section l ->
  exists j g, gap g /\ forall n f p, wf cmap (prd p) -> rest (prd p) = t ++ c -> exists s', wf cmap s' /\ rest s' = g ++ c /\
    font_loop (j + S n) E cmap f p = bind (section_loop kw n 0 (num_int q) f) (font_loop n E cmap) (with_rd s' p).
Proof.
  intros E cmap q kw c K C l. remember (List.length l) as m eqn:Hm. revert l Hm. induction m as [m IH] using lt_wf_ind. intros l -> t I F.
  destruct (split_first l) as [O | (ops & k & r & -> & O)].
  - change [ONum q; OKw kw] with ([ONum q] ++ [OKw kw]) in I. rewrite app_assoc in I.
    destruct (read_command_items t (l ++ [ONum q]) kw [] c) as (t' & I' & _ & RD); [apply Forall_app; split; [exact O | constructor; [intros k; discriminate | constructor]] | exact I | exact C |].
    exists 0%nat, t'. split; [inversion I'; assumption |]. intros n f p W R. cbn [Nat.add font_loop]. unfold bind at 1, onrdr.
    destruct (RD cmap (prd p) W R) as (s' & Q & W' & R'). exists s'. split; [exact W' |]. split; [exact R' |]. rewrite Q.
    assert (AI : a_int (Resolve n E cmap) (l ++ [ONum q]) (zlen (l ++ [ONum q]) - 1) (with_rd s' p) = Ok ((num_int q, true), with_rd s' p)).
    { apply a_int_at. rewrite zlen_app. change (zlen [ONum q]) with 1. lia. }
    destruct K as [-> | ->]; cbn [bseq]; (change (bseq (lit "beginbfrange") (lit "beginbfrange")) with true || change (bseq (lit "beginbfchar") (lit "beginbfrange")) with false; change (bseq (lit "beginbfchar") (lit "beginbfchar")) with true);
      cbv iota; unfold bind at 1; rewrite AI; reflexivity.
  - rewrite <- app_assoc in I. destruct (no_section_kw _ _ _ F) as (N1 & N2 & F').
    destruct (read_command_items t ops k (r ++ [ONum q; OKw kw]) c O I C) as (t' & I' & _ & RD).
    destruct (IH (List.length r)) with (l := r) (t := t') as (j & g & G & GO); [rewrite app_length; cbn; lia | reflexivity | exact I' | exact F' |].
    exists (S j), g. split; [exact G |]. intros n f p W R. cbn [Nat.add font_loop]. unfold bind at 1, onrdr.
    destruct (RD cmap (prd p) W R) as (s1 & Q & W1 & R1). destruct (GO n f (with_rd s1 p) W1 R1) as (s' & W' & R' & FL).
    exists s'. split; [exact W' |]. split; [exact R' |]. rewrite Q, N1, N2. exact FL.
Qed.
Lemma hex_text_first : forall t v, hex_text t v -> exists r, t = "<"%byte :: r.
Proof. intros t v H. destruct H. eexists. reflexivity. Qed.
Lemma chars_closer : forall t ms r, chars_text t ms -> closer (t ++ r).
Proof.
  intros t ms r H. right. destruct H as [a c g b v Ha | a c g b v g' r' l Ha]; destruct (hex_text_first _ _ Ha) as (r0 & ->); do 2 eexists; (split; [reflexivity | split; reflexivity]).
Qed.
Lemma ranges_closer : forall t ms r, ranges_text t ms -> closer (t ++ r).
Proof.
  intros t ms r H. right. destruct H as [a lo g1 b hi g2 c v Ha | a lo g1 b hi g2 c v g' r' l Ha]; destruct (hex_text_first _ _ Ha) as (r0 & ->); do 2 eexists; (split; [reflexivity | split; reflexivity]).
Qed.
Lemma font_loop_text : forall E cmap t ms, cmap_text t ms -> Forall bounded ms -> exists F, forall n f p, (F <= n)%nat -> wf cmap (prd p) -> rest (prd p) = t ->
  exists f' p', font_loop n E cmap f p = Ok (f', p') /\ becomes f f' ms.
Proof.
  intros E cmap t ms H. induction H as [t l I F | t l q pt ms r ms' I F CH CT H IH | t l q pt ms r ms' I F RG CT H IH]; intros FB.
  - destruct (font_loop_end E cmap l t I F) as (F0 & GO). exists F0. intros n f p L W R. destruct (GO n f p L W R) as (p' & Q).
    exists f, p'. split; [exact Q | apply becomes_refl].
  - apply Forall_app in FB. destruct FB as [_ FB]. destruct (IH FB) as (F0 & GO).
    destruct (font_loop_section E cmap q (lit "beginbfchar") (pt ++ r) (or_intror eq_refl) (chars_closer _ _ _ CH) l t I F) as (j & g & G & SEC).
    exists (j + S (S (List.length ms) + F0))%nat. intros n f p L W R. replace n with (j + S (n - j - 1))%nat by lia.
    destruct (SEC (n - j - 1)%nat f p W R) as (s' & W' & R' & ->). unfold bind at 1.
    destruct (bfchar_text cmap pt ms CH (n - j - 1) 0 (num_int q) g r f (with_rd s' p)) as (f1 & s1 & Q1 & W1 & R1 & B1); [lia | lia | exact W' | exact R' | exact G |].
    change (section_loop (lit "beginbfchar")) with bfchar_loop. rewrite Q1. destruct (GO (n - j - 1)%nat f1 (with_rd s1 (with_rd s' p))) as (f' & p' & Q & B); [lia | exact W1 | exact R1 |].
    exists f', p'. split; [exact Q | exact (becomes_trans _ _ _ _ _ B1 B)].
  - apply Forall_app in FB. destruct FB as [FB1 FB]. destruct (IH FB) as (F0 & GO).
    destruct (font_loop_section E cmap q (lit "beginbfrange") (pt ++ r) (or_introl eq_refl) (ranges_closer _ _ _ RG) l t I F) as (j & g & G & SEC).
    destruct (bfrange_text cmap pt ms RG FB1) as (F1 & BR).
    exists (j + S (F1 + F0))%nat. intros n f p L W R. replace n with (j + S (n - j - 1))%nat by lia.
    destruct (SEC (n - j - 1)%nat f p W R) as (s' & W' & R' & ->). unfold bind at 1.
    destruct (BR (n - j - 1)%nat 0 (num_int q) g r f (with_rd s' p)) as (f1 & s1 & Q1 & W1 & R1 & B1); [lia | lia | exact W' | exact R' | exact G |].
    change (section_loop (lit "beginbfrange")) with bfrange_loop. rewrite Q1. destruct (GO (n - j - 1)%nat f1 (with_rd s1 (with_rd s' p))) as (f' & p' & Q & B); [lia | exact W1 | exact R1 |].
    exists f', p'. split; [exact Q | exact (becomes_trans _ _ _ _ _ B1 B)].
Qed.
Theorem cmap_loaded : forall E cmap ms, cmap_text cmap ms -> Forall bounded ms -> exists F, forall fuel, (F <= fuel)%nat ->
  exists f, cmap_font fuel E cmap = Ok f /\ f_width f = width_of ms /\ forall c, mapped taken ms c (fmap f c).
Proof.
  intros E cmap ms H B. destruct (font_loop_text E cmap cmap ms H B) as (F & GO). exists F. intros fuel L.
  destruct (GO fuel font_default (new_parser cmap) L (open_wf cmap) eq_refl) as (f & p' & Q & M & WD). exists f. unfold cmap_font, with_parser. rewrite Q.
  split; [reflexivity |]. split; [rewrite WD, wafter_last; reflexivity |]. intros c. rewrite M. destruct (after_mapped ms c (fmap font_default c)) as [[A N] | (a & m & b & E1 & C1 & F1 & A)].
  - left. split; [exact N | rewrite A; reflexivity].
  - right. exists a, m, b. auto.
Qed.
