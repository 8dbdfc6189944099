(** TextEx.v -- witnesses for PropText.v. *)
From Verif Require Import Base BaseP Msg Reader ReaderP Num Lexer LexerP Obj ReadObj Plain ReadObjP PObjP Bits Env Getters GetObj Font Output Page
  SpecLex SpecLexP SpecObj SpecObjP SpecRead ReadP ReadEx SpecFilters StreamEx XrefEx SpecText SpecPage TextP PageP CMapP FetchEx.
From Coq Require Import Strings.String.

Ltac kw_obj := apply ot_kw; [do 2 eexists; split; [reflexivity |]; split; [let c := fresh in let H := fresh in intros c H; vm_compute in H; repeat destruct H as [<- | H]; try contradiction; regular | let H := fresh in intros H; vm_compute in H; intuition discriminate] | discriminate].
Ltac hex_str := eapply ht_intro with (k := 0%nat); [repeat (eapply hd_digit; [first [left; reflexivity | right; reflexivity] |]); apply hd_nil | repeat (apply hp_pair; [reflexivity |]); apply hp_nil].
Lemma hex_parts : forall t ds v, hex_digits t ds 0 -> hex_pairs ds v -> hex_text ("<"%byte :: t ++ [">"%byte]) v.
Proof. intros. eapply ht_intro; eassumption. Qed.
Ltac hx t ds := apply (hex_parts (lit t) ds); [repeat (apply hd_digit; [first [left; reflexivity | right; reflexivity] |]); apply hd_nil | repeat (apply hp_pair; [reflexivity |]); apply hp_nil].

(** ** C43 *)
Definition font2 : font := {| f_map := [(16705, lit "x"); (1, [])]; f_width := 2 |}.
Lemma C43_ex : 1 <= f_width font2 /\ font_decode font2 (lit "AABBA") = Ok (lit "xBB").
Proof. split; [cbn; lia | reflexivity]. Qed.

(** ** C44 *)
Definition cmap1 : bytes := lit "/N begincmap 2 beginbfchar <0001> <41>" ++ [x0a] ++ lit "<0003><4243> endbfchar 1 beginbfrange <01><03><41>endbfrange end".
Definition maps1 : list mapping := [MChar [x00; x01] [x41]; MChar [x00; x03] [x42; x43]; MRange [x01] [x03] [x41]].
Lemma cmap1_text : cmap_text cmap1 maps1.
Proof.
  apply (cm_chars (lit "/N begincmap 2 beginbfchar ") [OName (lit "N"); OKw (lit "begincmap")] (num_of_Z 2) (lit "<0001> <41>" ++ [x0a] ++ lit "<0003><4243>")
    [MChar [x00; x01] [x41]; MChar [x00; x03] [x42; x43]] (lit " endbfchar 1 beginbfrange <01><03><41>endbfrange end") [MRange [x01] [x03] [x41]]).
  - cbn [app]. apply (cons0 (lit "/N")); [nm | | right; delim_end]. apply (cons1 (lit "begincmap")); [kw_obj | | right; delim_end].
    apply (cons1 (lit "2")); [int_obj | | right; delim_end]. apply (cons1 (lit "beginbfchar")); [kw_obj | | right; delim_end]. apply it_nil. gaps.
  - repeat constructor; discriminate.
  - apply (cs_more (lit "<0001>") [x00; x01] (lit " ") (lit "<41>") [x41] [x0a] (lit "<0003><4243>") [MChar [x00; x03] [x42; x43]]).
    + hx "0001"%string [0; 0; 0; 1]%nat.
    + discriminate.
    + gaps.
    + hx "41"%string [4; 1]%nat.
    + discriminate.
    + gaps.
    + apply (cs_last (lit "<0003>") [x00; x03] [] (lit "<4243>") [x42; x43]); [hx "0003"%string [0; 0; 0; 3]%nat | discriminate | gaps | hx "4243"%string [4; 2; 4; 3]%nat | discriminate].
  - reflexivity.
  - apply (cm_ranges (lit " endbfchar 1 beginbfrange ") [OKw (lit "endbfchar")] (num_of_Z 1) (lit "<01><03><41>") [MRange [x01] [x03] [x41]] (lit "endbfrange end") []).
    + cbn [app]. apply (cons1 (lit "endbfchar")); [kw_obj | | right; delim_end].
      apply (cons1 (lit "1")); [int_obj | | right; delim_end]. apply (cons1 (lit "beginbfrange")); [kw_obj | | right; delim_end]. apply it_nil. gaps.
    + repeat constructor; discriminate.
    + apply (rg_last (lit "<01>") [x01] [] (lit "<03>") [x03] [] (lit "<41>") [x41]); try discriminate; try gaps; [hx "01"%string [0; 1]%nat | hx "03"%string [0; 3]%nat | hx "41"%string [4; 1]%nat].
    + reflexivity.
    + apply (cm_end (lit "endbfrange end") [OKw (lit "endbfrange"); OKw (lit "end")]); [| repeat constructor; discriminate].
      apply (cons0 (lit "endbfrange")); [kw_obj | | right; delim_end]. apply (cons1 (lit "end")); [kw_obj | apply nil0 | right; apply end0].
Qed.
Lemma maps1_bounded : Forall bounded maps1.
Proof. repeat constructor. Qed.
Lemma C44_ex : cmap_text cmap1 maps1 /\ Forall bounded maps1.
Proof. split; [exact cmap1_text | exact maps1_bounded]. Qed.
Lemma mapped_two : forall what x, mapped what maps1 2 x -> x = Some (what (MRange [x01] [x03] [x41])).
Proof.
  intros what x [[N _] | (a & m & b & E1 & C & NB & X)].
  - unfold maps1 in N. inversion N as [| x1 l1 _ N1]; subst. inversion N1 as [| x2 l2 _ N2]; subst. inversion N2 as [| x3 l3 N3 _]; subst. exfalso. apply N3. vm_compute. split; discriminate.
  - unfold maps1 in E1. destruct a as [| a1 [| a2 [| a3 a]]]; cbn [app] in E1.
    + injection E1 as <- <-. vm_compute in C. discriminate C.
    + injection E1 as <- <- <-. vm_compute in C. discriminate C.
    + injection E1 as <- <- <- <-. exact X.
    + injection E1 as <- <- <- E2. destruct a; discriminate E2.
Qed.
Theorem range_refuted : exists cmap ms, cmap_text cmap ms /\ Forall bounded ms /\ forall E, exists F, forall fuel, (F <= fuel)%nat ->
  exists f, cmap_font fuel E cmap = Ok f /\ exists c, ~ mapped (fun m => says m c) ms c (fmap f c).
Proof.
  exists cmap1, maps1. split; [exact cmap1_text |]. split; [exact maps1_bounded |]. intros E.
  destruct (cmap_loaded E cmap1 maps1 cmap1_text maps1_bounded) as (F & H). exists F. intros fuel L. destruct (H fuel L) as (f & Q & _ & M).
  exists f. split; [exact Q |]. exists 2. intros B. apply mapped_two in B. specialize (M 2). apply mapped_two in M. rewrite B in M. vm_compute in M. discriminate.
Qed.

(** ** C45 *)
Definition cmap2 : bytes := lit "9 beginbfrange<01>%<" ++ [x0a] ++ lit "<7FFFFFFFFFFFFFFE><41><7FFF".
Definition hex_at (t : bytes) : bytes := match p_ws t with b :: r => if beq b "<"%byte then fst (fst (p_hex None r)) else [] | [] => [] end.
Fixpoint suffixes (t : bytes) : list bytes := t :: match t with [] => [] | _ :: r => suffixes r end.
Lemma suffixes_skipn : forall k t, In (skipn k t) (suffixes t).
Proof. induction k as [| k IH]; intros t; [destruct t; left; reflexivity |]. destruct t as [| b t]; [left; reflexivity | right; apply IH]. Qed.
Lemma moderate_check : forall cmap, forallb (fun t => negb (code (hex_at t) =? 2 ^ 63 - 1)) (suffixes cmap) = true -> moderate cmap.
Proof.
  intros cmap H s v s' W Q. assert (V : v = hex_at (rest s)).
  { pose proof (ws_sim _ _ _ _ _ (wf_St _ _ W)) as S1. revert Q. unfold read_hex_string, read_hex_raw, hex_at. destruct (p_ws (rest s)) as [| b r] eqn:P.
    - rewrite (rb_nil _ _ _ _ S1). intros Q. congruence.
    - destruct (rb_cons _ _ _ _ _ _ S1) as (s1 & -> & H1 & _). destruct (beq b "<"%byte); [| intros Q; congruence].
      destruct (read_hex_loop_sim _ _ _ _ _ _ None [] H1 (St_len _ _ _ _ _ H1)) as (s2 & -> & H2). cbn [app]. unfold no_decryptor at 1. cbn [rbind]. intros Q. congruence. }
  assert (I : In (rest s) (suffixes cmap)). { destruct W as [W1 W2 _ _]. rewrite W2. rewrite zdrop_skipn by lia. apply suffixes_skipn. }
  rewrite forallb_forall in H. specialize (H _ I). apply negb_true_iff in H. apply Z.eqb_neq in H. rewrite V. exact H.
Qed.
Lemma C45_ex : moderate cmap2.
Proof. apply moderate_check. vm_compute. reflexivity. Qed.
Theorem load_refuted : exists cmap, forall fuel E, cmap_font fuel E cmap = OutOfFuel.
Proof. exists endless_cmap. exact endless_cmap_loops. Qed.

(** ** C48 *)
Definition page1 : bytes := lit "(no)Tj BT(a)Tj/F 9 Tf(A)Tj(b)'/G 1 Tf 1 2(c)" ++ [x22] ++ lit " [(d)-5(e)]TJ ET BT(A)Tj".
Definition fonts1 : fontmap := [(lit "F", {| f_map := [(65, lit "xy")]; f_width := 1 |})].
Definition cmds1 : list (bytes * list obj) :=
  [(lit "Tj", [OStr (lit "no")]); (lit "BT", []); (lit "Tj", [OStr (lit "a")]); (lit "Tf", [OName (lit "F"); ONum (num_of_Z 9)]); (lit "Tj", [OStr (lit "A")]);
   (lit "'", [OStr (lit "b")]); (lit "Tf", [OName (lit "G"); ONum (num_of_Z 1)]); ([x22], [ONum (num_of_Z 1); ONum (num_of_Z 2); OStr (lit "c")]);
   (lit "TJ", [OArr [OStr (lit "d"); ONum (num_of_Z (-5)); OStr (lit "e")]]); (lit "ET", []); (lit "BT", []); (lit "Tj", [OStr (lit "A")])].
Definition objs1 : list obj := flat_map (fun c => snd c ++ [OKw (fst c)]) cmds1.
Lemma commands_flat : forall cs, Forall (fun c : bytes * list obj => Forall operand (snd c)) cs -> commands (flat_map (fun c => snd c ++ [OKw (fst c)]) cs) cs.
Proof.
  induction cs as [| [k ops] cs IH]; intros F; [apply co_end; constructor |]. inversion F as [| x y F1 F2]; subst. cbn [flat_map fst snd]. rewrite <- app_assoc. cbn [app].
  apply co_cons; [exact F1 | apply IH; exact F2].
Qed.
Ltac str_obj t := apply (ot_str (lit t)); vm_compute; repeat (apply sb_plain; [discriminate | discriminate | discriminate | discriminate |]); apply sb_nil.
Lemma page1_items : items page1 objs1.
Proof.
  cbn [objs1 cmds1 flat_map fst snd app].
  apply (cons0 (lit "(no)")); [str_obj "no"%string | | left; exact I]. apply (cons0 (lit "Tj")); [kw_obj | | right; delim_end].
  apply (cons1 (lit "BT")); [kw_obj | | right; delim_end].
  apply (cons0 (lit "(a)")); [str_obj "a"%string | | left; exact I]. apply (cons0 (lit "Tj")); [kw_obj | | right; delim_end].
  apply (cons0 (lit "/F")); [nm | | right; delim_end]. apply (cons1 (lit "9")); [int_obj | | right; delim_end]. apply (cons1 (lit "Tf")); [kw_obj | | right; delim_end].
  apply (cons0 (lit "(A)")); [str_obj "A"%string | | left; exact I]. apply (cons0 (lit "Tj")); [kw_obj | | right; delim_end].
  apply (cons0 (lit "(b)")); [str_obj "b"%string | | left; exact I]. apply (cons0 (lit "'")); [kw_obj | | right; delim_end].
  apply (cons0 (lit "/G")); [nm | | right; delim_end]. apply (cons1 (lit "1")); [int_obj | | right; delim_end]. apply (cons1 (lit "Tf")); [kw_obj | | right; delim_end].
  apply (cons1 (lit "1")); [int_obj | | right; delim_end]. apply (cons1 (lit "2")); [int_obj | | right; delim_end].
  apply (cons0 (lit "(c)")); [str_obj "c"%string | | left; exact I]. apply (cons0 [x22]); [kw_obj | | right; delim_end].
  apply (cons1 (lit "[(d)-5(e)]")); [| | left; exact I].
  { apply (ot_arr (lit "(d)-5(e)")). apply (cons0 (lit "(d)")); [str_obj "d"%string | | left; exact I].
    apply (cons0 (lit "-5")); [apply ot_int; [apply (it_minus (lit "5") 5); nat_lit | lia | discriminate] | | right; delim_end]. apply (cons0 (lit "(e)")); [str_obj "e"%string | apply nil0 | left; exact I]. }
  apply (cons0 (lit "TJ")); [kw_obj | | right; delim_end]. apply (cons1 (lit "ET")); [kw_obj | | right; delim_end]. apply (cons1 (lit "BT")); [kw_obj | | right; delim_end].
  apply (cons0 (lit "(A)")); [str_obj "A"%string | | left; exact I]. apply (cons0 (lit "Tj")); [kw_obj | apply nil0 | right; apply end0].
Qed.
Lemma page1_commands : commands objs1 cmds1.
Proof. apply commands_flat. repeat constructor; discriminate. Qed.
Lemma fonts1_sound : sound_fonts fonts1.
Proof. intros n f H. unfold fonts1 in H. cbn [mget] in H. destruct (bseq n (lit "F")); [| discriminate]. injection H as <-. cbn. lia. Qed.

Lemma page1_text : text (named fonts1) even_strings None cmds1 [lit "a"; lit "xy"; lit "b"; lit "c"; lit "de"; lit "A"].
Proof.
  assert (P : forall b : bytes, decoded (fst plain_font) (snd plain_font) b b).
  { induction b as [| x b IH]; [apply de_end; reflexivity |]. change (x :: b) with ([x] ++ b). apply de_kept; [reflexivity | reflexivity | exact IH]. }
  unfold cmds1. apply tx_outside; [discriminate |]. apply tx_begin. apply tx_line; [apply ln_show; [left; reflexivity | apply P] |].
  apply tx_font. apply tx_line; [apply ln_show; [left; reflexivity | apply (de_mapped _ 1 (lit "A") [] (lit "xy") []); [reflexivity | reflexivity | apply de_end; reflexivity]] |].
  apply tx_line; [apply ln_show; [right; left; reflexivity | apply (de_kept _ 1 (lit "b") [] []); [reflexivity | reflexivity | apply de_end; reflexivity]] |].
  apply tx_font. apply tx_line; [apply ln_show; [right; right; reflexivity | apply P] |]. apply tx_line; [apply ln_position; apply P |].
  apply tx_finish. apply tx_begin. apply tx_line; [apply ln_show; [left; reflexivity | apply P] |]. apply tx_end.
Qed.
Lemma C48_ex : sound_fonts fonts1 /\ tokens page1 objs1 /\ commands objs1 cmds1 /\
  text (named fonts1) even_strings None cmds1 [lit "a"; lit "xy"; lit "b"; lit "c"; lit "de"; lit "A"].
Proof. split; [exact fonts1_sound |]. split; [apply items_tokens; exact page1_items |]. split; [exact page1_commands | exact page1_text]. Qed.

(** ** C49 *)
Definition page2 : bytes := lit "BT[(a)(b)]TJ ET".
Definition cmds2 : list (bytes * list obj) := [(lit "BT", []); (lit "TJ", [OArr [OStr (lit "a"); OStr (lit "b")]]); (lit "ET", [])].
Lemma page2_items : items page2 (flat_map (fun c => snd c ++ [OKw (fst c)]) cmds2).
Proof.
  cbn [cmds2 flat_map fst snd app]. apply (cons0 (lit "BT")); [kw_obj | | right; delim_end]. apply (cons0 (lit "[(a)(b)]")); [| | left; exact I].
  { apply (ot_arr (lit "(a)(b)")). apply (cons0 (lit "(a)")); [str_obj "a"%string | | left; exact I]. apply (cons0 (lit "(b)")); [str_obj "b"%string | apply nil0 | left; exact I]. }
  apply (cons0 (lit "TJ")); [kw_obj | | right; delim_end]. apply (cons1 (lit "ET")); [kw_obj | apply nil0 | right; apply end0].
Qed.
Theorem positioned_refuted : exists contents l cs ls, items contents l /\ commands l cs /\ text (named []) all_strings None cs ls /\
  forall E, exists F, forall fuel, (F <= fuel)%nat -> exists ls', page_text fuel E [] contents = (lines ls', Ok tt) /\ lines ls' <> lines ls.
Proof.
  exists page2, (flat_map (fun c => snd c ++ [OKw (fst c)]) cmds2), cmds2, [lit "ab"].
  assert (CO : commands (flat_map (fun c => snd c ++ [OKw (fst c)]) cmds2) cmds2) by (apply commands_flat; repeat constructor; discriminate).
  assert (P : forall b : bytes, decoded (fst plain_font) (snd plain_font) b b).
  { induction b as [| x b IH]; [apply de_end; reflexivity |]. change (x :: b) with ([x] ++ b). apply de_kept; [reflexivity | reflexivity | exact IH]. }
  assert (TX : forall tj s, tj [OStr (lit "a"); OStr (lit "b")] = s -> text (named []) tj None cmds2 [s]).
  { intros tj s <-. apply tx_begin. apply tx_line; [apply ln_position; apply P |]. apply tx_finish. apply tx_end. }
  split; [exact page2_items |]. split; [exact CO |]. split; [apply TX; reflexivity |]. intros E.
  destruct (page_text_lines E [] page2 (flat_map (fun c => snd c ++ [OKw (fst c)]) cmds2) cmds2 [lit "a"]) as (F & H);
    [intros n f Q; discriminate | apply items_tokens; exact page2_items | exact CO | apply TX; reflexivity |].
  exists F. intros fuel L. exists [lit "a"]. split; [exact (H fuel L) | discriminate].
Qed.
Lemma C49_ex : Forall alternating cmds1 /\ text (named fonts1) all_strings None cmds1 [lit "a"; lit "xy"; lit "b"; lit "c"; lit "de"; lit "A"].
Proof.
  split.
  - unfold cmds1. repeat (constructor; [intros H; try discriminate H |]); [| constructor]. intros i o N. destruct i as [| i]; [injection N as <-; reflexivity |].
    replace (2 * S i + 1)%nat with (S (S (S (2 * i)))) in N by lia. destruct i; discriminate.
  - assert (P : forall b : bytes, decoded (fst plain_font) (snd plain_font) b b).
    { induction b as [| x b IH]; [apply de_end; reflexivity |]. change (x :: b) with ([x] ++ b). apply de_kept; [reflexivity | reflexivity | exact IH]. }
    unfold cmds1. apply tx_outside; [discriminate |]. apply tx_begin. apply tx_line; [apply ln_show; [left; reflexivity | apply P] |].
    apply tx_font. apply tx_line; [apply ln_show; [left; reflexivity | apply (de_mapped _ 1 (lit "A") [] (lit "xy") []); [reflexivity | reflexivity | apply de_end; reflexivity]] |].
    apply tx_line; [apply ln_show; [right; left; reflexivity | apply (de_kept _ 1 (lit "b") [] []); [reflexivity | reflexivity | apply de_end; reflexivity]] |].
    apply tx_font. apply tx_line; [apply ln_show; [right; right; reflexivity | apply P] |]. apply tx_line; [apply ln_position; apply P |].
    apply tx_finish. apply tx_begin. apply tx_line; [apply ln_show; [left; reflexivity | apply P] |]. apply tx_end.
Qed.
