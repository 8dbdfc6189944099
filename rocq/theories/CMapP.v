(** CMapP.v -- loading a character map returns (C45). *)
From Verif Require Import Base BaseP Msg Reader ReaderP Num Lexer LexerP Obj ReadObj Plain ReadObjP PObjP Bits Env Getters GetObj Font Output Page
  SpecLex SpecLexP SpecObj SpecObjP SpecRead ReadP SpecFilters FiltersP SpecText SpecPage TextP PageP XrefP FetchP SpecFetch.
From Coq Require Import Strings.String.

Lemma hex_any : forall file s, wf file s -> exists v s', read_hex_string no_decryptor s = Ok (v, s') /\ wf file s' /\
  (List.length (rest s') <= List.length (rest s))%nat /\ (v <> [] -> (List.length (rest s') < List.length (rest s))%nat).
Proof.
  intros file s W. pose proof (ws_sim _ _ _ _ _ (wf_St _ _ W)) as S1. pose proof (proj1 (p_ws_len (rest s))) as L.
  unfold read_hex_string, read_hex_raw. destruct (p_ws (rest s)) as [| b r] eqn:P.
  - rewrite (rb_nil _ _ _ _ S1). exists [], (consume_ws s). split; [reflexivity |]. destruct S1 as (W1 & R1 & _). rewrite R1. cbn. split; [exact W1 |]. split; [lia | congruence].
  - destruct (rb_cons _ _ _ _ _ _ S1) as (s1 & -> & H1 & _). cbn [List.length] in L. destruct (beq b "<"%byte).
    + destruct (read_hex_loop_sim _ _ _ _ _ _ None [] H1 (St_len _ _ _ _ _ H1)) as (s2 & -> & H2). cbn [app]. unfold no_decryptor at 1. cbn [rbind].
      eexists. exists s2. split; [reflexivity |]. destruct H2 as (W2 & R2 & _). split; [exact W2 |]. pose proof (proj1 (p_hex_len r None)). rewrite R2. split; [lia | intros; lia].
    + exists [], s1. split; [reflexivity |]. destruct H1 as (W1 & R1 & _). rewrite R1. split; [exact W1 |]. split; [lia | congruence].
Qed.
Lemma hex_str_any : forall file p, bare file p -> exists v p', hex_str p = Ok (v, p') /\ bare file p' /\
  (List.length (rest (prd p')) <= List.length (rest (prd p)))%nat /\ (v <> [] -> (List.length (rest (prd p')) < List.length (rest (prd p)))%nat) /\
  exists s', read_hex_string no_decryptor (prd p) = Ok (v, s').
Proof.
  intros file p [W X]. destruct (hex_any file (prd p) W) as (v & s' & Q & W' & L1 & L2). exists v, (with_rd s' p). unfold hex_str, onrdr. rewrite Q.
  split; [reflexivity |]. split; [split; [exact W' | exact X] |]. split; [exact L1 |]. split; [exact L2 | eexists; reflexivity].
Qed.


Lemma range_ends : exists K, forall n lo hi v f, (K <= n)%nat -> code hi <> 2 ^ 63 - 1 -> exists f', range_loop n (bytes_to_int lo) (bytes_to_int hi) v f = Ok f'.
Proof.
  exists (S (Z.to_nat (2 ^ 64))). intros n lo hi v f L H. rewrite !bytes_to_int_wraps. fold (code lo) (code hi).
  pose proof (wrap64_range (be lo)) as W1. pose proof (wrap64_range (be hi)) as W2. fold (code lo) in W1. fold (code hi) in W2. change two63 with (2 ^ 63) in *.
  assert (B : code hi - code lo < Z.of_nat (Z.to_nat (2 ^ 64))). { rewrite Z2Nat.id by lia. lia. }
  destruct (range_loop_spec (Z.to_nat (2 ^ 64)) n (code lo) (code hi) v f) as (f' & Q & _); [change two63 with (2 ^ 63); lia | change two63 with (2 ^ 63); lia | lia | exact B |].
  exists f'. exact Q.
Qed.
Lemma bfrange_ends : forall file K, moderate file ->
  (forall n lo hi v f, (K <= n)%nat -> code hi <> 2 ^ 63 - 1 -> exists f', range_loop n (bytes_to_int lo) (bytes_to_int hi) v f = Ok f') ->
  forall n i c f p, bare file p -> (K + List.length (rest (prd p)) < n)%nat ->
  exists f' p', bfrange_loop n i c f p = Ok (f', p') /\ bare file p' /\ (List.length (rest (prd p')) <= List.length (rest (prd p)))%nat.
Proof.
  intros file K M RE. induction n as [| n IH]; intros i c f p B L; [lia |]. cbn [bfrange_loop]. destruct (i <? c); [| exists f, p; split; [reflexivity | split; [exact B | lia]]].
  destruct (hex_str_any file p B) as (v1 & p1 & Q1 & B1 & L1 & M1 & _). unfold bind at 1. rewrite Q1. destruct v1 as [| x1 v1]; [exists f, p1; split; [reflexivity | split; [exact B1 | exact L1]] |].
  specialize (M1 ltac:(discriminate)). cbv zeta. destruct (hex_str_any file p1 B1) as (v2 & p2 & Q2 & B2 & L2 & _ & s2 & H2). unfold bind at 1. rewrite Q2.
  assert (N2 : code v2 <> 2 ^ 63 - 1) by (eapply M; [exact (proj1 B1) | exact H2]).
  destruct v2 as [| x2 v2]; [eexists; exists p2; split; [reflexivity | split; [exact B2 | lia]] |].
  destruct (hex_str_any file p2 B2) as (v3 & p3 & Q3 & B3 & L3 & _). unfold bind at 1. rewrite Q3.
  destruct v3 as [| x3 v3]; [eexists; exists p3; split; [reflexivity | split; [exact B3 | lia]] |].
  unfold bind at 1, lift at 1. destruct (RE (S n) (x1 :: v1) (x2 :: v2) (x3 :: v3) (set_width (zlen (x1 :: v1)) f)) as (f1 & Qf); [lia | exact N2 |]. rewrite Qf.
  destruct (IH (i + 1) c f1 p3 B3) as (f' & p' & Q & B' & L'); [lia |]. exists f', p'. split; [exact Q |]. split; [exact B' | lia].
Qed.
Lemma bfchar_ends : forall file n i c f p, bare file p -> (List.length (rest (prd p)) < n)%nat ->
  exists f' p', bfchar_loop n i c f p = Ok (f', p') /\ bare file p' /\ (List.length (rest (prd p')) <= List.length (rest (prd p)))%nat.
Proof.
  intros file. induction n as [| n IH]; intros i c f p B L; [lia |]. cbn [bfchar_loop]. destruct (i <? c); [| exists f, p; split; [reflexivity | split; [exact B | lia]]].
  destruct (hex_str_any file p B) as (v1 & p1 & Q1 & B1 & L1 & M1 & _). unfold bind at 1. rewrite Q1. destruct v1 as [| x1 v1]; [exists f, p1; split; [reflexivity | split; [exact B1 | exact L1]] |].
  specialize (M1 ltac:(discriminate)). cbv zeta. destruct (hex_str_any file p1 B1) as (v2 & p2 & Q2 & B2 & L2 & _). unfold bind at 1. rewrite Q2.
  destruct v2 as [| x2 v2]; [eexists; exists p2; split; [reflexivity | split; [exact B2 | lia]] |].
  destruct (IH (i + 1) c (set_map (bytes_to_int (x1 :: v1)) (x2 :: v2) (set_width (zlen (x1 :: v1)) f)) p2 B2) as (f' & p' & Q & B' & L'); [lia |].
  exists f', p'. split; [exact Q |]. split; [exact B' | lia].
Qed.
Lemma command_any : forall file s, wf file s -> exists k ops e s', ReadCommand file s = Ok (((k, ops), e), s') /\ wf file s' /\
  (e <> EReadError -> (List.length (rest s') < List.length (rest s))%nat).
Proof.
  intros file s W. unfold ReadCommand, enough.
  assert (G : forall n acc s, wf file s -> (List.length (rest s) < n)%nat -> exists k ops e s', read_command_loop n file acc s = Ok (((k, ops), e), s') /\ wf file s' /\
    (e <> EReadError -> (List.length (rest s') < List.length (rest s))%nat)).
  { induction n as [| n IH]; intros acc s0 W0 L; [lia |]. cbn [read_command_loop].
    destruct (next_object_exists (rest s0)) as (o & e & r & NO & _ & B). destruct (NO file s0 W0 eq_refl) as (s1 & Q & W1 & R1). rewrite Q. cbn [rbind].
    destruct e.
    2: { do 4 eexists. split; [reflexivity |]. split; [exact W1 | congruence]. }
    2-5: do 4 eexists; (split; [reflexivity |]); (split; [exact W1 |]); intros _; rewrite R1; apply B; discriminate.
    specialize (B ltac:(discriminate)).
    assert (NEXT : exists k ops e s', read_command_loop n file (acc ++ [o]) s1 = Ok (((k, ops), e), s') /\ wf file s' /\ (e <> EReadError -> (List.length (rest s') < List.length (rest s0))%nat)).
    { destruct (IH (acc ++ [o]) s1 W1) as (k & ops & e & s' & Q' & W' & L'); [rewrite R1; lia |]. exists k, ops, e, s'. split; [exact Q' |]. split; [exact W' |].
      intros D. specialize (L' D). rewrite R1 in L'. lia. }
    destruct o; try exact NEXT. do 4 eexists. split; [reflexivity |]. split; [exact W1 |]. intros _. rewrite R1. exact B. }
  apply G; [exact W | lia].
Qed.
Lemma bare_int : forall E file k l i p, bare file p -> exists z ok p', a_int (Resolve (S (S k)) E file) l i p = Ok ((z, ok), p') /\ bare file p' /\ rest (prd p') = rest (prd p).
Proof.
  intros E file k l i p B. destruct (bare_object E file k l i p B) as (p' & Q & B' & R). unfold a_int, bind. rewrite Q. unfold ret. destruct (as_int (seen_as (zget l i))) as [z ok].
  exists z, ok, p'. auto.
Qed.
Lemma font_ends : forall E file K, moderate file ->
  (forall n lo hi v f, (K <= n)%nat -> code hi <> 2 ^ 63 - 1 -> exists f', range_loop n (bytes_to_int lo) (bytes_to_int hi) v f = Ok f') ->
  forall n f p, bare file p -> (K + List.length (rest (prd p)) + 3 < n)%nat -> exists f' p', font_loop n E file f p = Ok (f', p').
Proof.
  intros E file K M RE. induction n as [| n IH]; intros f p B L; [lia |]. cbn [font_loop]. destruct (command_any file (prd p) (proj1 B)) as (k & ops & e & s' & Q & W' & LT).
  unfold bind at 1, onrdr at 1. rewrite Q. pose proof (with_rd_bare file p s' W' B) as B1.
  destruct e; [| eexists; eexists; reflexivity | | | |]; specialize (LT ltac:(discriminate)).
  all: destruct n as [| [| n]]; [lia | lia |]; remember (S (S n)) as n2 eqn:N2.
  all: destruct (bare_int E file n ops (zlen ops - 1) (with_rd s' p) B1) as (z & ok & p1 & Q1 & B2 & R1); rewrite <- N2 in Q1; cbn [prd with_rd] in R1.
  all: destruct (bseq k (lit "beginbfrange")); [unfold bind at 1; rewrite Q1; destruct (bfrange_ends file K M RE n2 0 z f p1 B2) as (f2 & p2 & Q2 & B3 & L3); [rewrite R1; lia |];
    unfold bind at 1; rewrite Q2; apply IH; [exact B3 | rewrite R1 in L3; lia] |].
  all: destruct (bseq k (lit "beginbfchar")); [unfold bind at 1; rewrite Q1; destruct (bfchar_ends file n2 0 z f p1 B2) as (f2 & p2 & Q2 & B3 & L3); [rewrite R1; lia |];
    unfold bind at 1; rewrite Q2; apply IH; [exact B3 | rewrite R1 in L3; lia] |].
  all: apply IH; [exact B1 | cbn [prd with_rd]; lia].
Qed.
Theorem moderate_loads : forall E cmap, moderate cmap -> exists F, forall fuel, (F <= fuel)%nat -> exists f, cmap_font fuel E cmap = Ok f.
Proof.
  intros E cmap M. destruct range_ends as (K & RE). exists (K + List.length cmap + 4)%nat. intros fuel L.
  destruct (font_ends E cmap K M RE fuel font_default (new_parser cmap)) as (f & p' & Q); [split; [apply open_wf | reflexivity] | change (rest (prd (new_parser cmap))) with cmap; lia |].
  exists f. unfold cmap_font, with_parser. rewrite Q. reflexivity.
Qed.

(** and otherwise *)
Lemma range_forever : forall n j v f, j <= 2 ^ 63 - 1 -> range_loop n j (2 ^ 63 - 1) v f = OutOfFuel.
Proof.
  induction n as [| n IH]; intros j v f L; [reflexivity |]. cbn [range_loop]. replace (j <=? 2 ^ 63 - 1) with true by (symmetry; apply Z.leb_le; exact L).
  apply IH. pose proof (wrap64_range (j + 1)) as W. change two63 with (2 ^ 63) in W. lia.
Qed.
Definition endless_cmap : bytes := lit "1 beginbfrange<00><7FFFFFFFFFFFFFFF><41>endbfrange".
Definition state_of {A} (x : res (A * rd)) : rd := match x with Ok (_, s) => s | _ => open_rd [] end.
Theorem endless_cmap_loops : forall fuel E, cmap_font fuel E endless_cmap = OutOfFuel.
Proof.
  intros fuel E. unfold cmap_font, with_parser. destruct fuel as [| n]; [reflexivity |]. cbn [font_loop]. unfold bind at 1, onrdr at 1.
  change (prd (new_parser endless_cmap)) with (open_rd endless_cmap).
  remember (state_of (ReadCommand endless_cmap (open_rd endless_cmap))) as s1 eqn:S1.
  remember (state_of (read_hex_string no_decryptor s1)) as s2 eqn:S2. remember (state_of (read_hex_string no_decryptor s2)) as s3 eqn:S3.
  assert (Q1 : ReadCommand endless_cmap (open_rd endless_cmap) = Ok (((lit "beginbfrange", [ONum (num_of_Z 1)]), ENone), s1)) by (subst s1; vm_compute; reflexivity).
  assert (Q2 : read_hex_string no_decryptor s1 = Ok ([x00], s2)) by (subst s2 s1; vm_compute; reflexivity).
  assert (Q3 : read_hex_string no_decryptor s2 = Ok ([x7f; xff; xff; xff; xff; xff; xff; xff], s3)) by (subst s3 s2 s1; vm_compute; reflexivity).
  assert (Q4 : exists s4, read_hex_string no_decryptor s3 = Ok ([x41], s4)) by (subst s3 s2 s1; eexists; vm_compute; reflexivity).
  destruct Q4 as (s4 & Q4). rewrite Q1. clear S1 S2 S3 Q1. cbv beta iota zeta. change (bseq (lit "beginbfrange") (lit "beginbfrange")) with true. cbv iota.
  unfold bind at 1. change (zlen [ONum (num_of_Z 1)] - 1) with 0. rewrite (a_int_at _ [] (num_of_Z 1) [] 0 _ eq_refl). change (num_int (num_of_Z 1)) with 1.
  unfold bind at 1. destruct n as [| n]; [reflexivity |]. cbn [bfrange_loop]. change (0 <? 1) with true. cbv iota.
  unfold bind at 1, hex_str, onrdr. cbn [prd with_rd]. rewrite Q2. cbv zeta. unfold bind at 1. cbn [prd with_rd]. rewrite Q3. unfold bind at 1. cbn [prd with_rd]. rewrite Q4.
  unfold bind at 1, lift at 1. change (bytes_to_int [x7f; xff; xff; xff; xff; xff; xff; xff]) with (2 ^ 63 - 1). rewrite range_forever; [reflexivity |].
  vm_compute. discriminate.
Qed.

(** A hex string of at most seven bytes is not the largest number. *)
Lemma short_moderate : forall cmap, (forall s v s', wf cmap s -> read_hex_string no_decryptor s = Ok (v, s') -> zlen v <= 7) -> moderate cmap.
Proof.
  intros cmap H s v s' W Q. specialize (H s v s' W Q). pose proof (be_range v) as B. unfold code.
  assert (P : 256 ^ zlen v <= 256 ^ 7) by (apply Z.pow_le_mono_r; lia). change (256 ^ 7) with (2 ^ 56) in P. rewrite wrap64_small; change two63 with (2 ^ 63); lia.
Qed.

(** ** C49 *)
Lemma even_all : forall a, (forall i o, nth_error a (2 * i + 1) = Some o -> string_of (Some o) = []) -> even_strings a = all_strings a.
Proof.
  assert (G : forall n (a : list obj), (List.length a < n)%nat -> (forall i o, nth_error a (2 * i + 1) = Some o -> string_of (Some o) = []) -> even_strings a = all_strings a).
  { induction n as [| n IH]; intros a L H; [lia |]. destruct a as [| o [| o2 a]]; cbn [even_strings].
    - reflexivity.
    - unfold all_strings. cbn. rewrite app_nil_r. reflexivity.
    - change (all_strings (o :: o2 :: a)) with (string_of (Some o) ++ string_of (Some o2) ++ all_strings a). rewrite (H 0%nat o2 eq_refl). cbn [app]. f_equal.
      apply IH; [cbn in L; lia |]. intros i o' N. apply (H (S i)). replace (2 * S i + 1)%nat with (S (S (2 * i + 1))) by lia. exact N. }
  intros a H. apply (G (S (List.length a))); [lia | exact H].
Qed.

Lemma text_every_other : forall fonts cs st ls, text fonts all_strings st cs ls -> Forall alternating cs -> text fonts even_strings st cs ls.
Proof.
  intros fonts cs st ls H. induction H as [f | ops cs ls H IH | k ops cs ls K H IH | f ops cs ls H IH | f ops cs ls H IH | f k ops t0 cs ls LN H IH | f k ops cs ls SI H IH]; intros A;
    [apply tx_end | | | | | |]; (inversion A as [| x y A1 A2]; subst); specialize (IH A2).
  - apply tx_begin; assumption.
  - apply tx_outside; assumption.
  - apply tx_finish; assumption.
  - apply tx_font; assumption.
  - apply tx_line; [| assumption]. destruct LN as [k ops t SH D | ops t D]; [apply ln_show; assumption |]. apply ln_position.
    rewrite even_all; [exact D |]. exact (A1 eq_refl).
  - apply tx_silent; assumption.
Qed.
(** ** the fonts of a page *)
Lemma load_fonts_sound : forall E rs fuel names fonts fm p fm' p', load_fonts E rs fuel names fonts fm p = Ok (fm', p') -> sound_fonts fm -> sound_fonts fm'.
Proof.
  intros E rs fuel. induction names as [| k names IH]; intros fonts fm p fm' p' H SF; cbn [load_fonts] in H.
  - unfold ret in H. assert (fm' = fm) by congruence. subst. exact SF.
  - unfold bind at 1 in H. destruct (d_dict rs fonts k p) as [[[info ok] p1] | |]; try discriminate. unfold bind at 1 in H.
    destruct (new_font fuel E rs info p1) as [[f p2] | |] eqn:NF; try discriminate. apply IH in H; [exact H |].
    assert (WF : 1 <= f_width f).
    { unfold new_font, bind at 1 in NF. destruct (d_stream rs info (lit "ToUnicode") p1) as [[[c ok2] p3] | |]; try discriminate. unfold lift in NF.
      destruct (cmap_font fuel E (match c with Some c0 => c0 | None => [] end)) as [f0 | |] eqn:CF; try discriminate. assert (f0 = f) by congruence. subst. exact (new_font_width _ _ _ _ CF). }
    intros n g. destruct (bseq k n) eqn:KN.
    + apply bseq_eq in KN. subst n. rewrite (mget_mset_same bseq bseq_ok). congruence.
    + rewrite (mget_mset_other bseq bseq_ok); [apply SF |]. intros ->. rewrite bseq_is in KN. discriminate.
Qed.
Theorem page_text_complete : forall E fm contents l cs ls, sound_fonts fm -> tokens contents l -> commands l cs -> Forall alternating cs ->
  text (named fm) all_strings None cs ls -> exists F, forall fuel, (F <= fuel)%nat -> page_text fuel E fm contents = (lines ls, Ok tt).
Proof. intros E fm contents l cs ls SF T CO A TX. eapply page_text_lines; try eassumption. apply text_every_other; assumption. Qed.
Lemma items_tokens_only : forall l t, items t l -> tokens t l /\ forall l', tokens t l' -> l = l'.
Proof. intros l t H. split; [apply items_tokens; exact H |]. intros l' H'. eapply tokens_det; [apply items_tokens; exact H | exact H']. Qed.
Lemma loaded_fonts_sound : forall E rs fuel names fonts p fm p', load_fonts E rs fuel names fonts [] p = Ok (fm, p') -> sound_fonts fm.
Proof. intros. eapply load_fonts_sound; [eassumption |]. intros n f Q. discriminate. Qed.
