(** StrayP.v -- what loading does at the "xref" of a "startxref" (C93, C95). *)
From Verif Require Import Base BaseP Msg Reader ReaderP Num NumP Lexer Plain LexerP Obj ReadObj Bits Filters Env Getters Crypt GetObj GetObjP Regex Xref Load SpecLex SpecLexP SpecObj SpecObjP SpecNumP SpecFilters FiltersP
  SpecRead SpecFetch SpecLook SpecStream SpecScan RegexP ScanP StreamP StreamObjP CryptObjP ReadP ChunkP StreamEx RepairP FetchP SpecOut SpecXref XrefP SpecRecover RecoverP ReadObjP.
From Coq Require Import Strings.String Sorting.Permutation Sorting.Sorted.

Section Stray.
  Variables (E : env) (file : bytes).
  (** a word and something that is no dictionary, or nothing *)
  Definition wordy (r : bytes) : Prop := blank r \/
    exists g b w r1, r = g ++ (b :: w) ++ r1 /\ gap g /\ g <> [] /\ (forall c, In c (b :: w) -> regular_byte c) /\ is_digit b = false /\ ends_token r1 /\
      forall q, p_ws r1 <> "<"%byte :: "<"%byte :: q.
  Lemma int_fails : forall s g b q e lg, gap g -> is_digit b = false -> is_ws b = false -> b <> "%"%byte -> St file s (g ++ b :: q) e lg ->
    exists s', read_int s = ((0, false), s') /\ St file s' (b :: q) e lg.
  Proof.
    intros s g b q e lg G ND NW NP H. assert (PW : p_ws (g ++ b :: q) = b :: q) by (rewrite gap_ws_app by assumption; apply p_ws_id; [apply beq_neq; exact NP | exact NW]).
    destruct (read_int_sim file s _ _ _ H) as (s' & R & S'); [rewrite PW; discriminate |]. unfold p_int in R, S'. rewrite PW, ND in R, S'. exists s'. auto.
  Qed.
  Lemma regular_plain : forall b, regular_byte b -> is_ws b = false /\ b <> "%"%byte.
  Proof.
    intros b [A B]. split; [destruct (is_ws b) eqn:Q; [exfalso; apply A, is_ws_spec; exact Q | reflexivity] | intros ->; apply B, is_delim_spec; reflexivity].
  Qed.
  Lemma word_stray : forall i g t n r f p, 0 <= i -> zdrop i file = lit "xref" ++ g ++ t ++ r -> gap g -> g <> [] -> nat_text t n -> wordy r -> reads file p ->
    exists s1, wf file s1 /\ log s1 = log (prd p) /\ load_xref (S f) E file i [] p = Ok (tt, with_rd s1 p).
  Proof.
    intros i g t n r f p O Z0 G NG NT WD W. cbn [load_xref zmem existsb]. cbv zeta.
    unfold bind at 1. unfold pseek at 1. unfold bind at 1. unfold onrd at 1. cbn [prd with_rd].
    set (s0 := seek file i (prd p)). pose proof (sk_nonneg file i (prd p) O) as S0. fold s0 in S0. set (e := i + zlen (zdrop i file)) in S0. clearbody e. rewrite Z0 in S0.
    destruct (read_word_text file s0 [] "x"%byte (lit "ref") (g ++ t ++ r) e (log (prd p)) gap_nil) as (s1 & R1 & S1).
    { intros c I. apply word_regular; cbn in I; intuition (subst; reflexivity). }
    { apply ne_gap_ends; assumption. }
    { exact S0. }
    rewrite R1. change (bseq ("x"%byte :: lit "ref") (lit "xref")) with true. cbv iota beta.
    unfold bind at 1. unfold onrd at 1. cbn [prd with_rd].
    destruct WD as [B | (g1 & b & w & r1 & -> & G1 & N1 & RG & ND & ET & NDC)].
    - assert (ND : no_digit r).
      { destruct B as [g' G' | g' c G' NC]; [rewrite <- (app_nil_r g'); apply gap_no_digit; [exact G' | exact Logic.I] | apply gap_no_digit; [exact G' | reflexivity]]. }
      destruct (read_int_text file s1 g t n r e (log (prd p)) G NT ND S1) as (s2 & R2 & S2).
      destruct (read_int_eof file s2 _ _ _ S2) as (s3 & R3 & S3 & L3); [apply blank_spec; exact B |].
      unfold read_xref_table. cbn [table_sections]. rewrite R2, R3. cbv iota beta.
      unfold bind at 1. unfold onrd at 1. cbn [prd with_rd].
      destruct (read_keyword_sim file s3 _ _ _ S3) as (s4 & R4 & S4). rewrite R4. pose proof (p_keyword_len (rest s3)) as L4.
      unfold bind at 1. unfold onrdr at 1. cbn [prd with_rd]. destruct S4 as (W4 & E4 & _ & G4). rewrite <- E4 in L4.
      destruct (ReadDictionary_cases file no_decryptor s4 W4 no_decent) as [(r' & PR & _) | (_ & s5 & R5 & W5 & G5)].
      { exfalso. pose proof (proj1 (p_ws_len (rest s4))) as L5. rewrite PR in L5. cbn in L5. lia. }
      rewrite R5. exists s5. split; [exact W5 |]. split; [congruence |]. destruct p as [x1 x2 x3 x4]. reflexivity.
    - destruct (read_int_text file s1 g t n (g1 ++ (b :: w) ++ r1) e (log (prd p)) G NT (gap_no_digit_ne _ _ G1 N1) S1) as (s2 & R2 & S2).
      destruct (regular_plain b (RG b (or_introl eq_refl))) as [NW NP].
      destruct (int_fails s2 g1 b (w ++ r1) e (log (prd p)) G1 ND NW NP S2) as (s3 & R3 & S3).
      unfold read_xref_table. cbn [table_sections]. rewrite R2, R3. cbv iota beta.
      unfold bind at 1. unfold onrd at 1. cbn [prd with_rd].
      destruct (read_word_text file s3 [] b w r1 e (log (prd p)) gap_nil RG ET S3) as (s4 & R4 & S4). rewrite R4.
      unfold bind at 1. unfold onrdr at 1. cbn [prd with_rd]. destruct S4 as (W4 & E4 & _ & G4).
      destruct (ReadDictionary_cases file no_decryptor s4 W4 no_decent) as [(r' & PR & _) | (_ & s5 & R5 & W5 & G5)].
      { exfalso. rewrite E4 in PR. exact (NDC r' PR). }
      rewrite R5. exists s5. split; [exact W5 |]. split; [congruence |]. destruct p as [x1 x2 x3 x4]. reflexivity.
  Qed.
  (** the header and the dictionary of an object *)
  Lemma text_stray : forall i g t n g1 h N G r v f p, 0 <= i -> zdrop i file = lit "xref" ++ g ++ t ++ g1 ++ h ++ r -> gap g -> g <> [] -> nat_text t n -> gap g1 -> g1 <> [] ->
    header h N G -> 0 <= N < 2 ^ 63 -> ends_token r -> (exists ga ta ra, r = ga ++ ta ++ ra /\ gap ga /\ obj_text ta v) -> (forall d, v = ODict d -> entry d (lit "Prev") = None) -> reads file p ->
    exists s1 d, wf file s1 /\ log s1 = log (prd p) /\ (d = [] \/ v = ODict d) /\ NoDup (map fst d) /\
      load_xref (S f) E file i [] p = Ok (tt, with_trailer (mmerge bseq (ptrailer p) d) (with_rd s1 p)).
  Proof.
    intros i g t n g1 h N G r v f p O Z0 Gg NG NT G1 N1 HD BN ET TXT NPV W. cbn [load_xref zmem existsb]. cbv zeta.
    unfold bind at 1. unfold pseek at 1. unfold bind at 1. unfold onrd at 1. cbn [prd with_rd].
    set (s0 := seek file i (prd p)). pose proof (sk_nonneg file i (prd p) O) as S0. fold s0 in S0. set (e := i + zlen (zdrop i file)) in S0. clearbody e. rewrite Z0 in S0.
    destruct (read_word_text file s0 [] "x"%byte (lit "ref") (g ++ t ++ g1 ++ h ++ r) e (log (prd p)) gap_nil) as (s1 & R1 & S1).
    { intros c I. apply word_regular; cbn in I; intuition (subst; reflexivity). }
    { apply ne_gap_ends; assumption. }
    { exact S0. }
    rewrite R1. change (bseq ("x"%byte :: lit "ref") (lit "xref")) with true. cbv iota beta.
    unfold bind at 1. unfold onrd at 1. cbn [prd with_rd].
    inversion HD as [a N' s b G' s' A SW B SW' QH]; subst N' G'. subst h. rewrite <- !app_assoc in S1.
    destruct (read_int_text file s1 g t n _ e (log (prd p)) Gg NT (gap_no_digit_ne _ _ G1 N1) S1) as (s2 & R2 & S2).
    destruct (read_int_text file s2 g1 a N _ e (log (prd p)) G1 A (white_first s _ SW) S2) as (s3 & R3 & S3).
    destruct (read_int_text file s3 s b G _ e (log (prd p)) (white_gap _ SW) B (white_first s' _ SW') S3) as (s4 & R4 & S4).
    destruct (int_fails s4 s' "o"%byte (lit "bj" ++ r) e (log (prd p)) (white_gap _ SW')) as (s5 & R5 & S5); [reflexivity | reflexivity | discriminate | exact S4 |].
    assert (RT : exists s6, read_xref_table s1 = ([], s6) /\ St file s6 (lit "obj" ++ r) e (log (prd p))).
    { destruct (int_fails s5 [] "o"%byte (lit "bj" ++ r) e (log (prd p)) gap_nil) as (s6 & R6 & S6); [reflexivity | reflexivity | discriminate | exact S5 |].
      unfold read_xref_table. cbn [table_sections]. rewrite R2, R3. cbv iota beta. rewrite wrap64_small by (unfold two63; lia). cbn [table_entries].
      assert (K : exists k, List.length (rest s1) = S k).
      { destruct S1 as (_ & -> & _). destruct g as [| c g]; [contradiction |]. cbn [app List.length]. eauto. }
      destruct K as [k ->]. destruct (Z.ltb_spec 0 N) as [L | L].
      - change (read_int64 s3) with (read_int s3). rewrite R4. rewrite R5. cbv iota beta. cbn [table_sections]. rewrite R6. exists s6. auto.
      - cbn [table_sections]. rewrite R4, R5. cbv iota beta. exists s5. auto. }
    destruct RT as (s6 & R6 & S6). rewrite R6.
    unfold bind at 1. unfold onrd at 1. cbn [prd with_rd].
    destruct (read_word_text file s6 [] "o"%byte (lit "bj") r e (log (prd p)) gap_nil) as (s7 & R7 & S7).
    { intros c I. apply word_regular; cbn in I; intuition (subst; reflexivity). }
    { exact ET. }
    { exact S6. }
    rewrite R7. unfold bind at 1. unfold onrdr at 1. cbn [prd with_rd]. destruct S7 as (W7 & E7 & P7 & L7).
    assert (RD : exists s8 d, ReadDictionary file no_decryptor s7 = Ok (d, s8) /\ wf file s8 /\ log s8 = log (prd p) /\ (d = [] \/ v = ODict d) /\ NoDup (map fst d)).
    { destruct TXT as (ga & ta & ra & Qr & Ga & Ta). rewrite Qr in E7.
      assert (C : (exists d, v = ODict d) \/ forall d, v <> ODict d) by (destruct v; eauto; right; discriminate).
      destruct (Z.eq_dec (buf (consume_ws s7)) 1) as [BB | BB].
      - destruct (ReadDictionary_cases file no_decryptor s7 W7 no_decent) as [(r' & _ & NB & _) | (_ & s8 & R8 & W8 & G8)]; [contradiction |].
        exists s8, []. split; [exact R8 |]. split; [exact W8 |]. split; [congruence |]. split; [auto | constructor].
      - destruct C as [[d ->] | C].
        + destruct (read_dictionary_text file s7 ga ta d ra W7 Ga Ta E7 BB) as (s8 & R8 & M8). destruct M8 as (W8 & _ & _ & L8). exists s8, d. split; [exact R8 |]. split; [exact W8 |].
          split; [rewrite L8, app_nil_r; exact L7 |]. split; [auto | eapply obj_text_nodup; eassumption].
        + destruct (ReadDictionary_cases file no_decryptor s7 W7 no_decent) as [(r' & PR & _) | (_ & s8 & R8 & W8 & G8)].
          { exfalso. destruct (first_byte ta v ra Ta C) as (b0 & q & Q & F1 & F2 & F3). rewrite E7, gap_ws_app, Q, p_ws_id in PR by (assumption || (apply beq_neq; exact F2) || (apply is_ws_false; exact F1)). exact (F3 r' PR). }
          exists s8, []. split; [exact R8 |]. split; [exact W8 |]. split; [congruence |]. split; [auto | constructor]. }
    destruct RD as (s8 & d & R8 & W8 & L8 & QD & ND). rewrite R8. exists s8, d. split; [exact W8 |]. split; [exact L8 |]. split; [exact QD |]. split; [exact ND |].
    unfold bind at 1. rewrite (prev_int _ d None) by (apply pv_none; destruct QD as [-> | QD]; [reflexivity | apply NPV; exact QD]). cbv iota beta. destruct p as [x1 x2 x3 x4]. reflexivity.
  Qed.
  Lemma object_stray : forall i g t n g1 h N G r v st f p, 0 <= i -> zdrop i file = lit "xref" ++ g ++ t ++ g1 ++ h ++ r -> gap g -> g <> [] -> nat_text t n -> gap g1 -> g1 <> [] ->
    header h N G -> 0 <= N < 2 ^ 63 -> behind E h r v st -> (forall d, v = ODict d -> entry d (lit "Prev") = None) -> reads file p ->
    exists s1 d, wf file s1 /\ log s1 = log (prd p) /\ (d = [] \/ v = ODict d) /\ NoDup (map fst d) /\
      load_xref (S f) E file i [] p = Ok (tt, with_trailer (mmerge bseq (ptrailer p) d) (with_rd s1 p)).
  Proof.
    intros i g t n g1 h N G r v st f p O Z0 Gg NG NT G1 N1 HD BN BH NPV W. apply (text_stray i g t n g1 h N G r v f p); try assumption.
    - inversion BH; subst; [assumption | eapply dict_ends; eassumption].
    - inversion BH; subst; eauto 8.
  Qed.
End Stray.
