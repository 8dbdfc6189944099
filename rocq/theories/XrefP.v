(** XrefP.v -- loadXref: tables (C20), streams (C21), chains (C19), termination (C18). *)
From Verif Require Import Base BaseP Msg Reader ReaderP Num Lexer Obj ReadObj Bits Filters Env Getters Crypt Stream GetObj Regex Xref Plain LexerP ReadObjP SpecLex SpecLexP SpecObj
  SpecNumP SpecObjP SpecRead ReadP SpecFilters FiltersP RelP GetObjP SpecFetch FetchP SpecStream StreamObjP LookP SpecScan RegexP ChunkP CryptObjP ScanP SpecXref.
From Coq Require Import Strings.String.

Lemma put_all_latest : forall l m n, xget n (put_all l m) = or_else (latest n l) (xget n m).
Proof.
  induction l as [| [k e] l IH]; intros m n; [reflexivity |]. cbn [put_all fold_left fst snd latest]. fold (put_all l (xset k e m)).
  rewrite IH. destruct (latest n l) as [y |]; [reflexivity |]. cbn [or_else]. destruct (k =? n) eqn:Q.
  - apply Z.eqb_eq in Q. subst k. apply xget_xset.
  - apply Z.eqb_neq in Q. cbn [or_else]. unfold xget, xset. apply (mget_mset_other Z.eqb Zeqb_ok). congruence.
Qed.
Lemma put_all_app : forall a b m, put_all (a ++ b) m = put_all b (put_all a m).
Proof. intros. apply fold_left_app. Qed.

Lemma number_from_len : forall A (l : list A) n, List.length (number_from n l) = List.length l.
Proof. intros A. induction l as [| x l IH]; intros n; [reflexivity |]. cbn [number_from List.length]. rewrite IH. reflexivity. Qed.

(** ** Tables *)
Lemma read_int_text : forall file s g t n r e lg, gap g -> nat_text t n -> no_digit r -> St file s (g ++ t ++ r) e lg ->
  exists s', read_int s = ((wrap64 n, true), s') /\ St file s' r e lg.
Proof.
  intros file s g t n r e lg G T N H. pose proof (p_int_text g t n r G T N) as P.
  destruct (read_int_sim file s _ _ _ H) as (s' & R & S').
  { unfold p_int in P. destruct (p_ws (g ++ t ++ r)); discriminate. }
  rewrite P in *. cbn [fst snd] in *. exists s'. auto.
Qed.
Lemma read_word_text : forall file s g b t r e lg, gap g -> (forall c, In c (b :: t) -> regular_byte c) -> ends_token r -> St file s (g ++ (b :: t) ++ r) e lg ->
  exists s', read_keyword s = (b :: t, s') /\ St file s' r e lg.
Proof.
  intros file s g b t r e lg G T N H. pose proof (p_keyword_text g t r b G T N) as P.
  destruct (read_keyword_sim file s _ _ _ H) as (s' & R & S'). rewrite P in *. cbn [fst snd] in *. exists s'. auto.
Qed.
Lemma ne_gap_ends : forall g r, gap g -> g <> [] -> ends_token (g ++ r).
Proof.
  intros g r G N. right. inversion G as [| b g' W G' | c eol g' C E G']; subst; [congruence | |].
  - exists b, (g' ++ r). auto.
  - exists "%"%byte, ((c ++ eol :: g') ++ r). split; [reflexivity |]. right. apply is_delim_spec. reflexivity.
Qed.
Lemma line_len : forall t x, line_text t x -> (0 < List.length t)%nat.
Proof.
  intros t x H. inversion H as [a off s b gen s' u A S N B S']; subst. destruct (nat_text_cons _ _ A) as (c & d & r & ds & -> & _). cbn. lia.
Qed.
Lemma read_line : forall file s g t off gen u r e lg, gap g -> line_text t (off, gen, u) -> ends_token r -> St file s (g ++ t ++ r) e lg ->
  exists s1 s2 f s3, read_int64 s = ((wrap64 off, true), s1) /\ read_int s1 = ((wrap64 gen, true), s2) /\ read_keyword s2 = (f, s3) /\
    bseq f (lit "n") = u /\ St file s3 r e lg.
Proof.
  intros file s g t off gen u r e lg G H He S0. inversion H as [a off' s' b gen' s'' u' A G1 N1 B G2]; subst. rewrite <- !app_assoc in S0.
  destruct (read_int_text file s g a off _ e lg G A (gap_no_digit_ne _ _ G1 N1) S0) as (s1 & R1 & S1).
  destruct (read_int_text file s1 s' b gen (s'' ++ (if u then lit "n" else lit "f") ++ r) e lg G1 B) as (s2 & R2 & S2); [| exact S1 |].
  { apply gap_no_digit; [assumption |]. destruct u; reflexivity. }
  assert (K : exists c, (if u then lit "n" else lit "f") = [c] /\ regular_byte c /\ bseq [c] (lit "n") = u).
  { destruct u; eexists; (split; [reflexivity |]); split; try reflexivity; split; intros X; try (apply is_ws_spec in X; discriminate); apply is_delim_spec in X; discriminate. }
  destruct K as (c & EC & RC & BC). apply (fun Q => eq_ind _ (fun q => St file s2 (s'' ++ q ++ r) e lg) Q _ EC) in S2.
  destruct (read_word_text file s2 s'' c [] r e lg G2) as (s3 & R3 & S3); [intros x [<- | []]; assumption | assumption | exact S2 |].
  exists s1, s2, [c], s3. auto.
Qed.
(** the gap in front of a line belongs to the line before *)
Lemma table_entries_text : forall file start t ls, lines_text t ls -> forall k i g r e lg x s, gap g -> (List.length ls < k)%nat ->
  St file s (g ++ t ++ r) e lg -> exists g' s', gap g' /\
  table_entries k i (i + zlen ls) (wrap64 start) x s = (put_all (number_from (start + i) (map line_entry ls)) x, s') /\ St file s' (g' ++ r) e lg.
Proof.
  intros file start t ls H. induction H as [| t [[off gen] u] g1 r1 l LT G1 N1 LS IH]; intros k i g r e lg x s G K S0.
  - destruct k as [| k]; [cbn in K; lia |]. cbn [table_entries]. change (zlen []) with 0. rewrite Z.add_0_r, Z.ltb_irrefl.
    exists g, s. split; [assumption |]. split; [reflexivity | exact S0].
  - destruct k as [| k]; [cbn in K; lia |]. cbn [table_entries]. rewrite zlen_cons. pose proof (zlen_nonneg _ l).
    replace (i <? i + (1 + zlen l)) with true by (symmetry; apply Z.ltb_lt; lia).
    rewrite <- !app_assoc in S0.
    destruct (read_line file s g t off gen u (g1 ++ r1 ++ r) e lg G LT (ne_gap_ends _ _ G1 N1) S0) as (s1 & s2 & f & s3 & R1 & R2 & R3 & B & S3).
    rewrite R1, R2, R3, B.
    destruct (IH k (i + 1) g1 r e lg (xset (wrap64 (wrap64 start + i)) (new_xentry (wrap64 off) (wrap64 gen) (if u then 1 else 0)) x) s3 G1) as (g' & s' & G' & R & S'); [cbn in K; lia | exact S3 |].
    exists g', s'. split; [assumption |]. split; [| exact S'].
    replace (i + 1 + zlen l) with (i + (1 + zlen l)) in R by lia. change XrefTypeIndirectObject with 1. change XrefTypeFreeObject with 0.
    rewrite R. cbn [map number_from put_all fold_left fst snd line_entry].
    rewrite wrap64_add_l. replace (start + (i + 1)) with (start + i + 1) by lia. reflexivity.
Qed.
Lemma lines_len : forall t ls, lines_text t ls -> (List.length ls <= List.length t)%nat.
Proof.
  intros t ls H. induction H as [| t x g r l LT G N LS IH]; [cbn; lia |]. pose proof (line_len _ _ LT). rewrite !app_length. cbn. lia.
Qed.
Lemma table_no_digit : forall b, (forall d, ~ decdigit b d) -> is_digit b = false.
Proof.
  intros b H. destruct (is_digit b) eqn:Q; [| reflexivity]. exfalso.
  assert (X : no_digit [b]) by (apply nd_decdigit; intros b' r' d E D; injection E as <- _; exact (H d D)). cbn in X. congruence.
Qed.

Lemma table_sections_text : forall file T secs, table_text T secs -> forall k g r e lg x s, gap g -> section_end r -> (List.length secs < k)%nat ->
  St file s (g ++ T ++ r) e lg -> exists s', table_sections k x s = (put_all (table_lines secs) x, s') /\ St file s' r e lg.
Proof.
  intros file T secs H. induction H as [| a start s1 b s2 t ls r1 secs A G1 N1 B G2 N2 LT LS TT IH]; intros k g r e lg x s G ND K S0.
  - destruct k as [| k]; [cbn in K; lia |]. cbn [table_sections]. destruct ND as (c & r' & -> & NW & NC & NN). cbn [app] in S0.
    assert (P : p_int (g ++ c :: r') = ((0, false), c :: r')).
    { unfold p_int. rewrite gap_ws_app by assumption. rewrite p_ws_id; [| apply beq_neq; assumption | apply is_ws_false; assumption].
      rewrite (table_no_digit c NN). reflexivity. }
    destruct (read_int_sim file s _ _ _ S0) as (s' & R & S').
    { rewrite gap_ws_app by assumption. rewrite p_ws_id; [discriminate | apply beq_neq; assumption | apply is_ws_false; assumption]. }
    rewrite P in *. cbn [fst snd] in *. rewrite R. exists s'. split; [reflexivity | exact S'].
  - destruct k as [| k]; [cbn in K; lia |]. cbn [table_sections]. rewrite <- !app_assoc in S0.
    destruct (read_int_text file s g a start _ e lg G A (gap_no_digit_ne _ _ G1 N1) S0) as (s' & R1 & S1). rewrite R1.
    destruct (read_int_text file s' s1 b (zlen ls) _ e lg G1 B (gap_no_digit_ne _ _ G2 N2) S1) as (s'' & R2 & S2). rewrite R2.
    rewrite wrap64_small by (pose proof (zlen_nonneg _ ls); unfold two63; lia).
    destruct (table_entries_text file start t ls LS (S (List.length (rest s''))) 0 s2 (r1 ++ r) e lg x s'' G2) as (g' & s3 & G' & R3 & S3).
    { destruct S2 as (_ & -> & _). rewrite !app_length. pose proof (lines_len _ _ LS). lia. }
    { exact S2. }
    rewrite Z.add_0_l in R3. rewrite R3. rewrite Z.add_0_r.
    destruct (IH k g' r e lg (put_all (number_from start (map line_entry ls)) x) s3 G' ND) as (s4 & R4 & S4); [cbn in K; lia | exact S3 |].
    exists s4. split; [| exact S4]. rewrite R4. cbn [table_lines flat_map fst snd]. rewrite put_all_app. reflexivity.
Qed.
Lemma sections_len : forall T secs, table_text T secs -> (List.length secs <= List.length T)%nat.
Proof.
  intros T secs H. induction H as [| a start s1 b s2 t ls r1 secs A G1 N1 B G2 N2 LT LS TT IH]; [cbn; lia |].
  destruct (nat_text_cons _ _ A) as (c & d & q & ds & -> & _). rewrite !app_length. cbn. lia.
Qed.
Lemma St_moved : forall file s s' t r, wf file s -> rest s = t -> St file s' r (pos s + zlen t) (log s) -> moved file s s' r [].
Proof.
  intros file s s' t r W E (W' & R & P & L). split; [assumption |]. split; [assumption |]. rewrite E, app_nil_r. split; [lia | assumption].
Qed.
Theorem table_decoded : forall file s g T secs r, wf file s -> rest s = g ++ T ++ r -> gap g -> table_text T secs -> section_end r ->
  exists m s', read_xref_table s = (m, s') /\ moved file s s' r [] /\ NoDup (map fst m) /\ forall n, xget n m = latest n (table_lines secs).
Proof.
  intros file s g T secs r W E G TT SE. pose proof (St_intro _ _ W) as S0. unfold read_xref_table. pose proof (sections_len _ _ TT) as L. rewrite E in S0.
  destruct (table_sections_text file T secs TT (S (List.length (rest s))) g r (pos s + zlen (g ++ T ++ r)) (log s) [] s G SE) as (s' & R & S'); [rewrite E, !app_length; lia | exact S0 |].
  exists (put_all (table_lines secs) []), s'. split; [assumption |]. split; [eapply St_moved; eassumption |].
  split; [apply put_all_nodup; apply NoDup_nil |]. intros n. rewrite put_all_latest. destruct (latest n (table_lines secs)); reflexivity.
Qed.

(** ** Streams *)
Lemma read_field_fits : forall w a r, zlen a = w -> w <= 2 ^ 48 -> read_field w (a ++ r) = Ok ((wrap64 (be a), true), r).
Proof.
  intros w a r H L. unfold read_field. change 281474976710656 with (2 ^ 48). replace (2 ^ 48 <? w) with false by (symmetry; apply Z.ltb_ge; assumption).
  apply read_be_fits. assumption.
Qed.
Lemma read_field_short : forall w a, zlen a < w -> w <= 2 ^ 48 -> read_field w a = Ok ((0, false), []).
Proof.
  intros w a H L. unfold read_field. change 281474976710656 with (2 ^ 48). replace (2 ^ 48 <? w) with false by (symmetry; apply Z.ltb_ge; assumption).
  apply read_be_short. assumption.
Qed.
Lemma stream_entries_full : forall w0 w1 w2 start t l, records_text (w0, w1, w2) t l -> w0 <= 2 ^ 48 -> w1 <= 2 ^ 48 -> w2 <= 2 ^ 48 ->
  forall fuel j data x, (List.length l < fuel)%nat ->
  stream_entries fuel j (j + zlen l) start w0 w1 w2 (t ++ data) x = Ok ((put_all (number_from (start + j) l) x, data), true).
Proof.
  intros w0 w1 w2 start t l H L0 L1 L2. induction H as [| t e r l RT RS IH]; intros fuel j data x F.
  - destruct fuel as [| f]; [cbn in F; lia |]. cbn [stream_entries]. change (zlen []) with 0. rewrite Z.add_0_r, Z.ltb_irrefl. reflexivity.
  - destruct fuel as [| f]; [cbn in F; lia |]. cbn [stream_entries]. rewrite zlen_cons. pose proof (zlen_nonneg _ l).
    replace (j <? j + (1 + zlen l)) with true by (symmetry; apply Z.ltb_lt; lia).
    inversion RT as [a b c Q]; subst. injection Q as -> -> ->. rewrite <- !app_assoc.
    rewrite read_field_fits by (reflexivity || assumption). cbn [rbind].
    rewrite read_field_fits by (reflexivity || assumption). cbn [rbind].
    rewrite read_field_fits by (reflexivity || assumption). cbn [rbind].
    replace (j + (1 + zlen l)) with (j + 1 + zlen l) by lia. rewrite IH by (cbn in F; lia). cbn [number_from put_all fold_left fst snd].
    replace (start + (j + 1)) with (start + j + 1) by lia. reflexivity.
Qed.
Lemma stream_entries_short : forall w0 w1 w2 start t l data, records_text (w0, w1, w2) t l -> 0 <= w0 <= 2 ^ 48 -> 0 <= w1 <= 2 ^ 48 -> 0 <= w2 <= 2 ^ 48 ->
  zlen data < w0 + w1 + w2 -> forall fuel j len x, (List.length l < fuel)%nat -> j + zlen l < len ->
  exists data', stream_entries fuel j len start w0 w1 w2 (t ++ data) x = Ok ((put_all (number_from (start + j) l) x, data'), false).
Proof.
  intros w0 w1 w2 start t l data H L0 L1 L2 D. induction H as [| t e r l RT RS IH]; intros fuel j len x F J.
  - destruct fuel as [| f]; [cbn in F; lia |]. cbn [stream_entries app number_from put_all fold_left]. change (zlen []) with 0 in J.
    replace (j <? len) with true by (symmetry; apply Z.ltb_lt; lia).
    assert (SP : forall w (d : bytes), 0 <= w <= zlen d -> exists a b, d = a ++ b /\ zlen a = w).
    { intros w d B. exists (firstn (Z.to_nat w) d), (skipn (Z.to_nat w) d). split; [symmetry; apply firstn_skipn |]. unfold zlen in *. rewrite firstn_length. lia. }
    destruct (Z.lt_ge_cases (zlen data) w0) as [A | A]; [rewrite read_field_short by lia; cbn [rbind]; eauto |].
    destruct (SP w0 data) as (a & b & -> & Z0); [lia |]. rewrite read_field_fits by (assumption || lia). cbn [rbind]. rewrite zlen_app in *.
    destruct (Z.lt_ge_cases (zlen b) w1) as [B | B]; [rewrite read_field_short by lia; cbn [rbind]; eauto |].
    destruct (SP w1 b) as (b1 & b2 & -> & Z1); [lia |]. rewrite read_field_fits by (assumption || lia). cbn [rbind]. rewrite zlen_app in *.
    rewrite read_field_short by lia. cbn [rbind]. eauto.
  - destruct fuel as [| f]; [cbn in F; lia |]. cbn [stream_entries]. rewrite zlen_cons in J. pose proof (zlen_nonneg _ l).
    replace (j <? len) with true by (symmetry; apply Z.ltb_lt; lia).
    inversion RT as [a b c Q]; subst. injection Q as -> -> ->. rewrite <- !app_assoc.
    rewrite read_field_fits by (reflexivity || lia). cbn [rbind].
    rewrite read_field_fits by (reflexivity || lia). cbn [rbind].
    rewrite read_field_fits by (reflexivity || lia). cbn [rbind].
    destruct (IH f (j + 1) len (xset (wrap64 (start + j)) (new_xentry (wrap64 (be b)) (wrap64 (be c)) (wrap64 (be a))) x)) as (d' & R); [cbn in F; lia | lia |].
    exists d'. rewrite R. cbn [number_from put_all fold_left fst snd]. replace (start + (j + 1)) with (start + j + 1) by lia. reflexivity.
Qed.

Lemma a_int_at : forall rs pre q l i p, i = zlen pre -> a_int rs (pre ++ ONum q :: l) i p = Ok ((num_int q, true), p).
Proof.
  intros rs pre q l i p ->. unfold a_int, a_object, bind. rewrite zget_element. unfold element. pose proof (zlen_nonneg _ pre).
  replace (zlen pre <? 0) with false by (symmetry; apply Z.ltb_ge; lia). unfold zlen. rewrite Nat2Z.id, nth_error_app2, Nat.sub_diag by lia. reflexivity.
Qed.
(** an index, with a pair that is not one of numbers at the end if not [good] *)
Inductive index_parts : list obj -> list (Z * Z) -> bool -> Prop :=
| ia_good : forall l ps, index_pairs l ps -> index_parts l ps true
| ia_pair : forall a b l ps good, index_parts l ps good -> index_parts (ONum a :: ONum b :: l) ((num_int a, num_int b) :: ps) good
| ia_bad : forall a b l, direct a -> direct b -> (forall x y, ~ (a = ONum x /\ b = ONum y)) -> index_parts (a :: b :: l) [] false.
Lemma parts_pair : forall l s c ps good, index_parts l ((s, c) :: ps) good -> exists a b l', l = ONum a :: ONum b :: l' /\ s = num_int a /\ c = num_int b /\ index_parts l' ps good.
Proof.
  intros l s c ps good H. inversion H as [l0 ps0 IP | a b l0 ps0 good0 IP |]; subst; [| exists a, b, l0; auto]. inversion IP; subst. eexists _, _, _. split; [reflexivity |]. split; [reflexivity |]. split; [reflexivity |]. apply ia_good. assumption.
Qed.
Lemma a_int_bad : forall rs pre o l i p, i = zlen pre -> direct o -> (forall q, o <> ONum q) -> exists n, a_int rs (pre ++ o :: l) i p = Ok ((n, false), p).
Proof.
  intros rs pre o l i p -> D N. unfold a_int, a_object, bind. rewrite zget_element. unfold element. pose proof (zlen_nonneg _ pre).
  replace (zlen pre <? 0) with false by (symmetry; apply Z.ltb_ge; lia). unfold zlen. rewrite Nat2Z.id, nth_error_app2, Nat.sub_diag by lia. cbn [nth_error].
  destruct o; try (eexists; reflexivity); exfalso; [eapply N; reflexivity | eapply D; reflexivity].
Qed.
Lemma stream_sections_text : forall rs w0 w1 w2 ps data l whole good, stream_lines (w0, w1, w2) ps data l whole ->
  0 <= w0 <= 2 ^ 48 -> 0 <= w1 <= 2 ^ 48 -> 0 <= w2 <= 2 ^ 48 ->
  forall k fuel pre idx i p, index_parts idx ps good -> i = zlen pre -> (List.length idx <= k)%nat -> (List.length l < fuel)%nat ->
  stream_sections k fuel rs i (pre ++ idx) w0 w1 w2 data p = Ok (whole && good, with_xref (put_all l (pxref p)) p).
Proof.
  intros rs w0 w1 w2 ps data l whole good H L0 L1 L2. induction H as [data | start count ps t l data m whole RS C SL IH | start count ps t l data RS C D];
    intros k fuel pre idx i p IP -> K F.
  - inversion IP as [l0 ps0 IG | | a b l0 DA DB NB]; subst.
    + assert (Q : forall k, stream_sections k fuel rs (zlen pre) (pre ++ idx) w0 w1 w2 data p = Ok (true, p)).
      { intros [| k0]; [reflexivity |]. cbn [stream_sections]. rewrite zlen_app. inversion IG; subst; [change (zlen []) with 0 | change (zlen [o]) with 1];
        (replace (zlen pre <? _) with false by (symmetry; apply Z.ltb_ge; lia)); reflexivity. }
      rewrite Q. destruct p; reflexivity.
    + cbn [List.length] in K. destruct k as [| k]; [lia |]. cbn [stream_sections]. rewrite zlen_app, !zlen_cons. pose proof (zlen_nonneg _ l0). replace (zlen pre <? _) with true by (symmetry; apply Z.ltb_lt; lia).
      unfold bind at 1. assert (C : (exists x, a = ONum x) \/ forall q, a <> ONum q) by (destruct a; [left; eauto | right; discriminate ..]). destruct C as [[x ->] | NA].
      * rewrite a_int_at by reflexivity. unfold bind at 1. change (pre ++ ONum x :: b :: l0) with (pre ++ [ONum x] ++ b :: l0). rewrite app_assoc.
        destruct (a_int_bad rs (pre ++ [ONum x]) b l0 (zlen pre + 1) p) as (m & Q); [rewrite zlen_app; reflexivity | exact DB | intros q ->; exact (NB x q (conj eq_refl eq_refl)) |]. rewrite Q. destruct p; reflexivity.
      * destruct (a_int_bad rs pre a (b :: l0) (zlen pre) p eq_refl DA NA) as (m & Q). rewrite Q. destruct p; reflexivity.
  - destruct (parts_pair _ _ _ _ _ IP) as (a & b & idx' & -> & -> & -> & IP'). cbn [List.length] in K. destruct k as [| k]; [lia |]. cbn [stream_sections].
    rewrite zlen_app, !zlen_cons. pose proof (zlen_nonneg _ idx'). replace (zlen pre <? _) with true by (symmetry; apply Z.ltb_lt; lia).
    unfold bind at 1. rewrite a_int_at by reflexivity. unfold bind at 1.
    change (pre ++ ONum a :: ONum b :: idx') with (pre ++ [ONum a] ++ ONum b :: idx'). rewrite app_assoc, a_int_at by (rewrite zlen_app; reflexivity).
    assert (R : stream_entries fuel 0 (num_int b) (num_int a) w0 w1 w2 (t ++ data) (pxref p) = Ok ((put_all (number_from (num_int a) l) (pxref p), data), true)).
    { rewrite app_length, number_from_len in F. destruct (Z.lt_ge_cases 0 (num_int b)) as [B | B].
      - replace (num_int b) with (0 + zlen l) by lia. rewrite (stream_entries_full w0 w1 w2 (num_int a) t l RS) by lia. rewrite Z.add_0_r. reflexivity.
      - assert (l = []) as -> by (destruct l; [reflexivity | rewrite zlen_cons in C; pose proof (zlen_nonneg _ l); lia]).
        inversion RS; subst. cbn [app number_from put_all fold_left]. destruct fuel as [| f]; [lia |]. cbn [stream_entries].
        replace (0 <? num_int b) with false by (symmetry; apply Z.ltb_ge; lia). reflexivity. }
    rewrite R. rewrite <- app_assoc. change ([ONum a] ++ ONum b :: idx') with ([ONum a; ONum b] ++ idx'). rewrite app_assoc.
    rewrite (IH k fuel (pre ++ [ONum a; ONum b]) idx' (zlen pre + 2)); [| assumption | rewrite zlen_app; reflexivity | lia | rewrite app_length in F; lia].
    cbn [pxref with_xref]. rewrite put_all_app. reflexivity.
  - destruct (parts_pair _ _ _ _ _ IP) as (a & b & idx' & -> & -> & -> & IP'). cbn [List.length] in K. destruct k as [| k]; [lia |]. cbn [stream_sections].
    rewrite zlen_app, !zlen_cons. pose proof (zlen_nonneg _ idx'). replace (zlen pre <? _) with true by (symmetry; apply Z.ltb_lt; lia).
    unfold bind at 1. rewrite a_int_at by reflexivity. unfold bind at 1.
    change (pre ++ ONum a :: ONum b :: idx') with (pre ++ [ONum a] ++ ONum b :: idx'). rewrite app_assoc, a_int_at by (rewrite zlen_app; reflexivity).
    destruct (stream_entries_short w0 w1 w2 (num_int a) t l data RS L0 L1 L2 D fuel 0 (num_int b) (pxref p)) as (d' & R); [rewrite number_from_len in F; lia | lia |].
    rewrite R, Z.add_0_r. reflexivity.
Qed.

(** direct entries *)
Lemma d_object_some : forall rs d k x p, entry d k = Some x -> direct x -> d_object rs d k p = Ok ((x, true), p).
Proof. intros rs d k x p H D. unfold d_object. rewrite dget_entry, H. destruct x; try reflexivity. exfalso. eapply D; reflexivity. Qed.
Lemma d_object_no : forall rs d k p, entry d k = None -> d_object rs d k p = Ok ((KEYWORD_NULL, false), p).
Proof. intros rs d k p H. unfold d_object. rewrite dget_entry, H. reflexivity. Qed.
Ltac dir := let a := fresh in let b := fresh in intros a b; discriminate.

Lemma number_parts : forall qs l good, index_parts l [] good -> index_parts (number_pairs qs ++ l) (int_pairs qs) good.
Proof. induction qs as [| [a b] qs IH]; intros l good H; [exact H |]. cbn [number_pairs int_pairs flat_map map fst snd app]. apply ia_pair. apply IH. exact H. Qed.
Definition index_value (d : dict) : option (list obj) :=
  match entry d (lit "Index") with
  | Some (OArr l) => Some l
  | _ => match entry d (lit "Size") with Some (ONum q) => Some [ONum num_zero; ONum q] | _ => None end
  end.
Lemma index_found : forall rs d q, direct_entry d (lit "Index") -> (exists l, entry d (lit "Index") = Some (OArr l)) \/ direct_entry d (lit "Size") -> forall (k : option (list obj) -> M unit),
    bind (d_array rs d (lit "Index")) (fun '(index, ok) => bind (if ok : bool then ret (Some index) else
              bind (d_number rs d (lit "Size")) (fun '(size, ok) => ret (if ok : bool then Some [ONum num_zero; ONum size] else None))) k) q = k (index_value d) q.
Proof.
  intros rs d q DI DS k. unfold index_value. unfold d_array, bind at 1. unfold bind at 1.
  destruct DS as [[l EL] | DS]; [rewrite (d_object_some _ _ _ _ _ EL) by dir; rewrite EL; reflexivity |].
  assert (N : bind (bind (d_number rs d (lit "Size")) (fun '(size, ok) => ret (if ok : bool then Some [ONum num_zero; ONum size] else None))) k q = k (match entry d (lit "Size") with Some (ONum q) => Some [ONum num_zero; ONum q] | _ => None end) q).
  { unfold d_number, bind. destruct (entry d (lit "Size")) as [x |] eqn:Q; [rewrite (d_object_some _ _ _ _ _ Q) by (apply DS; exact Q); destruct x; reflexivity | rewrite (d_object_no _ _ _ _ Q); reflexivity]. }
  destruct (entry d (lit "Index")) as [x |] eqn:Q; [rewrite (d_object_some _ _ _ _ _ Q) by (apply DI; exact Q) | rewrite (d_object_no _ _ _ _ Q); exact N].
  destruct x; try exact N. reflexivity.
Qed.
Lemma int_entry : forall rs l i p, (forall x, In x l -> direct x) -> exists n, a_int rs l i p = Ok ((n, match zget l i with Some (ONum _) => true | _ => false end), p).
Proof.
  intros rs l i p D. unfold a_int, a_object, bind. destruct (zget l i) as [x |] eqn:Q; [| eexists; reflexivity].
  assert (I : In x l). { rewrite zget_element in Q. unfold element in Q. destruct (i <? 0); [discriminate |]. eapply nth_error_In; exact Q. }
  specialize (D x I). destruct x; try (eexists; reflexivity). exfalso. eapply D; reflexivity.
Qed.
Lemma stream_entries_text : forall rs d l whole o xoff fuel p, stream_says d (match istream o with Some x => x | None => [] end) l whole -> (List.length l < fuel)%nat ->
  load_stream_entries fuel rs xoff o d p =
    Ok (tt, with_xref (put_all (l ++ own_lines whole (inum o) (own_entry xoff (igen o))) (pxref p)) (with_trailer (mmerge bseq (ptrailer p) d) p)).
Proof.
  intros rs d l whole o xoff fuel p SS F. unfold load_stream_entries. unfold bind at 1. unfold merge_trailer at 1.
  set (q := with_trailer (mmerge bseq (ptrailer p) d) p).
  assert (NONE : Ok (tt, q) = Ok (tt, with_xref (put_all ([] ++ own_lines false (inum o) (own_entry xoff (igen o))) (pxref p)) q)) by (unfold q; destruct p; reflexivity).
  assert (READ : forall w ps good whole', widths_of d w -> stream_lines w ps (match istream o with Some x => x | None => [] end) l whole' ->
    forall idx, index_value d = Some idx -> index_parts idx ps good -> direct_entry d (lit "Index") -> (exists l, entry d (lit "Index") = Some (OArr l)) \/ direct_entry d (lit "Size") -> whole = whole' && good ->
    bind (d_array rs d (lit "Index")) (fun '(index, ok) => bind (if ok : bool then ret (Some index) else
              bind (d_number rs d (lit "Size")) (fun '(size, ok) => ret (if ok : bool then Some [ONum num_zero; ONum size] else None))) (fun index =>
      match index with
      | None => ret tt
      | Some index =>
        bind (d_array rs d (lit "W")) (fun '(width, ok) =>
        if ok : bool then
        bind (a_int rs width 0) (fun '(w0, ok) =>
        if ok : bool then
          bind (a_int rs width 1) (fun '(w1, ok) =>
          if ok : bool then
            bind (a_int rs width 2) (fun '(w2, ok) =>
            if ok : bool then
              bind (stream_sections (List.length index) fuel rs 0 index w0 w1 w2 (match istream o with Some d => d | None => [] end)) (fun done =>
              if done : bool then
                put_xref (inum o) (plain_xentry xoff (igen o) XrefTypeIndirectObject)
              else ret tt)
            else ret tt)
          else ret tt)
        else ret tt)
      else ret tt)
      end)) q = Ok (tt, with_xref (put_all (l ++ own_lines whole (inum o) (own_entry xoff (igen o))) (pxref p)) q)).
  { intros w ps good whole' WO SL idx IV IP DI DS QW. etransitivity; [apply (index_found rs d q DI DS) |]. rewrite IV. inversion WO as [a b c r H1 A B C]; subst w.
    unfold d_array at 1, bind at 1. unfold bind at 1. rewrite (d_object_some _ _ _ _ _ H1) by dir. unfold ret at 1. cbn [as_array].
    unfold bind at 1. change (ONum a :: ONum b :: ONum c :: r) with ([] ++ ONum a :: ONum b :: ONum c :: r) at 1. rewrite a_int_at by reflexivity.
    unfold bind at 1. change (ONum a :: ONum b :: ONum c :: r) with ([ONum a] ++ ONum b :: ONum c :: r) at 1. rewrite a_int_at by reflexivity.
    unfold bind at 1. change (ONum a :: ONum b :: ONum c :: r) with ([ONum a; ONum b] ++ ONum c :: r) at 1. rewrite a_int_at by reflexivity.
    unfold bind at 1. rewrite (stream_sections_text rs _ _ _ _ _ _ _ good SL A B C (List.length idx) fuel [] idx 0 q IP eq_refl (Nat.le_refl _) F : stream_sections (List.length idx) fuel rs 0 idx _ _ _ _ q = _).
    rewrite <- QW. destruct whole; [| rewrite app_nil_r; reflexivity]. cbn [own_lines]. rewrite put_all_app. reflexivity. }
  destruct SS as [w ps l whole WO IX SL | w qs a b r l whole WO EI DA DB NB SL | DI DS NI NS | DI DS DW DL NW].
  - inversion IX as [idx ps' H1 H2 | z H1 H2]; subst.
    + eapply READ with (good := true) (idx := idx); [exact WO | exact SL | unfold index_value; rewrite H1; reflexivity | apply ia_good; exact H2 | intros x Q; rewrite H1 in Q; injection Q as <-; dir | left; eauto | symmetry; apply andb_true_r].
    + eapply READ with (good := true) (idx := [ONum num_zero; ONum z]); [exact WO | exact SL | unfold index_value; rewrite H1, H2; reflexivity | change 0 with (num_int num_zero); apply ia_good, ip_pair, ip_nil | intros x Q; congruence | right; intros x Q; rewrite H2 in Q; injection Q as <-; dir | symmetry; apply andb_true_r].
  - eapply READ with (good := false); [exact WO | exact SL | unfold index_value; rewrite EI; reflexivity | apply number_parts, ia_bad; assumption | intros x Q; rewrite EI in Q; injection Q as <-; dir | left; eauto | symmetry; apply andb_false_r].
  - etransitivity; [apply (index_found rs d q DI (or_intror DS)) |]. unfold index_value. 
    replace (match entry d (lit "Index") with Some (OArr l) => Some l | _ => match entry d (lit "Size") with Some (ONum q) => Some [ONum num_zero; ONum q] | _ => None end end) with (@None (list obj)); [exact NONE |].
    destruct (entry d (lit "Size")) as [[] |] eqn:Q1; destruct (entry d (lit "Index")) as [[] |] eqn:Q2; try reflexivity; exfalso; first [eapply NI; reflexivity | eapply NS; reflexivity].
  - etransitivity; [apply (index_found rs d q DI (or_intror DS)) |]. destruct (index_value d) as [idx |]; [| exact NONE]. unfold d_array at 1, bind at 1. unfold bind at 1.
    destruct (entry d (lit "W")) as [x |] eqn:Q; [rewrite (d_object_some _ _ _ _ _ Q) by (apply DW; exact Q) | rewrite (d_object_no _ _ _ _ Q); exact NONE].
    destruct x as [| | | | | wl |]; try exact NONE. unfold ret at 1. cbn [as_array]. pose proof (DL wl eq_refl) as DE. pose proof (fun i => int_entry rs wl i q DE) as IE.
    destruct (IE 0) as (n0 & Q0). unfold bind at 1. rewrite Q0. destruct (zget wl 0) as [[] |] eqn:G0; try exact NONE.
    destruct (IE 1) as (n1 & Q1). unfold bind at 1. rewrite Q1. destruct (zget wl 1) as [[] |] eqn:G1; try exact NONE.
    destruct (IE 2) as (n2 & Q2). unfold bind at 1. rewrite Q2. destruct (zget wl 2) as [[] |] eqn:G2; try exact NONE.
    exfalso. rewrite zget_element in G0, G1, G2. unfold element in *. cbn in G0, G1, G2. destruct wl as [| x0 [| x1 [| x2 wl]]]; try discriminate. cbn in *. injection G0 as ->. injection G1 as ->. injection G2 as ->. eapply NW; reflexivity.
Qed.

(** ** Chains *)
Lemma zmem_in : forall n l, ~ In n l -> zmem n l = false.
Proof.
  intros n l H. unfold zmem. destruct (existsb (Z.eqb n) l) eqn:Q; [| reflexivity]. exfalso. apply existsb_exists in Q. destruct Q as (x & I & X).
  apply Z.eqb_eq in X. subst. contradiction.
Qed.
Lemma prev_int : forall rs d pv p, prev_of d pv -> d_int rs d (lit "Prev") p = Ok (match pv with Some q => (q, true) | None => (0, false) end, p).
Proof.
  intros rs d pv p H. inversion H as [q Q | Q]; subst; unfold d_int, bind.
  - rewrite (d_object_some _ _ _ _ _ Q) by dir. reflexivity.
  - rewrite (d_object_no _ _ _ _ Q). reflexivity.
Qed.
Lemma obj_text_nodup : forall t d, obj_text t (ODict d) -> NoDup (map fst d).
Proof. intros t d H. inversion H; subst. assumption. Qed.
Lemma merged_key : forall d t k, NoDup (map fst d) -> entry (mmerge bseq t d) k = or_else (entry d k) (entry t k).
Proof.
  intros d t k ND. rewrite <- !dget_entry. unfold dget. rewrite mget_mmerge; [| intros; apply bseq_eq | assumption]. destruct (mget bseq k d); reflexivity.
Qed.
Lemma word_regular : forall b, is_ws b = false -> is_delim b = false -> regular_byte b.
Proof. intros b A B. split; intros X; [apply is_ws_spec in X | apply is_delim_spec in X]; congruence. Qed.

Definition follow_prev (f : nat) (E : env) (file : bytes) (pv : option Z) (seen : list Z) : M unit :=
  match pv with Some q => load_xref f E file q seen | None => ret tt end.
Lemma table_step : forall E file off seen g0 g1 T secs g2 t d r pv, ~ In off seen -> 0 <= off ->
  zdrop off file = g0 ++ lit "xref" ++ g1 ++ T ++ lit "trailer" ++ g2 ++ t ++ r ->
  gap g0 -> gap g1 -> g1 <> [] -> table_text T secs -> gap g2 -> obj_text t (ODict d) ->
  zlen (g0 ++ lit "xref" ++ g1 ++ T ++ lit "trailer" ++ g2) mod bufsize <> bufsize - 1 -> prev_of d pv ->
  forall f p, reads file p -> exists s1 m, wf file s1 /\ log s1 = log (prd p) /\ NoDup (map fst m) /\ (forall n, xget n m = latest n (table_lines secs)) /\
    load_xref (S f) E file off seen p =
      bind (follow_prev f E file pv (off :: seen)) (fun _ => bind (merge_trailer d) (fun _ => merge_xrefs m)) (with_rd s1 p).
Proof.
  intros E file off seen g0 g1 T secs g2 t d r pv NI O Z G0 G1 N1 TT G2 OT B PV f p W. cbn [load_xref]. rewrite zmem_in by assumption. cbv zeta.
  unfold bind at 1. unfold pseek at 1. unfold bind at 1. unfold onrd at 1. cbn [prd with_rd].
  set (s0 := seek file off (prd p)). pose proof (sk_nonneg file off (prd p) O) as S0. fold s0 in S0. set (e := off + zlen (zdrop off file)) in S0. rewrite Z in S0.
  assert (C0 : chunked file off s0) by (apply chunked_seek; assumption).
  destruct (read_word_text file s0 g0 "x"%byte (lit "ref") (g1 ++ T ++ lit "trailer" ++ g2 ++ t ++ r) e (log (prd p)) G0) as (s1 & R1 & S1);
    [regular | apply ne_gap_ends; assumption | exact S0 |].
  assert (C1 : chunked file off s1).
  { pose proof (read_keyword_keeps (chunked file off) (chunked_rb file off) (chunked_ub file off) s0 C0) as K. rewrite R1 in K. exact K. }
  rewrite R1. change (bseq ("x"%byte :: lit "ref") (lit "xref")) with true. cbv iota beta.
  unfold bind at 1. unfold onrd at 1. cbn [prd with_rd].
  destruct (table_decoded file s1 g1 T secs (lit "trailer" ++ g2 ++ t ++ r) (proj1 S1) (proj1 (proj2 S1)) G1 TT) as (m & s2 & R2 & M2 & ND & GM).
  { exists "t"%byte, (lit "railer" ++ g2 ++ t ++ r). split; [reflexivity |]. split; [intros X; apply is_ws_spec in X; discriminate |].
    split; [discriminate |]. intros k X. apply decdigit_spec in X. destruct X. discriminate. }
  assert (C2 : chunked file off s2).
  { unfold read_xref_table in R2. pose proof (table_sections_keeps (chunked file off) (chunked_rb file off) (chunked_ub file off) (S (List.length (rest s1))) [] s1 C1) as K. rewrite R2 in K. exact K. }
  rewrite R2. unfold bind at 1. unfold onrd at 1. cbn [prd with_rd].
  assert (S2 : St file s2 (lit "trailer" ++ g2 ++ t ++ r) e (log (prd p))).
  { destruct M2 as (W2 & E2 & P2 & L2). destruct S1 as (W1 & E1 & P1 & L1). split; [assumption |]. split; [assumption |]. rewrite E1 in P2. split; [lia |]. rewrite L2, L1, app_nil_r. reflexivity. }
  destruct (read_word_text file s2 [] "t"%byte (lit "railer") (g2 ++ t ++ r) e (log (prd p)) gap_nil) as (s3 & R3 & S3);
    [regular | eapply dict_ends; eassumption | exact S2 |].
  assert (C3 : chunked file off s3).
  { pose proof (read_keyword_keeps (chunked file off) (chunked_rb file off) (chunked_ub file off) s2 C2) as K. rewrite R3 in K. exact K. }
  rewrite R3. unfold bind at 1. unfold onrdr at 1. cbn [prd with_rd].
  destruct (obj_text_dict _ _ OT) as (u & EU). destruct S3 as (W3 & E3 & P3 & L3).
  destruct (consume_ws_pos file s3 g2 "<"%byte ("<"%byte :: u ++ r) W3) as (P4 & R4); [rewrite E3, EU; reflexivity | assumption | reflexivity | reflexivity |].
  destruct (read_dictionary_text file s3 g2 t d r W3 G2 OT E3) as (s4 & R5 & M5).
  { apply (chunked_buf file off (consume_ws s3) _ _ _ (consume_ws_keeps (chunked file off) (chunked_rb file off) (chunked_ub file off) s3 C3) R4).
    rewrite P4. replace (pos s3 + zlen g2 - off) with (zlen (g0 ++ lit "xref" ++ g1 ++ T ++ lit "trailer" ++ g2)); [exact B |].
    unfold e in P3. rewrite Z in P3. rewrite !zlen_app in *. lia. }
  rewrite R5. unfold bind at 1. rewrite (prev_int _ _ _ _ PV). exists s4, m. split; [apply M5 |]. split; [destruct M5 as (_ & _ & _ & L5); rewrite L5, L3, app_nil_r; reflexivity |]. split; [assumption |]. split; [assumption |].
  destruct pv; reflexivity.
Qed.

Lemma object_head_not_xref : forall head n g r, object_head head n g -> fst (p_keyword (head ++ r)) <> lit "xref".
Proof.
  intros head n g r H. inversion H as [g0 a n' g1 b g' g2 G0 A G1 N1 B G2]; subst. destruct (nat_text_cons _ _ A) as (c & dc & q & ds & -> & DC & _).
  apply decdigit_spec in DC. destruct DC as [DC _]. rewrite <- app_assoc. unfold p_keyword. rewrite gap_ws_app by assumption. cbn [app].
  destruct (digit_not_ws _ DC) as [W1 W2]. rewrite p_ws_id by assumption. cbn [p_kw].
  destruct (is_ws c || is_delim c); [discriminate |]. destruct (p_kw _) as [k1 k2]. cbn [fst]. intros Q. change (lit "xref") with ("x"%byte :: lit "ref") in Q. assert (c = "x"%byte) by congruence. subst c. discriminate.
Qed.
Lemma stream_step : forall E file off n g behind d data l whole pv h, stream_at E file off n g behind d data ->
  stream_says d data l whole -> prev_of d pv -> exists F,
  forall seen f p, ~ In off seen -> (F <= f)%nat -> reads file p -> psh p = h -> exists s1, wf file s1 /\ log s1 = log (prd p) /\
    let p1 := with_xref (xset n (own_entry off g) (pxref p)) (with_rd s1 p) in
    load_xref (S f) E file off seen p = 
      bind (follow_prev f E file pv (off :: seen)) (fun _ p2 =>
        Ok (tt, with_xref (put_all (l ++ own_lines whole n (own_entry behind g)) (pxref p2)) (with_trailer (mmerge bseq (ptrailer p2) d) p2))) p1.
Proof.
  intros E file off n g behind d data l whole pv h SA SS PV.
  inversion SA as [head n' g' g1 t d' g2 pre eol data' eol' r fl pl out OH G1 OT G2 NE ET EB NO EA O Z LN FO PO DC]; subst.
  destruct (stream_object_from E file d fl pl CFNone fl pl data' out h false FO PO (sc_plain _ _ _ _) DC) as (f0 & R).
  exists (f0 + S (List.length l))%nat. intros seen f p NI F W PH. cbn [load_xref]. rewrite zmem_in by assumption. cbv zeta.
  unfold bind at 1. unfold pseek at 1. unfold bind at 1. unfold onrd at 1. cbn [prd with_rd].
  set (s0 := seek file off (prd p)). pose proof (sk_nonneg file off (prd p) O) as S0. fold s0 in S0. set (e := off + zlen (zdrop off file)) in S0.
  destruct (read_keyword_sim file s0 _ _ _ S0) as (s1 & R1 & S1). rewrite R1.
  replace (bseq (fst (p_keyword (zdrop off file))) (lit "xref")) with false.
  2: { symmetry. destruct (bseq _ _) eqn:Q; [| reflexivity]. exfalso. apply bseq_eq in Q. rewrite Z in Q. eapply object_head_not_xref; eassumption. }
  unfold bind at 1. unfold pseek at 1. unfold bind at 1. unfold onrd at 1. cbn [prd with_rd].
  pose proof (sk_nonneg file off s1 O) as S2. set (s2 := seek file off s1) in *. fold e in S2. rewrite Z in S2.
  destruct (read_object_header_text file s2 head n' g' _ e (log s1) OH (dict_ends _ _ _ _ G1 OT) S2) as (s3 & R3 & S3).
  rewrite R3. cbv iota beta. unfold bind at 1. unfold put_xref at 1. cbn [prd with_rd with_xref pxref].
  set (p3 := with_xref (xset (wrap64 n') (plain_xentry off (wrap64 g') XrefTypeIndirectObject) (pxref p)) (with_rd s3 (with_rd s2 (with_rd s1 (with_rd s0 p))))).
  cbv beta zeta.
  replace (pos s3) with (off + zlen head).
  2: { destruct S3 as (_ & E3 & P3 & _). unfold e in P3. rewrite Z in P3. rewrite !zlen_app in *. lia. }
  destruct (R p3 (wrap64 n') (plain_xentry off (wrap64 g') XrefTypeIndirectObject) head n' g' g1 t d g2 pre eol data' eol' r (fun v => v) f) as (s4 & R4 & W4 & L4);
    [exact (proj1 S3) | cbn [p3 pxref with_xref]; apply xget_xset | reflexivity | exact O | exact PH | reflexivity | assumption | assumption | assumption | assumption
     | assumption | assumption | assumption | assumption | assumption | exact Z | assumption | reflexivity | apply map_strings_id | reflexivity | lia |].
  unfold bind at 1. unfold GetObject in R4. rewrite R4. cbn [ival]. unfold bind at 1. rewrite (prev_int _ _ _ _ PV).
  exists s4. split; [exact W4 |]. split; [rewrite L4; cbn [p3 prd with_xref with_rd]; rewrite (proj2 (proj2 (proj2 S3))); rewrite (proj2 (proj2 (proj2 S1))); reflexivity |].
  assert (K : forall (x : M unit) q, bind x (fun _ => load_stream_entries f (Resolve f E file) (off + zlen head)
     {| inum := wrap64 n'; igen := wrap64 g'; ival := ODict d; istream := out |} d) q =
     bind x (fun _ p2 => Ok (tt, with_xref (put_all (l ++ own_lines whole (wrap64 n') (own_entry (off + zlen head) (wrap64 g'))) (pxref p2))
             (with_trailer (mmerge bseq (ptrailer p2) d) p2))) q).
  { intros x q. unfold bind. destruct (x q) as [[u q'] | |]; try reflexivity.
    apply (stream_entries_text (Resolve f E file) d l whole {| inum := wrap64 n'; igen := wrap64 g'; ival := ODict d; istream := out |} (off + zlen head) f q' SS). lia. }
  destruct pv; exact (K _ _).
Qed.

Lemma nothing_step : forall E file off seen f p, nothing_at file off -> reads file p -> exists s1, wf file s1 /\ load_xref (S f) E file off seen p = Ok (tt, with_rd s1 p).
Proof.
  intros E file off seen f p NA W. cbn [load_xref]. destruct (zmem off seen); [exists (prd p); split; [exact W | destruct p; reflexivity] |]. cbv zeta.
  assert (O : 0 <= off) by (destruct NA; assumption).
  assert (K : fst (p_keyword (zdrop off file)) <> lit "xref" /\ snd (fst (p_int (zdrop off file))) = false).
  { destruct NA as [_ B | g b w r _ Z G RG ND ET NX].
    - apply blank_spec in B. unfold p_keyword, p_int. rewrite B. split; [discriminate | reflexivity].
    - rewrite Z. rewrite (p_keyword_text g w r b G RG ET). split; [exact NX |]. unfold p_int. rewrite gap_ws_app by assumption. cbn [app].
      destruct (RG b (or_introl eq_refl)) as [NW NDl]. rewrite p_ws_id; [rewrite (table_no_digit b ND); reflexivity | |].
      + apply beq_neq. intros ->. apply NDl. apply is_delim_spec. reflexivity.
      + apply is_ws_false. assumption. }
  destruct K as [K1 K2].
  unfold bind at 1. unfold pseek at 1. unfold bind at 1. unfold onrd at 1. cbn [prd with_rd].
  set (s0 := seek file off (prd p)). pose proof (sk_nonneg file off (prd p) O) as S0. fold s0 in S0.
  destruct (read_keyword_sim file s0 _ _ _ S0) as (s1 & R1 & S1). rewrite R1.
  replace (bseq (fst (p_keyword (zdrop off file))) (lit "xref")) with false.
  2: { symmetry. destruct (bseq _ _) eqn:Q; [| reflexivity]. exfalso. apply bseq_eq in Q. contradiction. }
  unfold bind at 1. unfold pseek at 1. unfold bind at 1. unfold onrd at 1. cbn [prd with_rd].
  pose proof (sk_nonneg file off s1 O) as S2. set (s2 := seek file off s1) in *.
  destruct (read_int_any file s2 _ _ _ S2) as (s3 & R3 & S3 & _). unfold read_object_header. rewrite R3.
  destruct (p_int (zdrop off file)) as [[v ok] r]. cbn [fst snd] in *. subst ok. exists s3. split; [apply S3 | reflexivity].
Qed.

Theorem chain_loaded : forall E file h off seen secs, chain E file off seen secs -> exists F, forall fuel p, (F <= fuel)%nat -> reads file p -> psh p = h ->
  exists p', load_xref fuel E file off seen p = Ok (tt, p') /\ reads file p' /\ psh p' = h /\
    (forall n, xget n (pxref p') = or_else (newest n secs) (xget n (pxref p))) /\
    (forall k, entry (ptrailer p') k = or_else (newest_key k secs) (entry (ptrailer p) k)).
Proof.
  intros E file h off seen secs H.
  (* one section, whatever follows *)
  assert (ONE : forall off seen s pv secs, ~ In off seen -> section_at E file off s pv ->
    (exists F, forall fuel p, (F <= fuel)%nat -> reads file p -> psh p = h ->
      exists p', follow_prev fuel E file pv (off :: seen) p = Ok (tt, p') /\ reads file p' /\ psh p' = h /\
      (forall n, xget n (pxref p') = or_else (newest n secs) (xget n (pxref p))) /\
      (forall k, entry (ptrailer p') k = or_else (newest_key k secs) (entry (ptrailer p) k))) ->
    exists F, forall fuel p, (F <= fuel)%nat -> reads file p -> psh p = h ->
      exists p', load_xref fuel E file off seen p = Ok (tt, p') /\ reads file p' /\ psh p' = h /\
      (forall n, xget n (pxref p') = or_else (newest n (s :: secs)) (xget n (pxref p))) /\
      (forall k, entry (ptrailer p') k = or_else (newest_key k (s :: secs)) (entry (ptrailer p) k))).
  { clear H off seen secs. intros off seen s pv secs NI SA (F & FP).
    destruct SA as [g0 g1 T tsecs g2 t d r pv O Z G0 G1 N1 TT G2 OT B PV | n g behind d data w ps l pv SA WO IX SL PV].
    - exists (S F). intros fuel p L W PH. destruct fuel as [| f]; [lia |].
      destruct (table_step E file off seen g0 g1 T tsecs g2 t d r pv NI O Z G0 G1 N1 TT G2 OT B PV f p W) as (s1 & m & W1 & _ & ND & GM & R). rewrite R.
      destruct (FP f (with_rd s1 p)) as (p2 & R2 & W2 & PH2 & X2 & T2); [lia | exact W1 | exact PH |].
      unfold bind at 1. rewrite R2. eexists. split; [reflexivity |]. cbn [prd pxref ptrailer psh with_xref with_trailer]. split; [exact W2 |]. split; [exact PH2 |].
      split.
      + intros k. unfold xget. rewrite mget_mmerge by (exact Zeqb_ok || assumption). fold (xget k m) (xget k (pxref p2)). rewrite GM, X2. cbn [newest sc_entries].
        destruct (latest k (table_lines tsecs)); reflexivity.
      + intros k. rewrite merged_key by (eapply obj_text_nodup; eassumption). rewrite T2. cbn [newest_key sc_trailer]. destruct (entry d k); reflexivity.
    - destruct (stream_step E file off n g behind d data l true pv h SA (ss_lines _ _ _ _ _ _ WO IX SL) PV) as (F1 & ST).
      exists (S (F + F1)). intros fuel p L W PH. destruct fuel as [| f]; [lia |].
      destruct (ST seen f p NI) as (s1 & W1 & _ & R); [lia | exact W | exact PH |]. cbv zeta in R. rewrite R.
      destruct (FP f (with_xref (xset n (own_entry off g) (pxref p)) (with_rd s1 p))) as (p2 & R2 & W2 & PH2 & X2 & T2); [lia | exact W1 | exact PH |].
      unfold bind at 1. rewrite R2. eexists. split; [reflexivity |]. cbn [prd pxref ptrailer psh with_xref with_trailer]. split; [exact W2 |]. split; [exact PH2 |].
      split.
      + intros k. rewrite put_all_latest, X2. cbn [newest sc_entries own_lines]. destruct (latest k (l ++ [(n, own_entry behind g)])) eqn:Q; [reflexivity |].
        cbn [or_else]. cbn [pxref with_xref]. destruct (Z.eq_dec k n) as [-> | D].
        * exfalso. revert Q. clear. induction l as [| [a b] l IH]; cbn [app latest]; [rewrite Z.eqb_refl; discriminate |].
          destruct (latest n (l ++ [(n, own_entry behind g)])); [discriminate | intros _; apply IH; reflexivity].
        * unfold xget at 1, xset. rewrite (mget_mset_other Z.eqb Zeqb_ok) by assumption. reflexivity.
      + assert (ND : NoDup (map fst d)) by (inversion SA; subst; eapply obj_text_nodup; eassumption).
        intros k. rewrite merged_key by assumption. rewrite T2. cbn [newest_key sc_trailer]. destruct (entry d k); reflexivity. }
  induction H as [off seen I | off seen NA | off seen s NI SA | off seen s pv l NI SA CH IH].
  - exists 1%nat. intros fuel p L W PH. destruct fuel as [| f]; [lia |]. cbn [load_xref].
    replace (zmem off seen) with true by (symmetry; unfold zmem; apply existsb_exists; exists off; split; [assumption | apply Z.eqb_refl]).
    exists p. split; [reflexivity |]. split; [assumption |]. split; [assumption |]. split; reflexivity.
  - exists 1%nat. intros fuel p L W PH. destruct fuel as [| f]; [lia |]. destruct (nothing_step E file off seen f p NA W) as (s1 & W1 & R). rewrite R.
    eexists. split; [reflexivity |]. split; [exact W1 |]. split; [exact PH |]. split; reflexivity.
  - apply (ONE off seen s None []); [assumption | assumption |]. exists 0%nat. intros fuel p L W PH. exists p. split; [reflexivity |]. split; [assumption |].
    split; [assumption |]. split; reflexivity.
  - apply (ONE off seen s (Some pv) l); [assumption | assumption |]. exact IH.
Qed.

(** one stream by itself, complete or not *)
Theorem stream_loaded : forall E file h off n g behind d data l whole, stream_at E file off n g behind d data ->
  stream_says d data l whole -> prev_of d None -> exists F, forall fuel p, (F <= fuel)%nat -> reads file p -> psh p = h ->
  exists p', load_xref fuel E file off [] p = Ok (tt, p') /\
    forall k, xget k (pxref p') = or_else (latest k ((n, own_entry off g) :: l ++ own_lines whole n (own_entry behind g))) (xget k (pxref p)).
Proof.
  intros E file h off n g behind d data l whole SA SS PV.
  destruct (stream_step E file off n g behind d data l whole None h SA SS PV) as (F & ST). exists (S F). intros fuel p L W PH. destruct fuel as [| f]; [lia |].
  destruct (ST [] f p (fun x => x)) as (s1 & W1 & _ & R); [lia | exact W | exact PH |]. cbv zeta in R. rewrite R. eexists. split; [reflexivity |].
  intros k. cbn [pxref with_xref with_trailer]. rewrite <- (put_all_latest ((n, own_entry off g) :: _)). reflexivity.
Qed.

Lemma records_zero : forall a b t l e, records_text (a, b, 0) t l -> In e l -> x_gen e = 0.
Proof.
  intros a b t l e H. induction H as [| t e' r l T R IH]; intros J; [destruct J |]. destruct J as [<- | J]; [| apply IH; exact J].
  destruct T as [x y z Q]. assert (Z0 : zlen z = 0) by congruence. destruct z as [| c z]; [reflexivity |]. rewrite zlen_cons in Z0. pose proof (zlen_nonneg _ z). lia.
Qed.
Lemma numbered_In : forall (l : list xentry) s k e, In (k, e) (number_from s l) -> In e l.
Proof.
  induction l as [| x l IH]; intros s k e H; [destruct H |]. destruct H as [H | H]; [left; congruence | right; eapply IH; exact H].
Qed.
(** C60: a third width of 0 gives generation 0 *)
Theorem generation_default : forall a b ps data l whole k e, stream_lines (a, b, 0) ps data l whole -> In (k, e) l -> x_gen e = 0.
Proof.
  intros a b ps data l whole k e H. induction H as [data | st c ps t l data m wh R L SL IH | st c ps t l data R L B]; intros J; [destruct J | |].
  - apply in_app_or in J. destruct J as [J | J]; [eapply records_zero; [exact R | eapply numbered_In; exact J] | apply IH; exact J].
  - eapply records_zero; [exact R | eapply numbered_In; exact J].
Qed.
