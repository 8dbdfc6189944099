(** ScanP.v -- findXrefOffsets, findObjects, getStartXrefOffset: C22, C25, and
    Load's repair step: C23, C24. *)
From Verif Require Import Base BaseP Msg Reader ReaderP Num Lexer Obj ReadObj Env Getters GetObj Regex Xref Plain LexerP ReadObjP SpecLex SpecLexP SpecObj
  SpecNumP SpecObjP SpecRead ReadP RelP GetObjP SpecFetch FetchP SpecStream StreamObjP LookP SpecScan RegexP ChunkP CryptObjP.
From Coq Require Import Strings.String Sorting.Sorted.

(** ** Numbers at markers *)
Lemma sep_first : forall s, sep s -> exists b r, s = b :: r /\ is_digit b = false.
Proof.
  intros s H. induction H as [b W | c C | s t S (b & r & -> & D) T _].
  - exists b, []. split; [reflexivity |]. apply is_ws_spec in W. destruct b; try reflexivity; discriminate.
  - exists "%"%byte, c. split; reflexivity.
  - exists b, (r ++ t). split; [reflexivity | assumption].
Qed.
Lemma nd_decdigit : forall l, no_digit l <-> forall b r d, l = b :: r -> ~ decdigit b d.
Proof.
  intros [| b l]; split; cbn [no_digit]; try (intros; exact I); try discriminate.
  - intros H b' r' d Q D. injection Q as <- _. apply decdigit_spec in D. destruct D. congruence.
  - intros H. destruct (is_digit b) eqn:D; [| reflexivity]. exfalso. destruct (proj1 (digits_dec [b])) as (ds & DD); [intros c [<- | []]; assumption |].
    inversion DD as [| b' d t ds' Hd _]; subst. eapply H; [reflexivity | eassumption].
Qed.
Lemma number_at_p : forall file i n, number_at file i n -> p_int (zdrop i file) = ((wrap64 n, true), snd (p_int (zdrop i file))).
Proof.
  intros file i n (t & r & -> & T & N). assert (P : p_int (t ++ r) = ((wrap64 n, true), r)) by (apply (p_int_text [] t n r gap_nil T); apply nd_decdigit; assumption).
  rewrite P. reflexivity.
Qed.
Lemma number_at_det : forall file i n m, number_at file i n -> number_at file i m -> wrap64 n = wrap64 m.
Proof. intros file i n m A B. apply number_at_p in A. apply number_at_p in B. congruence. Qed.
Lemma marker_number : forall file i, starts obj_marker file i -> exists n, number_at file i n.
Proof.
  intros file i (_ & t & r & E & M). inversion M as [a n s b g s' A S B S']; subst. exists n, a, (s ++ b ++ s' ++ lit "obj" ++ r).
  split; [rewrite E, <- !app_assoc; reflexivity |]. split; [assumption |]. apply nd_decdigit.
  destruct (sep_first s S) as (c & q & -> & D). exact D.
Qed.
Lemma header_number : forall file s n, wf file s -> number_at file (pos s) n ->
  exists g ok s', read_object_header s = ((wrap64 n, g, ok), s').
Proof.
  intros file s n W H. apply number_at_p in H. rewrite <- (wf_rest _ _ W) in H. unfold read_object_header.
  destruct (read_int_sim file s _ _ _ (St_intro _ _ W)) as (s1 & R1 & _).
  { unfold p_int in H. destruct (p_ws (rest s)); [discriminate | discriminate]. }
  rewrite R1, H. cbn [fst snd]. destruct (read_int s1) as [[g [|]] s2]; [destruct (read_keyword s2) |]; eauto.
Qed.

Lemma sk_log : forall file i s, 0 <= i -> log (seek file i s) = log s.
Proof. intros file i s H. apply (sk_nonneg file i s H). Qed.

(** ** Looking up Type while there is no cross-reference table *)
Lemma no_xref_resolve : forall fuel E file n p, reads file p -> pxref p = [] -> (2 <= fuel)%nat ->
  exists p', Resolve fuel E file n p = Ok (new_iobj n, p') /\ reads file p' /\ pxref p' = [] /\ ptrailer p' = ptrailer p /\ psh p' = psh p /\ log (prd p') = log (prd p).
Proof.
  intros fuel E file n p W X L. destruct fuel as [| [| f]]; try lia. unfold Resolve, restoring, bind. cbn [resolve zmem existsb].
  unfold bind. cbn [get_object]. rewrite X. cbn [xget mget]. cbn. eexists. split; [reflexivity |].
  split; [apply sk_nonneg; apply W |]. repeat split; try assumption; try reflexivity. apply (sk_nonneg file (pos (prd p)) (prd p)). apply W.
Qed.
Definition plain_value (x : option obj) : obj * bool :=
  match x with Some (ORef _ _) => (KEYWORD_NULL, true) | Some o => (o, true) | None => (KEYWORD_NULL, false) end.
Lemma no_xref_name : forall fuel E file d k p, reads file p -> pxref p = [] -> (2 <= fuel)%nat ->
  exists p', d_name (Resolve fuel E file) d k p = Ok (as_name (plain_value (dget k d)), p') /\
    reads file p' /\ pxref p' = [] /\ ptrailer p' = ptrailer p /\ psh p' = psh p /\ log (prd p') = log (prd p).
Proof.
  intros fuel E file d k p W X L. unfold d_name, d_object, bind. destruct (dget k d) as [o |].
  - destruct o; try (exists p; split; [reflexivity | auto]). cbn [plain_value].
    destruct (no_xref_resolve fuel E file n p W X L) as (p' & -> & H). exists p'. split; [reflexivity | assumption].
  - exists p. split; [reflexivity | auto].
Qed.
Lemma xref_type : forall x, (let '(t, ok) := as_name (plain_value x) in ok && bseq t (lit "XRef")) = true <-> x = Some (OName (lit "XRef")).
Proof.
  intros x. split.
  - destruct x as [[]|]; try discriminate. cbn [plain_value as_name]. cbn [andb]. intros H. apply bseq_eq in H. subst. reflexivity.
  - intros ->. reflexivity.
Qed.

(** ** One marker *)
Lemma dict_ends : forall g1 t d r, gap g1 -> obj_text t (ODict d) -> ends_token (g1 ++ t ++ r).
Proof.
  intros g1 t d r G T. inversion T; subst. inversion G; subst; cbn [app]; right; eexists; eexists; (split; [reflexivity |]).
  - right. apply is_delim_spec. reflexivity.
  - left; auto.
  - right. apply is_delim_spec. reflexivity.
Qed.
Lemma consume_ws_pos : forall file s g b r, wf file s -> rest s = g ++ b :: r -> gap g -> beq b "%"%byte = false -> is_ws b = false ->
  pos (consume_ws s) = pos s + zlen g /\ rest (consume_ws s) = b :: r.
Proof.
  intros file s g b r W E G H1 H2. destruct (ws_sim _ _ _ _ _ (St_intro _ _ W)) as (_ & R & P & _).
  rewrite E, gap_ws_app in R, P by assumption. rewrite p_ws_id in R, P by assumption. split; [| assumption].
  rewrite zlen_app in P. lia.
Qed.

(** Reading the header and the dictionary at [i] gives no message. *)
Definition silent_at (file : bytes) (i : Z) : Prop :=
  exists h k g g1 r, zdrop i file = h ++ g1 ++ r /\ object_head h k g /\ gap g1 /\ ends_token (g1 ++ r) /\
    ((exists u v r', r = u ++ r' /\ obj_text u (ODict v) /\ zlen (h ++ g1) mod bufsize <> bufsize - 1) \/
     (exists b r', r = b :: r' /\ ~ ws_byte b /\ b <> "%"%byte /\ forall q, b :: r' <> "<"%byte :: "<"%byte :: q)).
Lemma one_marker : forall fuel E file i p, starts obj_marker file i -> reads file p -> pxref p = [] -> (2 <= fuel)%nat ->
  exists n g ok s1 d s2 t b p', read_object_header (seek file i (prd p)) = ((n, g, ok), s1) /\
    ReadDictionary file no_decryptor s1 = Ok (d, s2) /\
    d_name (Resolve fuel E file) d (lit "Type") (with_rd s2 p) = Ok ((t, b), p') /\
    reads file p' /\ pxref p' = [] /\ ptrailer p' = ptrailer p /\ psh p' = psh p /\ (silent_at file i -> log (prd p') = log (prd p)) /\
    marker_entry file i n {| x_off := i; x_gen := g; x_type := 1; x_enc := negb (b && bseq t (lit "XRef")); x_stm := b && bseq t (lit "XRef") |}.
Proof.
  intros fuel E file i p M W X L. assert (I0 : 0 <= i) by apply M. destruct (marker_number _ _ M) as (k & K).
  set (s := seek file i (prd p)). assert (Ws : wf file s) by (apply sk_nonneg; assumption).
  assert (Ps : pos s = i) by (unfold s, seek; destruct (i <? 0) eqn:Q; [apply Z.ltb_lt in Q; lia | reflexivity]).
  assert (Rs : rest s = zdrop i file) by (rewrite (wf_rest _ _ Ws), Ps; reflexivity).
  destruct (header_number file s k Ws) as (g & ok & s1 & H1); [rewrite Ps; assumption |].
  pose proof (read_object_header_keeps (chunked file i) (chunked_rb file i) (chunked_ub file i) s (chunked_seek file i (prd p) I0)) as C1.
  rewrite H1 in C1. cbn [snd] in C1. pose proof (proj1 C1) as W1.
  destruct (read_dictionary_returns file no_decryptor s1 W1 no_total) as (d & s2 & H2 & W2).
  destruct (no_xref_name fuel E file d (lit "Type") (with_rd s2 p)) as (p' & H3 & R3 & X3 & T3 & S3 & L3); [exact W2 | exact X | exact L |].
  pose proof (xref_type (dget (lit "Type") d)) as XT. destruct (as_name (plain_value (dget (lit "Type") d))) as [t b].
  exists (wrap64 k), g, ok, s1, d, s2, t, b, p'. split; [exact H1 |]. split; [exact H2 |]. split; [exact H3 |].
  split; [assumption |]. split; [assumption |]. split; [exact T3 |]. split; [exact S3 |].
  assert (HT : forall h k' g' r, zdrop i file = h ++ r -> object_head h k' g' -> ends_token r -> g = wrap64 g' /\ rest s1 = r /\ pos s1 = i + zlen h /\ log s1 = log s).
  { intros h k' g' r Eh H He. pose proof (St_intro _ _ Ws) as S. rewrite Rs, Eh in S.
    destruct (read_object_header_text _ _ _ _ _ _ _ _ H He S) as (s' & R & S'). rewrite H1 in R.
    assert (g = wrap64 g') by congruence. assert (s1 = s') by congruence. subst s'. destruct S' as (_ & R' & P' & L').
    split; [assumption |]. split; [assumption |]. split; [rewrite zlen_app in P'; lia | exact L']. }
  assert (Ls : log s = log (prd p)) by apply (sk_nonneg file i (prd p) I0).
  split.
  { intros (h & k' & g' & g1 & r & Eh & H & G1 & He & C). rewrite L3. cbn [prd with_rd]. destruct (HT h k' g' _ Eh H He) as (_ & R1 & P1 & LG). rewrite <- Ls, <- LG.
    destruct C as [(u & v & r' & -> & U & B) | (b0 & r' & -> & N1 & N2 & N3)].
    - destruct (obj_text_dict _ _ U) as (u' & EU).
      destruct (consume_ws_pos file s1 g1 "<"%byte ("<"%byte :: u' ++ r') W1) as (P2 & R2); [rewrite R1, EU; reflexivity | assumption | reflexivity | reflexivity |].
      destruct (read_dictionary_text file s1 g1 u v r' W1 G1 U R1) as (s3 & R3' & M3).
      { apply (chunked_buf file i (consume_ws s1) _ _ _ (consume_ws_keeps (chunked file i) (chunked_rb file i) (chunked_ub file i) s1 C1) R2).
        rewrite P2, P1. replace (i + zlen h + zlen g1 - i) with (zlen (h ++ g1)) by (rewrite zlen_app; lia). exact B. }
      assert (s3 = s2) by congruence. subst s3. destruct M3 as (_ & _ & _ & M3). rewrite M3, app_nil_r. reflexivity.
    - destruct (ReadDictionary_cases file no_decryptor s1 W1 no_decent) as [(r2 & PR & _) | (_ & s3 & R3' & _ & M3)].
      + exfalso. rewrite R1, gap_ws_app in PR by assumption. rewrite p_ws_id in PR; [eapply N3; exact PR | apply beq_neq; assumption | apply is_ws_false; assumption].
      + assert (s3 = s2) by congruence. subst s3. exact M3. }
  split; cbn [x_off x_gen x_type x_enc x_stm].
  - exists k. auto.
  - reflexivity.
  - reflexivity.
  - reflexivity.
  - intros h k' g' r Eh H He. apply (HT h k' g' r Eh H He).
  - intros h k' g' g1 u v r Eh H G1 U B. destruct (HT h k' g' _ Eh H (dict_ends _ _ _ _ G1 U)) as (_ & R1 & P1 & _).
    destruct (obj_text_dict _ _ U) as (u' & EU).
    destruct (consume_ws_pos file s1 g1 "<"%byte ("<"%byte :: u' ++ r) W1) as (P2 & R2); [rewrite R1, EU; reflexivity | assumption | reflexivity | reflexivity |].
    destruct (read_dictionary_text file s1 g1 u v r W1 G1 U R1) as (s3 & R3' & _).
    { apply (chunked_buf file i (consume_ws s1) _ _ _ (consume_ws_keeps (chunked file i) (chunked_rb file i) (chunked_ub file i) s1 C1) R2).
      rewrite P2, P1. replace (i + zlen h + zlen g1 - i) with (zlen (h ++ g1)) by (rewrite zlen_app; lia). exact B. }
    assert (d = v) by congruence. subst v. rewrite <- dget_entry. exact XT.
  - intros h k' g' g1 c r Eh H G1 He N1 N2 N3. destruct (HT h k' g' _ Eh H He) as (_ & R1 & P1 & _).
    destruct (ReadDictionary_cases file no_decryptor s1 W1 no_decent) as [(r' & PR & _) | (_ & s3 & R3' & _)].
    + exfalso. rewrite R1, gap_ws_app in PR by assumption. rewrite p_ws_id in PR; [eapply N3; exact PR | apply beq_neq; assumption | apply is_ws_false; assumption].
    + assert (d = []) by congruence. subst d. destruct (b && bseq t (lit "XRef")) eqn:Q; [| reflexivity]. assert (Z1 := proj1 XT eq_refl). discriminate.
Qed.

(** ** The loop *)
Lemma marker_len : forall t, obj_marker t -> 0 < zlen t.
Proof. intros t H. inversion H as [a n s b g s' A S B S']; subst. destruct (nat_text_cons _ _ A) as (x & d & r & ds & -> & _). rewrite !zlen_app, zlen_cons. pose proof (zlen_nonneg _ r). pose proof (zlen_nonneg _ s). pose proof (zlen_nonneg _ b). pose proof (zlen_nonneg _ s'). pose proof (zlen_nonneg _ (lit "obj")). lia. Qed.
Definition put_all (l : list (Z * xentry)) (m : xmap) : xmap := fold_left (fun m ne => xset (fst ne) (snd ne) m) l m.

Lemma find_objects_loop_spec : forall fuel E file, (2 <= fuel)%nat -> forall k off objs p, (zlen file - off < Z.of_nat k) -> 0 <= off <= zlen file ->
  reads file p -> pxref p = [] ->
  exists l es p', find_objects_loop k fuel E file off objs p = Ok (put_all es objs, p') /\ scan obj_marker file off l /\
    Forall2 (fun ij ne => marker_entry file (fst ij) (fst ne) (snd ne)) l es /\ reads file p' /\ pxref p' = [] /\ ptrailer p' = ptrailer p /\ psh p' = psh p /\
    ((forall i, In i (map fst l) -> silent_at file i) -> log (prd p') = log (prd p)).
Proof.
  intros fuel E file F. induction k as [| k IH]; intros off objs p B O W X; [lia |]. cbn [find_objects_loop].
  destruct (rfind start_obj_regexp (zdrop off file) 0) as [[a b] |] eqn:Q.
  - destruct (rfind_spans _ _ _ _ _ O Q) as (A0 & SP & N). apply (spans_iff _ _ _ _ _ lang_marker) in SP.
    pose proof (starts_spans _ _ _ _ SP) as ST. pose proof (spans_bound _ _ _ _ SP) as SB.
    assert (LT : off + a < off + b). { destruct SP as (_ & t & r & _ & M & J). pose proof (marker_len t M). lia. }
    destruct (one_marker fuel E file (off + a) p ST W X F) as (n & g & ok & s1 & d & s2 & t & bt & p1 & H1 & H2 & H3 & R3 & X3 & T3 & S3 & L3 & ME).
    set (p2 := with_rd (seek file (off + b) (prd p1)) p1).
    assert (W2 : reads file p2) by (apply sk_nonneg; lia).
    destruct (IH (off + b) (xset n {| x_off := off + a; x_gen := g; x_type := 1; x_enc := negb (bt && bseq t (lit "XRef")); x_stm := bt && bseq t (lit "XRef") |} objs) p2)
      as (l & es & p' & R & SC & FA & Wp & Xp & Tp & Sp & Lp); [lia | lia | exact W2 | exact X3 |].
    exists ((off + a, off + b) :: l), ((n, {| x_off := off + a; x_gen := g; x_type := 1; x_enc := negb (bt && bseq t (lit "XRef")); x_stm := bt && bseq t (lit "XRef") |}) :: es), p'.
    split; [| split; [| split; [| split; [assumption | split; [assumption | split; [rewrite Tp; exact T3 | split; [rewrite Sp; exact S3 |]]]]]]].
    + unfold bind at 1. unfold pseek at 1. unfold bind at 1. unfold onrd at 1. cbn [prd with_rd]. rewrite H1.
      unfold bind at 1. unfold onrdr at 1. cbn [prd with_rd]. rewrite H2. unfold bind at 1.
      change (with_rd s2 (with_rd s1 (with_rd (seek file (off + a) (prd p)) p))) with (with_rd s2 p). rewrite H3.
      unfold bind at 1. unfold pseek at 1. fold p2.
      etransitivity; [| exact R]. destruct (bt && bseq t (lit "XRef")); reflexivity.
    + apply scan_next; [lia | assumption | | assumption]. intros i' Bi H. apply (N i' Bi). revert H. apply starts_iff. intros u. symmetry. apply lang_marker.
    + apply Forall2_cons; [exact ME | assumption].
    + intros SA. rewrite Lp by (intros i I; apply SA; right; exact I). unfold p2. cbn [prd with_rd]. rewrite (sk_log file (off + b) (prd p1)) by lia. apply L3, SA. left. reflexivity.
  - exists [], [], p. split; [reflexivity |]. split; [| split; [apply Forall2_nil | auto]]. apply scan_end.
    intros i Bi H. apply (rfind_nothing _ _ _ O Q i Bi). revert H. apply starts_iff. intros u. symmetry. apply lang_marker.
Qed.

Lemma put_all_get : forall l m n, xget n (put_all l m) = xget n m /\ ~ In n (map fst l) \/
  exists l1 e l2, l = l1 ++ (n, e) :: l2 /\ xget n (put_all l m) = Some e /\ ~ In n (map fst l2).
Proof.
  induction l as [| [k e] l IH]; intros m n; [left; split; [reflexivity | intros []] |]. cbn [put_all fold_left fst snd]. fold (put_all l (xset k e m)).
  destruct (IH (xset k e m) n) as [[G N] | (l1 & e1 & l2 & -> & G & N)].
  - destruct (Z.eq_dec n k) as [-> | D].
    + right. exists [], e, l. split; [reflexivity |]. split; [rewrite G; apply xget_xset | assumption].
    + left. split; [rewrite G; apply mget_mset_other; [apply Zeqb_ok | assumption] |]. intros [Q | I]; [cbn in Q; congruence | contradiction].
  - right. exists ((k, e) :: l1), e1, l2. auto.
Qed.

Lemma put_all_nodup : forall l m, NoDup (map fst m) -> NoDup (map fst (put_all l m)).
Proof.
  induction l as [| [k e] l IH]; intros m N; [assumption |]. cbn [put_all fold_left fst snd]. apply IH. apply mset_nodup; [apply Zeqb_ok | assumption].
Qed.

Lemma scan_starts : forall P file off l i j, scan P file off l -> In (i, j) l -> starts P file i /\ off <= i.
Proof.
  intros P file off l i j H. induction H as [| off i' j' l B S N H IH]; intros I; [destruct I |]. destruct I as [I | I].
  - assert (i' = i) by congruence. subst. split; [eapply starts_spans; eassumption | assumption].
  - destruct (IH I) as [A B']. split; [assumption |]. pose proof (spans_bound _ _ _ _ S). lia.
Qed.

Lemma records_all : forall file l es, Forall2 (fun ij ne => marker_entry file (fst ij) (fst ne) (snd ne)) l es -> records file l (put_all es []).
Proof.
  intros file l es F n. 
  assert (K : forall (l : list (Z * Z)) es, Forall2 (fun ij ne => marker_entry file (fst ij) (fst ne) (snd ne)) l es -> ~ In n (map fst es) ->
     forall i j k, In (i, j) l -> number_at file i k -> wrap64 k <> n).
  { clear. intros l es F. induction F as [| [i j] [m e] l es ME F IH]; intros N i' j' k I A; [destruct I |]. cbn [map fst In] in N. destruct I as [I | I].
    - assert (i' = i) by congruence. subst. intros Q. apply N. left. destruct (me_num _ _ _ _ ME) as (k' & A' & Q'). cbn [fst] in *. rewrite Q', <- Q. eapply number_at_det; eassumption.
    - eapply IH; [tauto | eassumption | assumption]. }
  destruct (put_all_get es [] n) as [[G N] | (l1 & e & l2 & -> & G & N)]; rewrite G.
  - cbn. intros i j k. eapply K; eassumption.
  - apply Forall2_app_inv_r in F. destruct F as (a & b & F1 & F2 & ->). inversion F2 as [| [i j] y b' es' ME F3]; subst.
    exists a, i, j, b'. split; [reflexivity |]. split; [exact ME |]. intros i' j' k. eapply K; eassumption.
Qed.

Theorem find_objects_records : forall E file p fuel, reads file p -> pxref p = [] -> (2 <= fuel)%nat ->
  exists l objs p', find_objects fuel E file p = Ok (objs, p') /\ scan obj_marker file 0 l /\ records file l objs /\
    reads file p' /\ pxref p' = [] /\ ptrailer p' = ptrailer p /\ psh p' = psh p /\ NoDup (map fst objs).
Proof.
  intros E file p fuel W X F. unfold find_objects, bind, pseek. pose proof (zlen_nonneg _ file).
  destruct (find_objects_loop_spec fuel E file F (S (List.length file)) 0 [] (with_rd (seek file 0 (prd p)) p)) as (l & es & p' & R & SC & FA & W' & X' & T' & S' & L');
    [unfold zlen in *; lia | lia | apply sk_nonneg; lia | exact X |].
  exists l, (put_all es []), p'. split; [exact R |]. split; [assumption |]. split; [apply records_all; assumption |].
  split; [assumption |]. split; [assumption |]. split; [exact T' |]. split; [exact S' |]. apply put_all_nodup. apply NoDup_nil.
Qed.

(** ... without a message if there is none at the markers *)
Lemma find_objects_silent : forall E file p fuel objs p', reads file p -> pxref p = [] -> (2 <= fuel)%nat -> find_objects fuel E file p = Ok (objs, p') ->
  exists l, scan obj_marker file 0 l /\ ((forall i, In i (map fst l) -> silent_at file i) -> log (prd p') = log (prd p)).
Proof.
  intros E file p fuel objs p' W X F H. unfold find_objects, bind, pseek in H. pose proof (zlen_nonneg _ file).
  destruct (find_objects_loop_spec fuel E file F (S (List.length file)) 0 [] (with_rd (seek file 0 (prd p)) p)) as (l & es & p2 & R & SC & FA & W' & X' & T' & S' & L');
    [unfold zlen in *; lia | lia | apply sk_nonneg; lia | exact X |].
  assert (Q : p2 = p') by congruence. subst p2. exists l. split; [exact SC |]. intros SA. rewrite (L' SA). apply (sk_log file 0 (prd p)). lia.
Qed.

(** ** Every marker is found, or lies inside one that is *)
Lemma scan_covers : forall (P : bytes -> Prop) file off l, (forall t, P t -> 0 < zlen t) -> scan P file off l -> forall i, off <= i -> starts P file i ->
  exists i' j, In (i', j) l /\ spans P file i' j /\ i' <= i < j.
Proof.
  intros P file off l PL H. induction H as [off N | off i' j l B S N H IH]; intros i Bi ST.
  - exfalso. eapply N; eassumption.
  - destruct (Z.lt_ge_cases i i') as [L | L]; [exfalso; apply (N i); [lia | assumption] |].
    destruct (Z.lt_ge_cases i j) as [L' | L'].
    + exists i', j. split; [left; reflexivity |]. split; [assumption | lia].
    + destruct (IH i L' ST) as (a & b & I & R). exists a, b. split; [right; assumption | assumption].
Qed.

Lemma sep_all_ws : forall s, sep s -> ~ In "%"%byte s -> forall b, In b s -> ws_byte b.
Proof.
  intros s H. induction H as [b W | c C | s t S IS T IT]; intros N b' I.
  - destruct I as [<- | []]. assumption.
  - exfalso. apply N. left; reflexivity.
  - apply in_app_or in I. destruct I as [I | I]; [apply IS | apply IT]; auto; intros X; apply N; apply in_or_app; auto.
Qed.
Lemma sep_before_obj : forall s, sep s -> forall w x y, (forall b, In b w -> ws_byte b) -> w ++ "o"%byte :: x = s ++ y ->
  exists w', (forall b, In b w' -> ws_byte b) /\ y = w' ++ "o"%byte :: x.
Proof.
  intros s H. induction H as [b W | c C | s t S IS T IT]; intros w x y A E.
  - destruct w as [| c w]; cbn [app] in E.
    + assert (b = "o"%byte) by congruence. subst b. apply is_ws_spec in W. discriminate.
    + exists w. split; [intros b' I; apply A; right; assumption | congruence].
  - exfalso. destruct w as [| b w]; cbn [app] in E; [discriminate |]. assert (b = "%"%byte) by congruence. subst b.
    assert (X := A "%"%byte (or_introl eq_refl)). apply is_ws_spec in X. discriminate.
  - rewrite <- app_assoc in E. destruct (IS w x (t ++ y) A E) as (w' & A' & E'). symmetry in E'. exact (IT w' x y A' E').
Qed.
Lemma digits_split_det : forall a b x y, (forall c, In c a -> is_digit c = true) -> (forall c, In c b -> is_digit c = true) ->
  no_digit x -> no_digit y -> a ++ x = b ++ y -> a = b /\ x = y.
Proof.
  induction a as [| c a IH]; intros [| d b] x y A B X Y E; cbn [app] in E; subst.
  - auto.
  - exfalso. cbn in X. rewrite (B d (or_introl eq_refl)) in X. discriminate.
  - exfalso. cbn in Y. rewrite (A c (or_introl eq_refl)) in Y. discriminate.
  - assert (c = d) by congruence. subst d. destruct (IH b x y) as [-> ->]; auto; try congruence; intros e I; [apply A | apply B]; right; assumption.
Qed.
Lemma sep_nd : forall s l, sep s -> no_digit (s ++ l).
Proof. intros s l S. destruct (sep_first s S) as (b & r & -> & D). exact D. Qed.
Lemma skipn_cons : forall A (l : list A) k x r, skipn k l = x :: r -> nth_error l k = Some x.
Proof. intros A l. induction l as [| y l IH]; intros [| k] x r H; cbn in *; try discriminate; [congruence | eauto]. Qed.

Lemma ws_not_digit : forall b, ws_byte b -> is_digit b = true -> False.
Proof. intros b W D. apply is_ws_spec in W. destruct b; discriminate. Qed.
Lemma marker_inside : forall t r k t2 r2, obj_marker t -> obj_marker t2 -> (k < List.length t)%nat -> skipn k (t ++ r) = t2 ++ r2 ->
  (forall b, In b (firstn k t) -> is_digit b = true) \/ In "%"%byte t.
Proof.
  intros t r k t2 r2 M M2 L E. destruct (in_dec Byte.byte_eq_dec "%"%byte t) as [Y | N]; [right; assumption |]. left.
  inversion M as [a n s b g s' A S B S']; subst t. inversion M2 as [a2 n2 s2 b2 g2 s2' A2 S2 B2 S2']; subst t2.
  destruct (nat_text_cons _ _ A2) as (x & dx & rx' & dsx & EA2 & DX & _).
  assert (DX' : is_digit x = true) by (apply decdigit_spec in DX; tauto).
  assert (NTH : nth_error ((a ++ s ++ b ++ s' ++ lit "obj") ++ r) k = Some x) by (eapply skipn_cons; rewrite E, EA2; reflexivity).
  rewrite nth_error_app1 in NTH by assumption.
  assert (N1 : ~ In "%"%byte s) by (intros X; apply N; apply in_or_app; right; apply in_or_app; left; assumption).
  assert (N2 : ~ In "%"%byte s') by (intros X; apply N; apply in_or_app; right; apply in_or_app; right; apply in_or_app; right; apply in_or_app; left; assumption).
  destruct (Nat.le_gt_cases (List.length a) k) as [K1 | K1].
  2:{ intros c I. rewrite firstn_app in I. replace (k - List.length a)%nat with 0%nat in I by lia. rewrite firstn_O, app_nil_r in I.
      eapply nat_text_digits; [exact A |]. rewrite <- (firstn_skipn k a). apply in_or_app. left; assumption. }
  exfalso. rewrite nth_error_app2 in NTH by assumption. set (k1 := (k - List.length a)%nat) in *.
  destruct (Nat.le_gt_cases (List.length s) k1) as [K2 | K2].
  2:{ rewrite nth_error_app1 in NTH by assumption. apply nth_error_In in NTH. eapply ws_not_digit; [apply (sep_all_ws s S N1 x NTH) | assumption]. }
  rewrite nth_error_app2 in NTH by assumption. set (k2 := (k1 - List.length s)%nat) in *.
  destruct (Nat.le_gt_cases (List.length b) k2) as [K3 | K3].
  2:{ assert (SK : skipn k ((a ++ s ++ b ++ s' ++ lit "obj") ++ r) = skipn k2 b ++ s' ++ lit "obj" ++ r).
      { rewrite <- !app_assoc. rewrite skipn_app, (skipn_all2 a) by assumption. cbn [app]. fold k1. rewrite skipn_app, (skipn_all2 s) by assumption. cbn [app]. fold k2.
        rewrite skipn_app. replace (k2 - List.length b)%nat with 0%nat by lia. reflexivity. }
      rewrite SK, <- !app_assoc in E.
      apply digits_split_det in E.
      - destruct E as [_ E]. change (s' ++ lit "obj" ++ r) with (s' ++ "o"%byte :: lit "bj" ++ r) in E.
        destruct (sep_before_obj s2 S2 _ _ _ (sep_all_ws s' S' N2) E) as (w & WA & EW).
        destruct (nat_text_cons _ _ B2) as (y & dy & ry & dsy & EB2 & DY & _). rewrite EB2 in EW. apply decdigit_spec in DY. destruct DY as [DY _].
        destruct w as [| c w]; cbn [app] in EW.
        + assert (y = "o"%byte) by congruence. subst y. discriminate.
        + assert (y = c) by congruence. subst y. eapply ws_not_digit; [apply WA; left; reflexivity | assumption].
      - intros c I. eapply nat_text_digits; [exact B |]. rewrite <- (firstn_skipn k2 b). apply in_or_app. right; assumption.
      - intros c I. eapply nat_text_digits; [exact A2 | exact I].
      - apply sep_nd. assumption.
      - apply sep_nd. assumption. }
  rewrite nth_error_app2 in NTH by assumption. set (k3 := (k2 - List.length b)%nat) in *.
  destruct (Nat.le_gt_cases (List.length s') k3) as [K4 | K4].
  2:{ rewrite nth_error_app1 in NTH by assumption. apply nth_error_In in NTH. eapply ws_not_digit; [apply (sep_all_ws s' S' N2 x NTH) | assumption]. }
  rewrite nth_error_app2 in NTH by assumption. apply nth_error_In in NTH. cbn in NTH. destruct NTH as [<- | [<- | [<- | []]]]; discriminate.
Qed.

Theorem scan_complete : forall file l i, scan obj_marker file 0 l -> starts obj_marker file i ->
  exists i' j, In (i', j) l /\ i' <= i < j /\
    ((forall m, i' <= m < i -> exists b r d, zdrop m file = b :: r /\ decdigit b d) \/
     exists m r, i' <= m < j /\ zdrop m file = "%"%byte :: r).
Proof.
  intros file l i SC ST. destruct (scan_covers _ _ _ _ marker_len SC i (proj1 (proj1 ST)) ST) as (i' & j & I & SP & B).
  exists i', j. split; [assumption |]. split; [assumption |].
  destruct SP as (O & t & r & E & M & ->). destruct ST as (O2 & t2 & r2 & E2 & M2).
  assert (ND : forall k, (k < List.length t)%nat -> exists b q, zdrop (i' + Z.of_nat k) file = b :: q /\ nth_error t k = Some b).
  { intros k L. rewrite <- zdrop_zdrop by lia. rewrite E, zdrop_nat. rewrite skipn_app. replace (k - List.length t)%nat with 0%nat by lia.
    destruct (skipn k t) as [| b q] eqn:Q.
    - apply (f_equal (@List.length byte)) in Q. rewrite skipn_length in Q. cbn in Q. lia.
    - exists b. eexists. split; [reflexivity |]. eapply skipn_cons. eassumption. }
  assert (LK : (Z.to_nat (i - i') < List.length t)%nat) by (unfold zlen in B; lia).
  destruct (marker_inside t r (Z.to_nat (i - i')) t2 r2 M M2 LK) as [D | P].
  - rewrite <- E, <- E2. rewrite <- zdrop_nat, zdrop_zdrop by lia. f_equal. lia.
  - left. intros m Bm. destruct (ND (Z.to_nat (m - i'))) as (b & q & Q & NT); [lia |]. rewrite Z2Nat.id in Q by lia. replace (i' + (m - i')) with m in Q by lia.
    destruct (proj1 (digits_dec [b])) as (ds & DD).
    { intros c [<- | []]. apply D. rewrite <- (firstn_skipn (Z.to_nat (i - i')) t) in NT. rewrite nth_error_app1 in NT; [eapply nth_error_In; eassumption |].
      rewrite firstn_length. lia. }
    inversion DD as [| b' d u ds' Hd _]; subst. exists b, q, d. auto.
  - right. apply In_nth_error in P. destruct P as (k & P). assert (L : (k < List.length t)%nat) by (apply nth_error_Some; congruence).
    destruct (ND k L) as (b & q & Q & NT). assert (b = "%"%byte) by congruence. subst b. exists (i' + Z.of_nat k), q. split; [unfold zlen; lia | assumption].
Qed.

(** ** findXrefOffsets *)
Definition xref_text (t : bytes) : Prop := t = lit "xref".
Lemma xref_lang : forall t, lang xref_regexp t <-> xref_text t.
Proof. intros t. apply lang_lit. Qed.
Lemma find_xref_loop_scan : forall file k off, zlen file - off < Z.of_nat k -> 0 <= off <= zlen file ->
  exists l, scan xref_text file off l /\ find_xref_loop k file off = map fst l.
Proof.
  intros file. induction k as [| k IH]; intros off B O; [lia |]. cbn [find_xref_loop].
  destruct (rfind xref_regexp (zdrop off file) 0) as [[a b] |] eqn:Q.
  - destruct (rfind_spans _ _ _ _ _ O Q) as (A0 & SP & N). apply (spans_iff _ _ _ _ _ xref_lang) in SP.
    pose proof (spans_bound _ _ _ _ SP) as SB.
    assert (LT : off + a < off + b). { destruct SP as (_ & t & r & _ & M & J). unfold xref_text in M. subst t. cbn in J. lia. }
    destruct (IH (off + b)) as (l & SC & R); [lia | lia |]. exists ((off + a, off + b) :: l). split.
    + apply scan_next; [lia | assumption | | assumption]. intros i' Bi H. apply (N i' Bi). revert H. apply starts_iff. intros u. symmetry. apply xref_lang.
    + cbn [map fst]. rewrite R. reflexivity.
  - exists []. split; [| reflexivity]. apply scan_end.
    intros i Bi H. apply (rfind_nothing _ _ _ O Q i Bi). revert H. apply starts_iff. intros u. symmetry. apply xref_lang.
Qed.
Lemma scan_sorted : forall (P : bytes -> Prop) file off l, (forall t, P t -> 0 < zlen t) -> scan P file off l ->
  StronglySorted Z.lt (map fst l) /\ forall i, In i (map fst l) -> off <= i.
Proof.
  intros P file off l PL H. induction H as [off N | off i j l B S N H [IS IB]]; [split; [apply SSorted_nil | intros i []] |].
  assert (LT : i < j). { destruct S as (_ & t & r & _ & M & ->). pose proof (PL t M). lia. }
  cbn [map fst]. split.
  - apply SSorted_cons; [assumption |]. apply Forall_forall. intros x Hx. specialize (IB x Hx). lia.
  - intros x [<- | Hx]; [assumption |]. specialize (IB x Hx). lia.
Qed.
Theorem xref_positions : forall file, StronglySorted Z.lt (find_xref_offsets file) /\
  forall i, In i (find_xref_offsets file) <-> starts (fun t => t = lit "xref") file i.
Proof.
  intros file. unfold find_xref_offsets. pose proof (zlen_nonneg _ file).
  destruct (find_xref_loop_scan file (S (List.length file)) 0) as (l & SC & R); [unfold zlen in *; lia | lia |]. rewrite R.
  assert (PL : forall t, xref_text t -> 0 < zlen t) by (intros t ->; reflexivity).
  split; [exact (proj1 (scan_sorted _ _ _ _ PL SC)) |]. intros i. split.
  - intros I. apply in_map_iff in I. destruct I as ([i' j] & Q & I). cbn in Q. subst i'. exact (proj1 (scan_starts _ _ _ _ _ _ SC I)).
  - intros ST. destruct (scan_covers _ _ _ _ PL SC i (proj1 (proj1 ST)) ST) as (i' & j & I & SP & B).
    destruct (Z.eq_dec i' i) as [-> | D]; [apply in_map_iff; exists (i, j); auto |]. exfalso.
    destruct SP as (O & t & r & E & T & ->). unfold xref_text in T. subst t. change (zlen (lit "xref")) with 4 in B.
    destruct ST as (_ & t2 & r2 & E2 & ->).
    assert (E3 : skipn (Z.to_nat (i - i')) (lit "xref" ++ r) = lit "xref" ++ r2).
    { rewrite <- E, <- E2. rewrite <- zdrop_nat, zdrop_zdrop by lia. f_equal. lia. }
    assert (C : Z.to_nat (i - i') = 1%nat \/ Z.to_nat (i - i') = 2%nat \/ Z.to_nat (i - i') = 3%nat) by lia.
    destruct C as [C | [C | C]]; rewrite C in E3; discriminate.
Qed.

(** ** getStartXrefOffset *)
Inductive start_parts : bytes -> bytes -> Z -> Prop :=
| sp_intro : forall w1 d n w2, (forall b, In b w1 -> re_ws b) -> nat_text d n -> (forall b, In b w2 -> re_ws b) ->
    start_parts (lit "startxref" ++ w1 ++ d ++ w2 ++ lit "%%EOF") d n.
Lemma start_text_parts : forall m n, start_text m n <-> exists d, start_parts m d n.
Proof.
  intros m n. split.
  - intros H. inversion H as [w1 d n' w2 A D B]; subst. exists d. apply sp_intro; assumption.
  - intros (d & H). inversion H as [w1 d' n' w2 A D B]; subst. apply st_intro; assumption.
Qed.
Lemma re_space_ws : forall b, re_space b = true <-> re_ws b.
Proof. intros b. unfold re_space, re_ws, inb. rewrite existsb_exists. split.
  - intros (x & I & Q). apply beq_eq in Q. subst. assumption.
  - intros I. exists b. split; [assumption | apply beq_refl].
Qed.
Lemma lang_spaces : forall t, lang (RStar (RSet re_space)) t <-> forall b, In b t -> re_ws b.
Proof.
  intros t. rewrite star_set. split; intros H b I; apply re_space_ws; auto.
Qed.
Lemma lang_seq : forall a b t, lang (RSeq a b) t <-> exists s u, t = s ++ u /\ lang a s /\ lang b u.
Proof.
  intros a b t. split.
  - intros H. inversion H as [| a' b' s u L1 L2 | | | |]; subst. eauto.
  - intros (s & u & -> & L1 & L2). apply l_seq; assumption.
Qed.
Lemma match_startxref_some : forall s ds s', match_startxref s = Some (ds, s') -> exists m n, s = m ++ s' /\ start_parts m ds n.
Proof.
  intros s ds s' H. unfold match_startxref in H.
  destruct (rmatch_sound _ _ _ _ _ H) as (t1 & s1 & -> & L1 & H1). cbv beta in H1.
  destruct (rmatch_sound _ _ _ _ _ H1) as (t2 & s2 & -> & L2 & H2). cbv beta in H2.
  destruct (rmatch_sound _ _ _ _ _ H2) as (t3 & s3 & -> & L3 & H3). cbv beta in H3.
  rewrite app_length, Nat.add_sub in H3. rewrite firstn_app, Nat.sub_diag, firstn_all, firstn_O, app_nil_r in H3.
  injection H3 as <- <-. unfold re_pre, re_post in *. rewrite lang_seq in L1, L3. destruct L1 as (a & w1 & -> & La & Lw1). destruct L3 as (w2 & e & -> & Lw2 & Le).
  apply lang_lit in La, Le. subst a e. pose proof (proj1 (lang_spaces _) Lw1) as Hw1. pose proof (proj1 (lang_spaces _) Lw2) as Hw2. apply lang_digits in L2. destruct L2 as (n & D).
  exists (lit "startxref" ++ w1 ++ t2 ++ w2 ++ lit "%%EOF"), n. split; [rewrite <- !app_assoc; reflexivity |]. apply sp_intro; assumption.
Qed.
Lemma match_startxref_none : forall s, match_startxref s = None -> forall m n r, s = m ++ r -> ~ start_text m n.
Proof.
  intros s H m n r -> T. inversion T as [w1 d n' w2 A D B]; subst. unfold match_startxref in H. revert H.
  replace ((lit "startxref" ++ w1 ++ d ++ w2 ++ lit "%%EOF") ++ r) with ((lit "startxref" ++ w1) ++ d ++ (w2 ++ lit "%%EOF") ++ r) by (rewrite <- !app_assoc; reflexivity).
  apply rmatch_complete; [apply lang_seq; exists (lit "startxref"), w1; split; [reflexivity | split; [apply lang_lit; reflexivity | apply lang_spaces; assumption]] |].
  apply rmatch_complete; [apply lang_digits; eauto |].
  apply rmatch_complete; [apply lang_seq; exists w2, (lit "%%EOF"); split; [reflexivity | split; [apply lang_spaces; assumption | apply lang_lit; reflexivity]] |].
  discriminate.
Qed.

(** 's' is found at the start only *)
Lemma start_s : forall m d n k, start_parts m d n -> nth_error m k = Some "s"%byte -> k = 0%nat.
Proof.
  intros m d n k H N. inversion H as [w1 d' n' w2 A D B]; subst. destruct k as [| k]; [reflexivity | exfalso].
  change (lit "startxref" ++ w1 ++ d ++ w2 ++ lit "%%EOF") with ("s"%byte :: lit "tartxref" ++ w1 ++ d ++ w2 ++ lit "%%EOF") in N.
  cbn [nth_error] in N. apply nth_error_In in N. apply in_app_or in N. destruct N as [N | N].
  { cbn in N. repeat (destruct N as [N | N]; [discriminate |]). destruct N. }
  apply in_app_or in N. destruct N as [N | N].
  { apply A, re_space_ws in N. discriminate. }
  apply in_app_or in N. destruct N as [N | N].
  { eapply nat_text_digits in N; [| exact D]. discriminate. }
  apply in_app_or in N. destruct N as [N | N].
  { apply B, re_space_ws in N. discriminate. }
  cbn in N. repeat (destruct N as [N | N]; [discriminate |]). destruct N.
Qed.
Lemma start_first : forall m d n r, start_parts m d n -> nth_error (m ++ r) 0 = Some "s"%byte /\ (0 < List.length m)%nat.
Proof. intros m d n r H. inversion H; subst. split; [reflexivity | cbn; lia]. Qed.
Lemma nth_error_mid : forall A (a m b : list A), nth_error (a ++ m ++ b) (List.length a) = nth_error (m ++ b) 0.
Proof. intros. rewrite nth_error_app2 by lia. rewrite Nat.sub_diag. reflexivity. Qed.

Definition occ (s a : bytes) (d : bytes) (n : Z) : Prop := exists m b, s = a ++ m ++ b /\ start_parts m d n.
Lemma app_long : forall A (m s a q : list A), m ++ s = a ++ q -> (List.length m <= List.length a)%nat -> exists a', a = m ++ a' /\ s = a' ++ q.
Proof.
  intros A m. induction m as [| x m IH]; intros s a q E L; [exists a; auto |]. destruct a as [| y a]; [cbn in L; lia |]. cbn [app] in E.
  assert (x = y) by congruence. subst y. destruct (IH s a q) as (a' & -> & ->); [congruence | cbn in L; lia |]. exists a'. auto.
Qed.
Lemma find_all_last : forall k s, (List.length s < k)%nat ->
  (find_all_startxref k s = [] /\ forall a d n, ~ occ s a d n) \/
  exists l d a n, find_all_startxref k s = l ++ [d] /\ occ s a d n /\ forall a' d' n', occ s a' d' n' -> (List.length a' <= List.length a)%nat.
Proof.
  induction k as [| k IH]; intros s L; [lia |]. cbn [find_all_startxref]. destruct (match_startxref s) as [[d s'] |] eqn:Q.
  - destruct (match_startxref_some _ _ _ Q) as (m & n & -> & SP). right.
    destruct (start_first m d n s' SP) as [_ LM]. rewrite app_length in L.
    assert (IN : forall a d' n', occ (m ++ s') a d' n' -> (List.length a < List.length m)%nat -> List.length a = 0%nat).
    { intros a d' n' (m' & b & E & SP') LA. apply (start_s m d n _ SP).
      rewrite <- (proj1 (start_first m' d' n' b SP')), <- (nth_error_mid _ a m' b), <- E. rewrite nth_error_app1 by assumption. reflexivity. }
    assert (OUT : forall a d' n', occ (m ++ s') a d' n' -> (List.length m <= List.length a)%nat -> exists a', a = m ++ a' /\ occ s' a' d' n').
    { intros a d' n' (m' & b & E & SP') LA. destruct (app_long _ _ _ _ _ E LA) as (a' & -> & ->). exists a'. split; [reflexivity |]. exists m', b. auto. }
    destruct (IH s') as [[-> N] | (l & d1 & a1 & n1 & -> & O1 & M1)]; [lia | |].
    + exists [], d, [], n. split; [reflexivity |]. split; [exists m, s'; auto |]. intros a' d' n' O'. cbn [List.length].
      destruct (Nat.le_gt_cases (List.length m) (List.length a')) as [LA | LA]; [| rewrite (IN _ _ _ O' LA); lia].
      destruct (OUT _ _ _ O' LA) as (a'' & _ & O''). exfalso. eapply N; eassumption.
    + exists (d :: l), d1, (m ++ a1), n1. split; [reflexivity |]. split.
      * destruct O1 as (m1 & b1 & -> & SP1). exists m1, b1. split; [rewrite <- app_assoc; reflexivity | assumption].
      * intros a' d' n' O'. rewrite app_length. destruct (Nat.le_gt_cases (List.length m) (List.length a')) as [LA | LA]; [| lia].
        destruct (OUT _ _ _ O' LA) as (a'' & -> & O''). rewrite app_length. specialize (M1 _ _ _ O''). lia.
  - assert (NO : forall d n, ~ occ s [] d n).
    { intros d n (m & b & E & SP). apply (match_startxref_none _ Q m n b E). apply start_text_parts. eauto. }
    destruct s as [| c s].
    + left. split; [reflexivity |]. intros a d n O. destruct a as [| x a]; [exact (NO _ _ O) |]. destruct O as (m & b & E & _). discriminate.
    + assert (TL : forall a d n, occ (c :: s) a d n -> exists a', a = c :: a' /\ occ s a' d n).
      { intros [| x a] d n O; [exfalso; exact (NO _ _ O) |]. destruct O as (m & b & E & SP). cbn [app] in E. assert (x = c) by congruence. subst x.
        exists a. split; [reflexivity |]. exists m, b. split; [congruence | assumption]. }
      cbn [List.length] in L. destruct (IH s) as [[-> N] | (l & d1 & a1 & n1 & -> & O1 & M1)]; [lia | |].
      * left. split; [reflexivity |]. intros a d n O. destruct (TL _ _ _ O) as (a' & _ & O'). eapply N; eassumption.
      * right. exists l, d1, (c :: a1), n1. split; [reflexivity |]. split.
        -- destruct O1 as (m1 & b1 & -> & SP1). exists m1, b1. auto.
        -- intros a' d' n' O'. destruct (TL _ _ _ O') as (a'' & -> & O''). specialize (M1 _ _ _ O''). cbn [List.length]. lia.
Qed.

(** zeros behind the text do not matter *)
Lemma start_no_zero : forall m d n, start_parts m d n -> ~ In x00 m.
Proof.
  intros m d n H N. inversion H as [w1 d' n' w2 A D B]; subst. apply in_app_or in N. destruct N as [N | N].
  { cbn in N. repeat (destruct N as [N | N]; [discriminate |]). destruct N. }
  apply in_app_or in N. destruct N as [N | N].
  { apply A, re_space_ws in N. discriminate. }
  apply in_app_or in N. destruct N as [N | N].
  { eapply nat_text_digits in N; [| exact D]. discriminate. }
  apply in_app_or in N. destruct N as [N | N].
  { apply B, re_space_ws in N. discriminate. }
  cbn in N. repeat (destruct N as [N | N]; [discriminate |]). destruct N.
Qed.
Lemma occ_zeros : forall s k a d n, occ (s ++ repeat x00 k) a d n <-> occ s a d n.
Proof.
  intros s k a d n. split.
  - intros (m & b & E & SP). destruct (Nat.le_gt_cases (List.length (a ++ m)) (List.length s)) as [L | L].
    + rewrite app_assoc in E. symmetry in E. destruct (app_long _ _ _ _ _ E L) as (b' & -> & _). exists m, b'. split; [rewrite app_assoc; reflexivity | assumption].
    + exfalso. apply (start_no_zero m d n SP).
      destruct (Nat.le_gt_cases (List.length s) (List.length a)) as [LA | LA].
      * destruct (app_long _ _ _ _ _ E LA) as (a' & -> & E'). destruct (start_first m d n b SP) as [F LM]. destruct m as [| x m]; [cbn in LM; lia |].
        assert (IX : In x (repeat x00 k)) by (rewrite E'; apply in_or_app; right; left; reflexivity). apply repeat_spec in IX. subst x. left; reflexivity.
      * symmetry in E. destruct (app_long _ _ _ _ _ E (Nat.lt_le_incl _ _ LA)) as (s' & -> & E'). rewrite !app_length in L.
        destruct (app_long _ _ _ _ _ (eq_sym E')) as (m' & -> & E''); [lia |].
        destruct m' as [| x m']; [rewrite app_nil_r in L; lia |].
        assert (IX : In x (repeat x00 k)) by (rewrite E''; left; reflexivity). apply repeat_spec in IX. subst x. apply in_or_app. right. left; reflexivity.
  - intros (m & b & -> & SP). exists m, (b ++ repeat x00 k). split; [rewrite <- !app_assoc; reflexivity | assumption].
Qed.

(** what the digits denote *)
Lemma parse_digits : forall d n, nat_text d n -> parse_int64 d = if n <? two63 then Some n else None.
Proof.
  intros d n (ds & D & _ & <-). unfold parse_int64, dec_value.
  assert (K : forall v, fold_left (fun v b => v * 10 + (bv b - 48)) d v = fold_left (fun v x => 10 * v + Z.of_nat x) ds v).
  { induction D as [| b x d ds H D IH]; intros v; [reflexivity |]. cbn [fold_left]. apply decdigit_spec in H. destruct H as [_ H]. rewrite H, <- IH. f_equal. lia. }
  rewrite K. reflexivity.
Qed.
(** the number is determined by the place *)
Lemma ws_split_det : forall a b x y, (forall c, In c a -> re_ws c) -> (forall c, In c b -> re_ws c) ->
  (forall c q, x = c :: q -> ~ re_ws c) -> (forall c q, y = c :: q -> ~ re_ws c) -> a ++ x = b ++ y -> a = b /\ x = y.
Proof.
  induction a as [| c a IH]; intros [| d b] x y A B X Y E; cbn [app] in E; subst.
  - auto.
  - exfalso. eapply X; [reflexivity | apply B; left; reflexivity].
  - exfalso. eapply Y; [reflexivity | apply A; left; reflexivity].
  - assert (c = d) by congruence. subst d. destruct (IH b x y) as [-> ->]; auto; try congruence; intros e I; [apply A | apply B]; right; assumption.
Qed.
Lemma re_ws_no_digit : forall b, re_ws b -> is_digit b = true -> False.
Proof. intros b W D. apply re_space_ws in W. destruct b; discriminate. Qed.
Lemma start_parts_det : forall m d n b m' d' n' b', start_parts m d n -> start_parts m' d' n' -> m ++ b = m' ++ b' -> n = n'.
Proof.
  intros m d n b m' d' n' b' H H' E. inversion H as [w1 d1 n1 w2 A D B]; subst. inversion H' as [w1' d1' n1' w2' A' D' B']; subst.
  rewrite <- !app_assoc in E. apply app_inv_head in E.
  assert (ND : forall d n u, nat_text d n -> forall c q, d ++ u = c :: q -> ~ re_ws c).
  { intros d0 n0 u D0 c q Q W. destruct (nat_text_cons _ _ D0) as (x & dx & r & ds & -> & DX & _). apply decdigit_spec in DX.
    cbn [app] in Q. assert (x = c) by congruence. subst x. eapply re_ws_no_digit; [eassumption | apply DX]. }
  apply ws_split_det in E; [| assumption | assumption | eapply ND; eassumption | eapply ND; eassumption]. destruct E as [_ E].
  assert (NX : forall w r, (forall b, In b w -> re_ws b) -> no_digit (w ++ lit "%%EOF" ++ r)).
  { intros [| c w] r W; [reflexivity |]. cbn. destruct (is_digit c) eqn:Q; [| reflexivity]. exfalso. eapply re_ws_no_digit; [apply W; left; reflexivity | assumption]. }
  apply digits_split_det in E; [| eapply nat_text_digits; eassumption | eapply nat_text_digits; eassumption | apply NX; assumption | apply NX; assumption].
  destruct E as [<- _]. pose proof (parse_digits _ _ D) as P. pose proof (parse_digits _ _ D') as P'.
  destruct D as (ds & DD & _ & <-), D' as (ds' & DD' & _ & <-). assert (ds = ds') as ->; [| reflexivity].
  clear - DD DD'. revert ds' DD'. induction DD as [| x y t ds X DD IH]; intros ds' DD'; inversion DD' as [| x' y' t' ds1 X' D1]; subst; [reflexivity |].
  f_equal; [| apply IH; assumption]. apply decdigit_spec in X, X'. lia.
Qed.

Theorem start_offset : forall file n, start_xref_offset file = Some n <-> last_start (last256 file) n /\ n < 2 ^ 63.
Proof.
  intros file n. unfold start_xref_offset, tail_buffer. change scan_size with 256%nat. fold (last256 file). set (t := last256 file).
  set (z := repeat x00 _). destruct (find_all_last (S (List.length (t ++ z))) (t ++ z)) as [[-> N] | (l & d & a & k & -> & O & M)]; [lia | |].
  - cbn [rev]. split; [discriminate |]. intros ((a & m & b & E & T & _) & _). exfalso. apply start_text_parts in T. destruct T as (d & SP).
    apply (N a d n). apply occ_zeros. exists m, b. auto.
  - rewrite rev_app_distr. cbn [rev app]. destruct (proj1 (occ_zeros _ _ _ _ _) O) as (m & b & E & SP).
    assert (D : nat_text d k) by (inversion SP; subst; assumption). rewrite (parse_digits _ _ D).
    assert (LS : last_start t k).
    { exists a, m, b. split; [assumption |]. split; [apply start_text_parts; eauto |]. intros a' m' b' n' E' T'. apply start_text_parts in T'. destruct T' as (d' & SP').
      apply (M a' d' n'). apply occ_zeros. exists m', b'. auto. }
    assert (UN : forall k', last_start t k' -> k' = k).
    { intros k' (a' & m' & b' & E' & T' & M'). pose proof T' as T0. apply start_text_parts in T'. destruct T' as (d' & SP').
      destruct LS as (a0 & m0 & b0 & E0 & T1 & M0).
      assert (LE : List.length a' = List.length a).
      { assert (List.length a' <= List.length a)%nat by (apply (M a' d' k'); apply occ_zeros; exists m', b'; auto).
        assert (List.length a <= List.length a')%nat by (apply (M' a m b k E); apply start_text_parts; eauto). lia. }
      assert (EA : a' = a /\ m' ++ b' = m ++ b).
      { rewrite E in E'. clear - E' LE. revert a LE E'. induction a' as [| x a' IH]; intros [| y a] LE E'; try discriminate; cbn [app] in E'; [auto |].
        assert (x = y) by congruence. subst y. destruct (IH a) as [-> Q]; [cbn in LE; lia | congruence | auto]. }
      destruct EA as [_ EA]. eapply start_parts_det; [exact SP' | exact SP | exact EA]. }
    change (2 ^ 63) with two63. destruct (k <? two63) eqn:Q.
    + apply Z.ltb_lt in Q. split.
      * intros H. assert (k = n) by congruence. subst n. split; assumption.
      * intros [H _]. rewrite (UN n H). reflexivity.
    + apply Z.ltb_ge in Q. split; [discriminate |]. intros [H B]. rewrite (UN n H) in B. lia.
Qed.
