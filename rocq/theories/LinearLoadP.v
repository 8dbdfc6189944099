(** LinearLoadP.v -- what Load finds in a linearized document (C118). *)
From Verif Require Import Base BaseP Msg Reader ReaderP Num NumP Lexer Plain LexerP Obj ReadObj Bits Filters Env Getters Crypt GetObj GetObjP Regex Xref Load Errors SpecLex SpecLexP SpecObj SpecObjP SpecNumP SpecFilters FiltersP
  SpecRead SpecFetch SpecLook SpecStream SpecScan RegexP ScanP StreamP StreamObjP CryptObjP ReadP StreamEx RepairP FetchP SpecOut SpecXref XrefP SpecRecover RecoverP ReadObjP ErrorsP SpecWrite WriteP WriteDocP WriteLoadP WriteOutP
  SpecUpdate StrayP UpdateP UpdateLoadP UpdateFindP UpdateOutP TrailerP DocP WrongP SpecLinear LinearP.
From Coq Require Import Strings.String Sorting.Permutation Sorting.Sorted.

Lemma nodup_two : forall (A : Type) (l1 l2 : list A), NoDup (l1 ++ l2) -> NoDup l1 /\ NoDup l2.
Proof.
  induction l1 as [| z l1 IH]; intros l2 H; [split; [constructor | exact H] |]. cbn [app] in H. inversion H as [| ? ? N1 N2]; subst. destruct (IH l2 N2) as [A1 A2]. split; [| exact A2].
  constructor; [intros I; apply N1, in_or_app; left; exact I | exact A1].
Qed.
(** what a table says *)
Lemma lines_say : forall l, (forall p, In p l -> good_place p) -> NoDup (map (fun p => inum (snd p)) l) -> let T := table_lines (u_lines [] l) in
  (forall p, In p l -> latest (inum (snd p)) T = Some (use_entry p)) /\
  (forall n e, latest n T = Some e -> n = 0 /\ e = free_entry \/ exists p, In p l /\ inum (snd p) = n /\ e = use_entry p).
Proof.
  intros l G N T. unfold T. rewrite u_lines_are by (exact G || intros n []). cbn [map app].
  assert (MF : map fst (map (fun p => (inum (snd p), use_entry p)) l) = map (fun p => inum (snd p)) l) by (rewrite map_map; reflexivity).
  assert (ND : NoDup (map fst ((0, free_entry) :: map (fun p => (inum (snd p), use_entry p)) l))).
  { cbn [map fst]. rewrite MF. constructor; [| exact N]. intros I. apply in_map_iff in I. destruct I as (p & Q & I). pose proof (lo_number _ (proj2 (G p I))). lia. }
  assert (LI : forall n (e : xentry) q, latest n q = Some e -> In (n, e) q).
  { intros n e. induction q as [| [k y] q IH]; [discriminate |]. cbn [latest]. destruct (latest n q) as [z |].
    - intros Q. right. apply IH. exact Q.
    - destruct (Z.eqb_spec k n) as [-> | _]; [| discriminate]. intros Q. left. congruence. }
  split.
  - intros p I. apply latest_one; [exact ND |]. right. apply in_map_iff. exists p. auto.
  - intros n e L. apply LI in L. destruct L as [L | L]; [left; injection L as <- <-; auto |]. right. apply in_map_iff in L. destruct L as (p & Q & I). injection Q as <- <-. eauto.
Qed.

Section Linear.
  Variables (E : env) (x : linear).
  Hypothesis GL : good_linear x.
  Let a : part := {| pt_objects := ln_first x; pt_lines := ln_lines x; pt_dict := with_prev (Some (ln_prev x)) (ln_main x); pt_start := ln_start x |}.
  Let b : part := {| pt_objects := ln_second x; pt_lines := ln_more x; pt_dict := ln_other x; pt_start := at_first x |}.
  Let file := w_linear x.
  Lemma ln_file : file = w_version ++ pt_all [a; b].
  Proof. unfold pt_all. cbn [flat_map]. rewrite app_nil_r. reflexivity. Qed.
  Lemma ln_places_are : pt_places (zlen w_version) [a; b] = ln_places x.
  Proof. unfold pt_places. cbn [pt_layout flat_map fst snd]. rewrite app_nil_r. reflexivity. Qed.
  Lemma ln_places_in : forall k o, In (k, o) (ln_places x) -> In o (ln_objects x).
  Proof. intros k o I. apply in_or_app. apply in_app_or in I. destruct I as [I | I]; [left | right]; eapply places_in; exact I. Qed.
  Lemma ln_place_good : forall p, In p (ln_places x) -> good_place p.
  Proof.
    intros [k o] I. split; cbn [fst snd]; [| apply lo_shape, go_lay, (gl_objects _ GL); eapply ln_places_in; exact I]. rewrite <- ln_places_are in I. destruct (parts_split _ _ _ I) as (pre & r & QF & ->).
    pose proof (gl_size _ GL) as SZ. fold file in SZ. rewrite ln_file, QF, zlen_app in SZ. pose proof (zlen_nonneg _ (pre ++ [x0a])). pose proof (zlen_nonneg _ (w_object o ++ r)). lia.
  Qed.
  Lemma ln_lines_good : forall p, In p (ln_lines x) \/ In p (ln_more x) -> In p (ln_places x).
  Proof. intros p I. apply (Permutation_in p (gl_lines _ GL)). apply in_or_app. exact I. Qed.
  Lemma ln_numbers : map (fun p => inum (snd p)) (ln_places x) = map inum (ln_objects x).
  Proof. unfold ln_places, ln_objects. rewrite !map_app, !place_numbers. reflexivity. Qed.
  Lemma ln_lines_once : NoDup (map (fun p => inum (snd p)) (ln_lines x ++ ln_more x)).
  Proof. eapply Permutation_NoDup; [symmetry; apply Permutation_map; exact (gl_lines _ GL) |]. rewrite ln_numbers. exact (gl_numbers _ GL). Qed.
  Lemma at_first_pos : 0 <= at_first x.
  Proof. unfold at_first. pose proof (zlen_nonneg _ w_version). pose proof (zlen_nonneg _ (w_objects (ln_first x))). lia. Qed.
  Lemma first_len : at_first x + 4 <= zlen w_version + zlen (w_first x).
  Proof.
    unfold at_first. change (w_first x) with (pt_text a). rewrite part_parts, zlen_app. unfold pt_tail. rewrite zlen_app. change (zlen (lit "xref")) with 4. cbn [pt_objects a].
    match goal with |- context [4 + zlen ?y] => pose proof (zlen_nonneg _ y) end. lia.
  Qed.
  Lemma at_order : at_first x < at_second x < 10 ^ 10.
  Proof.
    pose proof first_len. pose proof (zlen_nonneg _ (w_objects (ln_second x))). split; [unfold at_second; lia |]. pose proof (gl_size _ GL) as SZ. unfold w_linear in SZ. rewrite !zlen_app in SZ. unfold w_part in SZ. rewrite zlen_app in SZ. unfold at_second.
    match type of SZ with _ + (_ + (_ + zlen ?y)) < _ => pose proof (zlen_nonneg _ y) end. lia.
  Qed.
  Lemma ln_prev_bound : 0 <= ln_prev x < 10 ^ 10.
  Proof. rewrite (gl_prev _ GL). pose proof at_order. pose proof at_first_pos. lia. Qed.
  Lemma main_printable : printable (ODict (with_prev (Some (ln_prev x)) (ln_main x))).
  Proof.
    pose proof (gl_main _ GL) as T. cbn [with_prev]. pose proof (proj1 (gl_main_keys _ GL)) as N. pose proof ln_prev_bound as B. destruct T as [ND V]. split.
    - rewrite map_app. apply (Permutation_NoDup (Permutation_cons_append (map fst (ln_main x)) (lit "Prev"))). constructor; assumption.
    - clear ND N. induction (ln_main x) as [| [k v] d IH]; cbn [app].
      + split; [apply occurs_check; vm_compute; reflexivity |]. split; [| exact Logic.I]. exists (ln_prev x). split; [| reflexivity]. assert (10 ^ 10 < 2 ^ 53) by reflexivity. lia.
      + destruct V as (V1 & V2 & V3). split; [exact V1 |]. split; [exact V2 | exact (IH V3)].
  Qed.
  Lemma ln_parts : Forall good_part [a; b].
  Proof.
    constructor; [| constructor; [| constructor]]; split; cbn [pt_objects pt_lines pt_dict pt_start a b].
    - intros o I. apply go_lay, (gl_objects _ GL). apply in_or_app. left. exact I.
    - intros p I. apply ln_place_good, ln_lines_good. left. exact I.
    - exact main_printable.
    - apply (gl_start _ GL).
    - intros o I. apply go_lay, (gl_objects _ GL). apply in_or_app. right. exact I.
    - intros p I. apply ln_place_good, ln_lines_good. right. exact I.
    - exact (gl_other _ GL).
    - exact at_first_pos.
  Qed.
  Let ya : Z * part := (zlen w_version, a).
  Let yb : Z * part := (zlen w_version + zlen (w_first x), b).
  Lemma ln_layout : pt_layout (zlen w_version) [a; b] = [ya; yb].
  Proof. reflexivity. Qed.
  Lemma ya_at : pt_table ya = at_first x.
  Proof. reflexivity. Qed.
  Lemma yb_at : pt_table yb = at_second x.
  Proof. reflexivity. Qed.

  (** ** The tables *)
  Let Ta := table_lines (u_lines [] (ln_lines x)).
  Let Tb := table_lines (u_lines [] (ln_more x)).
  Definition ln_entry (n : Z) : option xentry := or_else (latest n (table_lines (u_lines [] (ln_lines x)))) (latest n (table_lines (u_lines [] (ln_more x)))).
  Definition ln_all_keys (k : bytes) : option obj := or_else (entry (with_prev (Some (ln_prev x)) (ln_main x)) k) (entry (ln_other x) k).
  Lemma second_step : forall f seen p, ~ In (at_second x) seen -> reads file p -> exists p', load_xref (S f) E file (at_second x) seen p = Ok (tt, p') /\ reads file p' /\ log (prd p') = log (prd p) /\ psh p' = psh p /\
    (forall n, xget n (pxref p') = or_else (latest n Tb) (xget n (pxref p))) /\ (forall k, entry (ptrailer p') k = or_else (entry (ln_other x) k) (entry (ptrailer p) k)).
  Proof.
    intros f seen p NI W. destruct (pt_data [a; b] ln_parts yb) as (g0 & g1 & T & g2 & t & z & Z0 & G0 & G1 & N1 & TT & G2 & OT & BK); [rewrite ln_layout; right; left; reflexivity |].
    rewrite <- ln_file in Z0. rewrite yb_at in Z0. cbn [snd pt_lines pt_dict yb b] in TT, OT.
    assert (O : 0 <= at_second x) by (pose proof at_order; pose proof at_first_pos; lia).
    assert (PV : prev_of (ln_other x) None) by (apply pv_none, no_entry, (gl_other_keys _ GL)).
    destruct (table_step E file (at_second x) seen g0 g1 T _ g2 t _ z None NI O Z0 G0 G1 N1 TT G2 OT BK PV f p W) as (s1 & m & W1 & L1 & ND & GM & R). rewrite R. cbn [follow_prev].
    eexists. split; [reflexivity |]. cbn [prd pxref ptrailer psh with_xref with_trailer with_rd]. split; [exact W1 |]. split; [exact L1 |]. split; [reflexivity |]. split.
    - intros n. unfold xget. rewrite mget_mmerge by (exact Zeqb_ok || assumption). fold (xget n m) (xget n (pxref p)). rewrite GM. fold Tb. destruct (latest n Tb); reflexivity.
    - intros k. rewrite merged_key by (eapply obj_text_nodup; eassumption). destruct (entry _ k); reflexivity.
  Qed.
  Lemma first_step : forall f p, reads file p -> exists p', load_xref (S (S f)) E file (at_first x) [] p = Ok (tt, p') /\ reads file p' /\ log (prd p') = log (prd p) /\ psh p' = psh p /\
    (forall n, xget n (pxref p') = or_else (ln_entry n) (xget n (pxref p))) /\ (forall k, entry (ptrailer p') k = or_else (ln_all_keys k) (entry (ptrailer p) k)).
  Proof.
    intros f p W. destruct (pt_data [a; b] ln_parts ya) as (g0 & g1 & T & g2 & t & z & Z0 & G0 & G1 & N1 & TT & G2 & OT & BK); [rewrite ln_layout; left; reflexivity |].
    rewrite <- ln_file in Z0. rewrite ya_at in Z0. cbn [snd pt_lines pt_dict ya a] in TT, OT.
    assert (PV : prev_of (with_prev (Some (ln_prev x)) (ln_main x)) (Some (at_second x))).
    { rewrite <- (gl_prev _ GL). pose proof (proj1 (gl_main_keys _ GL)) as NP. pose proof ln_prev_bound as BQ. cbn [with_prev]. assert (QQ : num_int (num_of_Z (ln_prev x)) = ln_prev x) by (apply num_int_of_Z; assert (10 ^ 10 < 2 ^ 53) by reflexivity; lia).
      rewrite <- QQ at 2. apply pv_some. clear - NP. induction (ln_main x) as [| [k v] d IH]; [reflexivity |]. cbn [app entry]. destruct (list_eq_dec Byte.byte_eq_dec (lit "Prev") k) as [QK | NK]; [exfalso; apply NP; left; symmetry; exact QK |].
      apply IH. intros I. apply NP. right. exact I. }
    destruct (table_step E file (at_first x) [] g0 g1 T _ g2 t _ z _ (fun K => K) at_first_pos Z0 G0 G1 N1 TT G2 OT BK PV (S f) p W) as (s1 & m & W1 & L1 & ND & GM & R). rewrite R. cbn [follow_prev]. unfold bind at 1.
    destruct (second_step f [at_first x] (with_rd s1 p)) as (p2 & R2 & W2 & L2 & S2 & X2 & T2); [intros [K | []]; pose proof at_order; lia | exact W1 |]. rewrite R2.
    eexists. split; [reflexivity |]. cbn [prd pxref ptrailer psh with_xref with_trailer with_rd] in *. split; [exact W2 |]. split; [congruence |]. split; [exact S2 |]. split.
    - intros n. unfold xget. rewrite mget_mmerge by (exact Zeqb_ok || assumption). fold (xget n m) (xget n (pxref p2)). rewrite GM, X2. unfold ln_entry. fold Ta Tb. destruct (latest n Ta); reflexivity.
    - intros k. rewrite merged_key by (eapply obj_text_nodup; eassumption). rewrite T2. unfold ln_all_keys. destruct (entry (with_prev _ _) k); reflexivity.
  Qed.

  (** ** The "xref" of each "startxref" *)
  Lemma word_b_at : zdrop (pt_word yb) file = lit "xref" ++ w_last (at_first x) ++ [].
  Proof.
    rewrite ln_file. unfold pt_all. cbn [flat_map]. rewrite app_nil_r, (part_parts b). unfold pt_tail. cbn [pt_objects pt_start b]. fold b.
    replace (w_version ++ pt_text a ++ w_objects (ln_second x) ++ lit "xref" ++ pt_mid b ++ lit "xref" ++ w_last (at_first x)) with ((w_version ++ pt_text a ++ w_objects (ln_second x) ++ lit "xref" ++ pt_mid b) ++ lit "xref" ++ w_last (at_first x)) by (apps; reflexivity).
    rewrite app_nil_r. replace (pt_word yb) with (zlen (w_version ++ pt_text a ++ w_objects (ln_second x) ++ lit "xref" ++ pt_mid b)); [apply zdrop_app |].
    unfold pt_word, pt_table, yb. cbn [fst snd pt_objects b]. fold b. change (w_first x) with (pt_text a). rewrite !zlen_app. change (zlen (lit "xref")) with 4. lia.
  Qed.
  Lemma word_a_at : zdrop (pt_word ya) file = lit "xref" ++ w_last (ln_start x) ++ pt_text b.
  Proof.
    rewrite ln_file. unfold pt_all. cbn [flat_map]. rewrite app_nil_r, (part_parts a). unfold pt_tail. cbn [pt_objects pt_start a]. fold a.
    replace (w_version ++ (w_objects (ln_first x) ++ lit "xref" ++ pt_mid a ++ lit "xref" ++ w_last (ln_start x)) ++ pt_text b) with ((w_version ++ w_objects (ln_first x) ++ lit "xref" ++ pt_mid a) ++ lit "xref" ++ w_last (ln_start x) ++ pt_text b) by (apps; reflexivity).
    replace (pt_word ya) with (zlen (w_version ++ w_objects (ln_first x) ++ lit "xref" ++ pt_mid a)); [apply zdrop_app |].
    unfold pt_word, pt_table, ya. cbn [fst snd pt_objects a]. fold a. rewrite !zlen_app. change (zlen (lit "xref")) with 4. lia.
  Qed.
  Lemma word_pos : 0 <= pt_word ya /\ 0 <= pt_word yb.
  Proof.
    unfold pt_word. rewrite ya_at, yb_at. pose proof at_first_pos. pose proof at_order. pose proof (zlen_nonneg _ (pt_mid (snd ya))). pose proof (zlen_nonneg _ (pt_mid (snd yb))). lia.
  Qed.
  Lemma word_read : forall y f p, In y [ya; yb] -> reads file p -> exists s1 d, wf file s1 /\ log s1 = log (prd p) /\ (d = [] \/ ln_stray x d) /\ NoDup (map fst d) /\
    load_xref (S f) E file (pt_word y) [] p = Ok (tt, with_trailer (mmerge bseq (ptrailer p) d) (with_rd s1 p)).
  Proof.
    intros y f p I W.
    assert (NILC : forall s1, wf file s1 /\ log s1 = log (prd p) /\ load_xref (S f) E file (pt_word y) [] p = Ok (tt, with_rd s1 p) -> exists s1 d, wf file s1 /\ log s1 = log (prd p) /\ (d = [] \/ ln_stray x d) /\ NoDup (map fst d) /\
      load_xref (S f) E file (pt_word y) [] p = Ok (tt, with_trailer (mmerge bseq (ptrailer p) d) (with_rd s1 p))).
    { intros s1 (A & B & C). exists s1, []. split; [exact A |]. split; [exact B |]. split; [left; reflexivity |]. split; [constructor |]. rewrite C. destruct p as [x1 x2 x3 x4]. reflexivity. }
    destruct I as [<- | [<- | []]].
    2: { destruct (quiet_step E file (pt_word yb) (at_first x) [] f p (proj2 word_pos) at_first_pos word_b_at quiet_nil W) as (s1 & H). exact (NILC s1 H). }
    pose proof (proj1 word_pos) as O. set (T := ln_start x) in *. assert (TN : 0 <= T) by apply (gl_start _ GL). set (G := x0a :: lit "%%EOF" ++ [x0a]).
    assert (GG : gap G). { unfold G. apply gap_ws; [exact lf_ws |]. change (gap ("%"%byte :: lit "%EOF" ++ x0a :: [])). apply gap_comment; [| left; reflexivity | constructor]. intros c K [-> | ->]; vm_compute in K; intuition discriminate. }
    assert (Z1 : zdrop (pt_word ya) file = lit "xref" ++ [x0a] ++ dec T ++ G ++ w_objects (ln_second x) ++ pt_tail b) by (rewrite word_a_at, part_parts; unfold w_last, G; fold T; cbn [pt_objects b]; apps; reflexivity).
    destruct (ln_second x) as [| ob D] eqn:QD.
    - cbn [w_objects flat_map app] in Z1. unfold pt_tail in Z1. set (z := lit "xref" ++ w_last (pt_start b)) in Z1. assert (QM : exists m, pt_mid b = x0a :: "0"%byte :: m) by (unfold pt_mid, w_mid, w_entries; cbn [app]; eexists; reflexivity). destruct QM as [m QM]. rewrite QM in Z1.
      destruct (word_stray E file (pt_word ya) [x0a] (dec T) T (G ++ lit "xref" ++ x0a :: "0"%byte :: m ++ z) f p O) as (s1 & H); [rewrite Z1; apps; reflexivity | apply gap1, lf_ws | discriminate | apply dec_text; exact TN | | exact W | exact (NILC s1 H)].
      right. eexists G, "x"%byte, (lit "ref"), _. split; [reflexivity |]. split; [exact GG |]. split; [discriminate |]. split; [intros c K; apply word_regular; cbn in K; intuition (subst; reflexivity) |]. split; [reflexivity |].
      split; [apply ws_ends, lf_ws |]. intros q. discriminate.
    - assert (Go : lay_object ob) by (apply go_lay, (gl_objects _ GL), in_or_app; right; rewrite QD; left; reflexivity).
      destruct (text_stray E file (pt_word ya) [x0a] (dec T) T G (w_head ob) (inum ob) (igen ob) (x0a :: w_value ob ++ x0a :: lit "endobj" ++ x0a :: w_objects D ++ pt_tail b) (ival (as_written ob)) f p O) as (s1 & d & A & B & C & ND & L).
      * rewrite Z1. unfold w_objects. cbn [flat_map]. unfold w_object at 1. apps. reflexivity.
      * apply gap1, lf_ws.
      * discriminate.
      * apply dec_text. exact TN.
      * exact GG.
      * discriminate.
      * apply head_header. exact Go.
      * pose proof (lo_number _ Go). lia.
      * apply ws_ends, lf_ws.
      * destruct (value_text ob) as [v QV]. exists [x0a], (w_obj (ival (as_written ob))). eexists. split; [rewrite QV; apps; reflexivity |]. split; [apply gap1, lf_ws | apply w_obj_text, written_printable, Go].
      * intros d Qd. destruct (lay_entry ob d (lit "Prev") Go Qd ltac:(discriminate)) as (d0 & Q0 & ->). apply no_entry. exact (proj1 (gl_harmless _ GL ob D d0 QD Q0)).
      * exact W.
      * exists s1, d. split; [exact A |]. split; [exact B |]. split; [| split; [exact ND | exact L]]. destruct C as [C | C]; [left; exact C | right; exists ob, D; auto].
  Qed.
  Lemma stray_plain : forall d, ln_stray x d -> entry d (lit "Encrypt") = None.
  Proof.
    intros d (o & D & QD & QV). assert (Go : lay_object o) by (apply go_lay, (gl_objects _ GL), in_or_app; right; rewrite QD; left; reflexivity).
    destruct (lay_entry o d (lit "Encrypt") Go QV ltac:(discriminate)) as (d0 & Q0 & ->). apply no_entry. exact (proj2 (gl_harmless _ GL o D d0 QD Q0)).
  Qed.

  (** ** All of them *)
  Definition ln_so_far (p : pst) : Prop := reads file p /\ log (prd p) = [] /\ psh p = new_sechandler /\
    (forall n, xget n (pxref p) <> None -> ln_entry n <> None) /\
    (forall k v, entry (ptrailer p) k = Some v -> ln_all_keys k <> None \/ exists d, ln_stray x d /\ entry d k = Some v).
  Lemma ln_one : forall f p i, ln_so_far p -> (exists y, In y [ya; yb] /\ (i = pt_table y \/ i = pt_word y)) -> exists p', load_xref (S (S f)) E file i [] p = Ok (tt, p') /\ ln_so_far p'.
  Proof.
    intros f p i (W & LG & SH & XN & TN) (y & I & C). destruct C as [-> | ->].
    - destruct I as [<- | [<- | []]].
      + rewrite ya_at. destruct (first_step f p W) as (p' & R & W' & L' & S' & X' & T'). exists p'. split; [exact R |]. split; [exact W' |]. split; [congruence |]. split; [congruence |]. split.
        * intros n H. rewrite X' in H. apply or_else_none in H. destruct H as [H | H]; [exact H | exact (XN n H)].
        * intros k v H. rewrite T' in H. destruct (ln_all_keys k) as [v' |] eqn:Q; [left; discriminate | destruct (TN k v H) as [K | K]; [rewrite Q in K; contradiction K; reflexivity | right; exact K]].
      + rewrite yb_at. destruct (second_step (S f) [] p (fun K => K) W) as (p' & R & W' & L' & S' & X' & T'). exists p'. split; [exact R |]. split; [exact W' |]. split; [congruence |]. split; [congruence |]. split.
        * intros n H. rewrite X' in H. apply or_else_none in H. destruct H as [H | H]; [| exact (XN n H)]. unfold ln_entry. fold Ta Tb. destruct (latest n Ta); [discriminate | exact H].
        * intros k v H. rewrite T' in H. destruct (entry (ln_other x) k) as [v' |] eqn:Q; [left | exact (TN k v H)]. unfold ln_all_keys. rewrite Q. destruct (entry (with_prev _ _) k); discriminate.
    - destruct (word_read y (S f) p I W) as (s1 & d & W1 & L1 & CD & ND & R). eexists. split; [exact R |]. split; [exact W1 |]. split; [cbn [prd with_trailer with_rd]; congruence |]. split; [exact SH |]. split; [exact XN |].
      intros k v H. cbn [ptrailer with_trailer with_rd] in H. rewrite merged_key in H by exact ND. destruct (entry d k) as [v' |] eqn:Q; [| exact (TN k v H)]. injection H as <-. destruct CD as [-> | FO]; [discriminate | right; eauto].
  Qed.
  Lemma ln_all : forall l f p, ln_so_far p -> (forall i, In i l -> exists y, In y [ya; yb] /\ (i = pt_table y \/ i = pt_word y)) ->
    exists p', load_all (S (S f)) E file (l ++ [at_first x]) p = Ok (tt, p') /\ ln_so_far p' /\
      (forall n, xget n (pxref p') = ln_entry n) /\ (forall k v, ln_all_keys k = Some v -> entry (ptrailer p') k = Some v).
  Proof.
    induction l as [| i l IH]; intros f p SF OK; cbn [app load_all].
    - destruct (ln_one f p (at_first x) SF) as (p1 & R1 & S1); [exists ya; split; [left; reflexivity | left; reflexivity] |].
      destruct SF as (W & LG & SH & XN & TN). destruct (first_step f p W) as (p' & R & W' & L' & S' & X' & T'). assert (p' = p1) by congruence. subst p'. unfold bind. rewrite R1. exists p1. split; [reflexivity |]. split; [exact S1 |]. split.
      + intros n. rewrite X'. destruct (ln_entry n) eqn:Q; [reflexivity |]. cbn [or_else]. destruct (xget n (pxref p)) eqn:Q2; [| reflexivity]. exfalso. apply (XN n); [rewrite Q2; discriminate | exact Q].
      + intros k v Q. rewrite T', Q. reflexivity.
    - destruct (ln_one f p i SF) as (p1 & R1 & S1); [apply OK; left; reflexivity |]. unfold bind at 1. rewrite R1. apply (IH f p1 S1). intros j J. apply OK. right. exact J.
  Qed.
  Lemma ln_start_found : start_xref_offset file = Some (at_first x).
  Proof.
    pose proof at_order as B. pose proof at_first_pos as O. assert (B2 : 10 ^ 10 < 2 ^ 54) by reflexivity. apply start_offset. split; [| lia]. unfold file, w_linear, w_part, w_end.
    match goal with |- last_start (last256 ?t) ?n => replace t with ((w_version ++ w_first x ++ w_objects (ln_second x) ++ w_sect [] (ln_more x) (ln_other x) ++ [x0a]) ++ (lit "startxref" ++ [x0a] ++ dec n ++ [x0a] ++ lit "%%EOF") ++ [x0a]) by (apps; reflexivity) end.
    apply start_tail. lia.
  Qed.

  (** ** What the tables together say *)
  Lemma entry_of : forall p, In p (ln_places x) -> ln_entry (inum (snd p)) = Some (use_entry p).
  Proof.
    intros p I. apply (Permutation_in p (Permutation_sym (gl_lines _ GL))) in I. pose proof ln_lines_once as NN. rewrite map_app in NN.
    destruct (lines_say (ln_lines x)) as [A1 A2]; [intros q J; apply ln_place_good, ln_lines_good; left; exact J | exact (proj1 (nodup_two _ _ _ NN)) |].
    destruct (lines_say (ln_more x)) as [B1 B2]; [intros q J; apply ln_place_good, ln_lines_good; right; exact J | exact (proj2 (nodup_two _ _ _ NN)) |].
    unfold ln_entry. apply in_app_or in I. destruct I as [I | I]; [rewrite (A1 p I); reflexivity |]. rewrite (B1 p I).
    destruct (latest (inum (snd p)) (table_lines (u_lines [] (ln_lines x)))) as [e |] eqn:Q; [| reflexivity]. exfalso. destruct (A2 _ _ Q) as [[Q0 _] | (q & J & QN & _)].
    - pose proof (lo_number _ (proj2 (ln_place_good p (ln_lines_good p (or_intror I))))). lia.
    - clear - NN I J QN. revert NN. induction (ln_lines x) as [| z q0 IH]; [destruct J |]. cbn [map app]. intros NN. inversion NN as [| ? ? N1 N2]; subst. destruct J as [-> | J]; [| exact (IH J N2)].
      apply N1. apply in_or_app. right. apply in_map_iff. exists p. auto.
  Qed.
  Lemma of_entry : forall n e, ln_entry n = Some e -> n = 0 /\ e = free_entry \/ exists p, In p (ln_places x) /\ inum (snd p) = n /\ e = use_entry p.
  Proof.
    intros n e H. pose proof ln_lines_once as NN. rewrite map_app in NN.
    destruct (lines_say (ln_lines x)) as [A1 A2]; [intros q J; apply ln_place_good, ln_lines_good; left; exact J | exact (proj1 (nodup_two _ _ _ NN)) |].
    destruct (lines_say (ln_more x)) as [B1 B2]; [intros q J; apply ln_place_good, ln_lines_good; right; exact J | exact (proj2 (nodup_two _ _ _ NN)) |].
    unfold ln_entry in H. destruct (latest n (table_lines (u_lines [] (ln_lines x)))) as [e' |] eqn:Q.
    - cbn [or_else] in H. injection H as ->. destruct (A2 _ _ Q) as [K | (p & I & K)]; [left; exact K | right; exists p; split; [apply ln_lines_good; left; exact I | exact K]].
    - cbn [or_else] in H. destruct (B2 _ _ H) as [K | (p & I & K)]; [left; exact K | right; exists p; split; [apply ln_lines_good; right; exact I | exact K]].
  Qed.

  (** ** Loading *)
  Lemma linear_loaded : forall fuel ord pw, (2 <= fuel)%nat -> (forall m, Permutation (ord m) m) ->
    exists p, load fuel E ord file pw (new_parser file) = Ok (None, p) /\ reads file p /\ log (prd p) = [] /\ psh p = new_sechandler /\
      (forall k v, ln_all_keys k = Some v -> entry (ptrailer p) k = Some v) /\
      (forall k v, entry (ptrailer p) k = Some v -> ln_all_keys k = Some v \/ exists d, ln_stray x d /\ entry d k = Some v) /\ offsets_ok (pxref p) /\
      (forall q, In q (ln_places x) -> xget (inum (snd q)) (pxref p) = Some (use_entry q)) /\
      (forall n, SpecOut.in_use p n -> exists q, In q (ln_places x) /\ inum (snd q) = n).
  Proof.
    intros fuel ord pw F P. unfold load. unfold bind at 1. set (objs := ln_places x).
    assert (ON : only_at file (map fst objs)) by (unfold objs; rewrite <- ln_places_are, ln_file; apply parts_markers, ln_parts).
    assert (LA : forall i o, In (i, o) objs -> listed_at file i (inum o) (igen o)) by (intros i o I; unfold objs in I; rewrite <- ln_places_are in I; rewrite ln_file; apply parts_listed; [exact ln_parts | exact I]).
    destruct (find_objects_records E file (new_parser file) fuel (open_wf file) eq_refl F) as (l & os & p1 & F1 & SC & RC & W1 & X1 & T1 & S1 & ND).
    destruct (find_objects_silent E file (new_parser file) fuel os p1 (open_wf file) eq_refl F F1) as (l' & SC' & L1).
    assert (L1' : log (prd p1) = []).
    { rewrite L1; [reflexivity |]. intros i I. apply (scan_objects file objs l' LA ON SC') in I. apply in_map_iff in I. destruct I as ([i' o] & Q & I). cbn in Q. subst i'. eapply listed_silent, LA, I. }
    clear L1 SC' l'. rewrite F1. pose proof (objects_recorded file objs l os LA ON SC RC) as RO. pose proof (recorded_plain objs os RO ND) as NS.
    unfold xref_offsets. rewrite NS, ln_start_found. cbn [map]. rewrite app_nil_r. unfold bind at 1. unfold pseek at 1.
    set (p2 := with_rd (seek file (zlen file) (prd p1)) p1).
    assert (SF : ln_so_far p2).
    { split; [apply sk_nonneg; apply zlen_nonneg |]. split; [unfold p2; cbn [prd with_rd]; rewrite sk_log by apply zlen_nonneg; exact L1' |]. split; [unfold p2; cbn [psh with_rd]; rewrite S1; reflexivity |].
      split; [intros n H; unfold p2 in H; cbn [pxref with_rd] in H; rewrite X1 in H; contradiction H; reflexivity |]. intros k v H. unfold p2 in H. cbn [ptrailer with_rd] in H. rewrite T1 in H. discriminate H. }
    destruct fuel as [| [| f]]; [lia | lia |].
    destruct (ln_all (sortZ (find_xref_offsets file)) f p2 SF) as (p5 & R5 & (W5 & L5 & S5 & _ & TN5) & X5 & T5).
    { intros i I. apply (proj1 (sortZ_In _ _)) in I. rewrite ln_file in I. apply pt_xrefs_only in I; [exact I | exact ln_parts]. }
    unfold bind at 1. rewrite R5. unfold bind at 1.
    destruct (repair_any_order file (ord os) os p5 W5 ND (P os)) as (p6 & R6 & W6 & T6 & S6 & C6 & _). rewrite R6.
    assert (TR : forall k v, entry (ptrailer p6) k = Some v -> ln_all_keys k = Some v \/ exists d, ln_stray x d /\ entry d k = Some v).
    { intros k v H. rewrite T6 in H. destruct (ln_all_keys k) as [v' |] eqn:Q; [left; rewrite (T5 k v' Q) in H; exact H |]. destruct (TN5 k v H) as [K | K]; [contradiction K; exact Q | right; exact K]. }
    assert (ONE : forall i o q, In (i, o) objs -> In q objs -> inum o = inum (snd q) -> (i, o) = q).
    { intros i o q I J QN. pose proof (gl_numbers _ GL) as NN. rewrite <- ln_numbers in NN. fold objs in NN. clear - I J QN NN. induction objs as [| z l IH]; [destruct I |]. cbn [map] in NN. inversion NN as [| ? ? N1 N2]; subst.
      destruct I as [-> | I]; destruct J as [-> | J]; [reflexivity | | | apply IH; assumption]; exfalso; apply N1; apply in_map_iff; [exists q | exists (i, o)]; cbn [snd]; auto. }
    assert (X6 : forall q, In q objs -> xget (inum (snd q)) (pxref p6) = Some (use_entry q)).
    { intros q I. specialize (C6 (inum (snd q))). rewrite X5, (entry_of q I) in C6. destruct (xget (inum (snd q)) os) as [s |] eqn:Q; [| exact C6].
      destruct C6 as (e' & Q6 & SM & OO). rewrite Q6. f_equal. specialize (RO (inum (snd q))). rewrite Q in RO. destruct RO as (i & o & [Io _] & QN & ->). pose proof (ONE i o q Io I QN) as QQ. subst q.
      destruct SM as (M1 & M2 & M3 & M4). destruct e'. unfold use_entry, new_xentry in *. cbn in *. destruct OO; subst; congruence. }
    assert (IU : forall n e, xget n (pxref p6) = Some e -> x_type e = 1 -> exists q, In q objs /\ inum (snd q) = n /\ e = use_entry q).
    { intros n e Q TY. pose proof C6 as C7. specialize (C6 n). rewrite X5 in C6. destruct (ln_entry n) as [e0 |] eqn:NQ.
      - destruct (of_entry n e0 NQ) as [[-> ->] | (q & Iq & Qn & ->)].
        + exfalso. destruct (xget 0 os) as [s |]; [| rewrite C6 in Q; injection Q as <-; discriminate TY]. destruct C6 as (e' & Q6 & (M1 & M2 & M3 & M4) & _). assert (e' = e) by congruence. subst e'. cbn in *. congruence.
        + exists q. split; [exact Iq |]. split; [exact Qn |]. subst n. rewrite (X6 q Iq) in Q. congruence.
      - exfalso. destruct (xget n os) as [s |] eqn:QS; [| congruence]. specialize (RO n). rewrite QS in RO. destruct RO as (i & o & [I _] & QN & _). pose proof (entry_of (i, o) I) as K. cbn [snd] in K. rewrite QN in K. congruence. }
    assert (NE : dget (lit "Encrypt") (ptrailer p6) = None).
    { rewrite dget_entry. destruct (entry (ptrailer p6) (lit "Encrypt")) as [v |] eqn:Q; [| reflexivity]. exfalso. destruct (TR _ _ Q) as [K | (d & FO & K)]; [| rewrite (stray_plain d FO) in K; discriminate K].
      unfold ln_all_keys in K. rewrite (no_entry (ln_other x)), (no_entry (with_prev _ _)) in K; [discriminate K | | exact (proj2 (gl_other_keys _ GL))]. cbn [with_prev]. rewrite map_app. intros I. apply in_app_or in I. destruct I as [I | [I | []]]; [exact (proj2 (gl_main_keys _ GL) I) | discriminate I]. }
    rewrite NE. exists p6. split; [reflexivity |]. split; [exact W6 |]. split.
    { rewrite (repair_log file (ord os) p5 tt p6 W5); [exact L5 | | exact R6]. eapply Permutation_NoDup; [symmetry; apply Permutation_map; apply P | exact ND]. }
    split; [congruence |]. split; [intros k v Q; rewrite T6; exact (T5 k v Q) |]. split; [exact TR |]. split; [| split; [exact X6 |]].
    - intros n e Q TY. destruct (IU n e Q TY) as (q & Iq & _ & ->). cbn. destruct (ln_place_good q Iq) as [B _]. lia.
    - intros n (e & Q & TY). destruct (IU n e Q TY) as (q & Iq & Qn & _). eauto.
  Qed.
  Lemma linear_object : forall k o, In (k, o) (ln_places x) -> object_at E file k (as_written o).
  Proof. intros k o I. rewrite ln_file. apply parts_object; [rewrite ln_places_are; exact I | apply (gl_objects _ GL); eapply ln_places_in; exact I]. Qed.
  Lemma ln_place_of : forall o, In o (ln_objects x) -> exists k, In (k, o) (ln_places x).
  Proof.
    intros o I. apply in_app_or in I. destruct I as [I | I]; apply in_split in I; destruct I as (D1 & D2 & Q).
    - exists (zlen w_version + zlen (w_objects D1)). apply in_or_app. left. apply places_split. exists D1, D2. auto.
    - exists (zlen w_version + zlen (w_first x) + zlen (w_objects D1)). apply in_or_app. right. apply places_split. exists D1, D2. auto.
  Qed.
End Linear.
