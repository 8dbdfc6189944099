(** HybridP.v -- hybrid-reference files (C119). *)
From Verif Require Import Base BaseP Msg Reader ReaderP Num NumP Lexer Plain LexerP Obj ReadObj Bits Filters Env Getters Crypt GetObj GetObjP Regex Xref Load
  SpecLex SpecLexP SpecObj SpecObjP SpecNumP SpecRead SpecFetch SpecStream SpecScan SpecXref SpecRecover SpecTrailer FetchP ReadP ReadObjP ErrorsP StreamP StreamObjP WriteP WriteDocP ScanP XrefP LoadMonoP OrderP RepairP CryptObjP DocP RecoverP WriteLoadP TrailerP SpecHybrid.
From Coq Require Import Strings.String Sorting.Permutation.

Section Hybrid.
  Variables (E : env) (file : bytes) (off k : Z) (t s : section) (is : list Z).
  Hypothesis HY : hybrid E file off k t s.
  Hypothesis OT : only_these E file off k is.
  Variables (n : Z) (e : xentry).
  Hypothesis Nt : latest n (sc_entries t) = None.
  Hypothesis Ns : latest n (sc_entries s) = Some e.

  Definition hybrid_site (i : Z) : Prop := i = off \/ i = k \/ (0 <= i /\ start_at file i).
  Lemma single_step : forall fuel i sec p u p', section_at E file i sec None -> reads file p -> load_xref fuel E file i [] p = Ok (u, p') ->
    xget n (pxref p') = or_else (latest n (sc_entries sec)) (xget n (pxref p)).
  Proof.
    intros fuel i sec p u p' SA W H. assert (CH : chain E file i [] [sec]) by (apply ch_last; [intros [] | exact SA]).
    destruct (chain_loaded E file (psh p) i [] [sec] CH) as (F0 & CL). destruct (CL (Nat.max F0 fuel) p (Nat.le_max_l _ _) W eq_refl) as (q & F7 & _ & _ & XG & _).
    destruct (load_xref_mono fuel (Nat.max F0 fuel) (Nat.le_max_r _ _) E file i [] p) as [Q | Q]; [congruence |]. assert (q = p') by congruence. subst q.
    rewrite XG. cbn [newest]. destruct (latest n (sc_entries sec)); reflexivity.
  Qed.
  Lemma site_step : forall fuel i p u p', hybrid_site i -> reads file p -> load_xref fuel E file i [] p = Ok (u, p') ->
    i = k \/ xget n (pxref p) = Some e -> xget n (pxref p') = Some e.
  Proof.
    intros fuel i p u p' ST W H C. destruct (Z.eq_dec i k) as [-> | NK].
    - rewrite (single_step fuel k s p u p' (hy_stream _ _ _ _ _ _ HY) W H), Ns. reflexivity.
    - destruct C as [C | C]; [contradiction |]. destruct ST as [-> | [C' | [O SA]]]; [| contradiction |].
      + rewrite (single_step fuel off t p u p' (hy_table _ _ _ _ _ _ HY) W H), Nt. exact C.
      + destruct fuel as [| f]; [discriminate |]. destruct (start_step E file i f p O SA W) as (s1 & R). rewrite R in H. assert (p' = with_rd s1 p) by congruence. subst. exact C.
  Qed.
  Lemma site_all : forall fuel offs p u p', Forall hybrid_site offs -> reads file p -> load_all fuel E file offs p = Ok (u, p') ->
    In k offs \/ xget n (pxref p) = Some e -> xget n (pxref p') = Some e.
  Proof.
    intros fuel. induction offs as [| i offs IH]; intros p u p' ST W H C; cbn [load_all] in H.
    - unfold ret in H. assert (p' = p) by congruence. subst. destruct C as [[] | C]; exact C.
    - unfold bind in H. destruct (load_xref fuel E file i [] p) as [[u1 p1]| |] eqn:L; try discriminate. inversion ST as [| ? ? S1 S2]; subst.
      destruct (holds_load_xref file fuel E i [] p u1 p1 W L) as [W1 _]. eapply IH; [exact S2 | exact W1 | exact H |].
      destruct (Z.eq_dec i k) as [QK | NK]; [right; eapply site_step; [exact S1 | exact W | exact L | left; exact QK] |].
      destruct C as [C | C]; [left; destruct C as [C | C]; [exfalso; exact (NK C) | exact C] | right; eapply site_step; [exact S1 | exact W | exact L | right; exact C]].
  Qed.
End Hybrid.

Lemma headers_of : forall E file off k is, only_these E file off k is -> forall j, In j is -> exists n, header_at file j n.
Proof.
  intros E file off k is OT j J. destruct (ot_objects _ _ _ _ _ OT j J) as [-> | (o & OA)]; [| exists (inum o); eapply object_header_at; exact OA].
  destruct (ot_stream _ _ _ _ _ OT) as (n & _ & HA & _). exists n. exact HA.
Qed.
(** the search finds the stream *)
Lemma stream_found : forall E file off k t s is l os, hybrid E file off k t s -> only_these E file off k is -> scan obj_marker file 0 l -> records file l os -> NoDup (map fst os) ->
  In k (map (fun kv : Z * xentry => x_off (snd kv)) (filter (fun kv => x_stm (snd kv)) os)).
Proof.
  intros E file off k t s is l os HY OT SC RC ND. destruct (ot_stream _ _ _ _ _ OT) as (n & I & HD & LAST).
  pose proof (headers_of _ _ _ _ _ OT) as HA. pose proof (scan_headers file is l HA (ot_markers _ _ _ _ _ OT) SC) as SO.
  pose proof (RC n) as RN. destruct (xget n os) as [x |] eqn:XN.
  2: { exfalso. assert (I2 : In k (map fst l)) by (apply SO; exact I). apply in_map_iff in I2. destruct I2 as ([i2 j2] & Q & I2). cbn in Q. subst i2.
       destruct HD as (B1 & B2 & B3 & h & g & r & Z0 & Hd). apply (RN k j2 n I2); [eapply header_number_at; [exact Z0 | exact Hd] |]. apply wrap_small. exact B2. }
  destruct RN as (l1 & i & j & l2 & QL & ME & LS).
  set (x' := {| x_off := k; x_gen := x_gen x; x_type := x_type x; x_enc := x_enc x; x_stm := x_stm x |}).
  destruct (position file is l os os [{| sc_entries := [(n, x')]; sc_trailer := [] |}] k n (x_gen x) x' (ot_markers _ _ _ _ _ OT) HA SC RC) as (e' & X & XO & _).
  - intros m y. cbn [newest latest sc_entries]. destruct (Z.eqb_spec n m) as [-> | NE]; [| discriminate]. intros Q. injection Q as <-. rewrite XN.
    exists x. split; [reflexivity |]. split; [repeat split | right; reflexivity].
  - exact HD.
  - split; [exact I |]. split; [exact LAST |]. cbn [newest latest sc_entries]. rewrite Z.eqb_refl. split; [reflexivity |]. split; [exact (me_type _ _ _ _ ME) |]. split; reflexivity.
  - assert (e' = x) by congruence. subst e'. apply in_map_iff. exists (n, x). split; [exact XO |]. apply filter_In. split; [eapply BaseP.mget_In; [exact Zeqb_ok | exact XN] |]. cbn [snd].
    assert (i = k) by (rewrite <- (me_off _ _ _ _ ME); exact XO). subst i.
    destruct (hy_type _ _ _ _ _ _ HY) as (n1 & g1 & b1 & data1 & SA & TY).
    inversion SA as [head n0 g0 g2 tx d g3 pre eol data eol' r fl pl out OH G1 OBT G3 NE ET EB NO EA O Z0 L FO PO DC]; subst.
    apply (me_stm _ _ _ _ ME head n0 g0 g2 tx (sc_trailer s) (g3 ++ lit "stream" ++ pre ++ eol ++ data ++ eol' ++ lit "endstream" ++ r)); try assumption.
    apply head_mod. repeat rewrite zlen_app in *. pose proof (zlen_nonneg _ tx). pose proof (zlen_nonneg _ g3). pose proof (zlen_nonneg _ pre). pose proof (zlen_nonneg _ eol).
    change (zlen (lit "stream")) with 6 in L. unfold bufsize in *; lia.
Qed.

Theorem hybrid_read : forall E fuel ord file pw p off k t s is, (2 <= fuel)%nat -> (forall m, Permutation (ord m) m) ->
  load fuel E ord file pw (new_parser file) = Ok (None, p) -> entry (ptrailer p) (lit "Encrypt") = None ->
  last_start (last256 file) off -> off < 2 ^ 63 -> hybrid E file off k t s -> only_these E file off k is ->
  forall i o e, object_at E file i o -> last_start_of file is i (inum o) -> hybrid_entry (inum o) t s e -> x_type e = 1 -> x_off e = i -> x_gen e = igen o ->
    (forall e', latest (inum o) (sc_entries t) = Some e' -> x_type e' = 1) -> fetched E file p (inum o) o.
Proof.
  intros E fuel ord file pw p off k t s is F P H NE LS LO HY OT i o e OA (Ii & HDi & LASTi) HE TE OE GE NH.
  pose proof (headers_of _ _ _ _ _ OT) as HA. pose proof (ot_markers _ _ _ _ _ OT) as ON.
  assert (CH : chain E file off [] [t]) by (apply ch_last; [intros [] | exact (hy_table _ _ _ _ _ _ HY)]).
  destruct HE as [[N _] | [[N1 N2] | (_ & TN & _)]]; [| | contradiction].
  { destruct (sections_read E fuel ord file pw p off [t] is F P H NE LS LO CH ON HA) as [SR _]. apply (SR i o e OA). split; [exact Ii |]. split; [exact LASTi |]. cbn [newest]. rewrite N. auto. }
  assert (Nt : latest (inum o) (sc_entries t) = None).
  { destruct (latest (inum o) (sc_entries t)) as [y |] eqn:L; [| reflexivity]. exfalso. exact (N1 y eq_refl (NH y eq_refl)). }
  unfold load in H. unfold bind at 1 in H.
  destruct (find_objects_records E file (new_parser file) fuel (open_wf file) eq_refl F) as (l & os & p1 & F1 & SC & RC & W1 & X1 & T1 & S1 & ND). rewrite F1 in H. unfold bind at 1 in H.
  destruct (pseek file (zlen file) p1) as [[u p2]| |] eqn:F2; try discriminate. unfold bind at 1 in H.
  destruct (holds_pseek file _ _ _ _ W1 F2) as [W2 S2].
  destruct (load_all fuel E file _ p2) as [[[] p3]| |] eqn:F3; try discriminate. unfold bind at 1 in H.
  destruct (holds_load_all file _ _ _ _ _ _ W2 F3) as [W3 S3].
  destruct (repair_any_order file (ord os) os p3 W3 ND (P os)) as (p4 & F4 & W4 & T4 & S4 & C4 & _). rewrite F4 in H.
  assert (X3 : xget (inum o) (pxref p3) = Some e).
  { eapply (site_all E file off k t s HY (inum o) e Nt N2); [| exact W2 | exact F3 |].
    - apply Forall_forall. intros x I. unfold xref_offsets in I. apply in_app_or in I. destruct I as [I | I].
      + apply (proj1 (sortZ_In _ _)) in I. apply in_app_or in I. destruct I as [I | I].
        * apply (proj2 (xref_positions file)) in I. destruct (ot_xref _ _ _ _ _ OT x I) as [C | C]; [left; exact C | right; right; split; [destruct I as [B _]; lia | exact C]].
        * right. left. apply in_map_iff in I. destruct I as ([m y] & <- & I). apply filter_In in I. destruct I as [I SM]. cbn [snd] in *.
          pose proof (RC m) as RM. rewrite ((In_mget Z.eqb Zeqb_ok m y os ND I : xget m os = Some y)) in RM. destruct RM as (l1 & i1 & j1 & l2 & QL & ME & _). rewrite (me_off _ _ _ _ ME).
          assert (II : In i1 is) by (apply (scan_headers file is _ HA ON SC); rewrite QL, map_app; apply in_or_app; right; left; reflexivity).
          destruct (ot_objects _ _ _ _ _ OT i1 II) as [C | (o1 & OA1)]; [exact C | exfalso]. destruct (entry_of_object _ _ _ _ _ _ OA1 ME) as [_ Q2]. rewrite Q2 in SM. discriminate.
      + destruct (start_xref_offset file) as [off' |] eqn:SO; [| destruct I]. destruct I as [<- | []]. left.
        assert (SO' : start_xref_offset file = Some off) by (apply start_offset; auto). congruence.
    - left. unfold xref_offsets. apply in_or_app. left. apply (proj2 (sortZ_In _ _)). apply in_or_app. right. eapply stream_found; eassumption. }
  assert (X4 : table_of [{| sc_entries := [(inum o, e)]; sc_trailer := [] |}] os (pxref p4)).
  { intros m y. cbn [newest latest sc_entries]. destruct (Z.eqb_spec (inum o) m) as [<- | NQ]; [| discriminate]. intros Q. injection Q as <-. specialize (C4 (inum o)). rewrite X3 in C4. destruct (xget (inum o) os); exact C4. }
  assert (Q : p = p4).
  { destruct (dget (lit "Encrypt") (ptrailer p4)) as [enc |] eqn:DE; [| congruence]. exfalso. unfold bind in H.
    destruct (exempt_encrypt enc p4) as [[u5 p5]| |] eqn:F5; try discriminate.
    destruct (exempt_same file enc p4 u5 p5 0 F5 W4) as [W5 _]. destruct (set_password_sparing _ _ _ _ _ _ _ W5 H) as (_ & _ & Tp).
    rewrite Tp, (proj1 (exempt_trailer _ _ _ _ F5)) in NE. rewrite dget_entry in DE. congruence. }
  subst p4.
  destruct (position _ _ _ _ _ _ i (inum o) (igen o) e ON HA SC RC X4 (object_header_at _ _ _ _ OA)) as (e' & X & Y1 & Y2 & Y3 & _).
  { split; [exact Ii |]. split; [exact LASTi |]. cbn [newest latest sc_entries]. rewrite Z.eqb_refl. auto. }
  assert (SH : psh p = new_sechandler) by (rewrite S4, S3, S2, S1; reflexivity).
  eapply fetch_object; eassumption.
Qed.
