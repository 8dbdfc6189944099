(** RepairP.v -- Load's repair step: C23, C24. *)
From Verif Require Import Base BaseP Msg Reader ReaderP Num Lexer Obj ReadObj Env Getters GetObj Regex Xref Security Load Plain LexerP ReadObjP SpecLex SpecLexP SpecObj
  SpecNumP SpecObjP SpecRead ReadP RelP GetObjP SpecFetch FetchP SpecStream StreamObjP LookP SpecScan RegexP ChunkP CryptObjP ScanP.
From Coq Require Import Strings.String Sorting.Permutation.

Lemma xget_xset_other : forall n m e x, n <> m -> xget n (xset m e x) = xget n x.
Proof. intros. unfold xget, xset. apply (mget_mset_other Z.eqb Zeqb_ok). congruence. Qed.

(** ReadInt gives the number at the position, or 0 *)
Lemma read_int_value : forall file s, wf file s ->
  fst (read_int s) = fst (p_int (rest s)).
Proof.
  intros file s W. destruct (p_ws (rest s)) as [| b q] eqn:PW.
  - destruct (read_int_eof file s _ _ _ (St_intro _ _ W) PW) as (s' & R & _). rewrite R. unfold p_int. rewrite PW. reflexivity.
  - destruct (read_int_sim file s _ _ _ (St_intro _ _ W)) as (s' & R & _); [congruence |]. rewrite R. reflexivity.
Qed.
Lemma header_no_number : forall file s n, wf file s -> n <> 0 -> ~ int_at file (pos s) n -> 
  fst (fst (fst (read_object_header s))) <> n.
Proof.
  intros file s n W NZ NI Q. unfold read_object_header in Q. pose proof (read_int_value file s W) as R.
  assert (V : fst (fst (read_int s)) = n). { destruct (read_int s) as [[v [|]] s1]; [destruct (read_int s1) as [[g [|]] s2]; [destruct (read_keyword s2) |] |]; exact Q. }
  rewrite R in V. destruct (p_int (rest s)) as [[v ok] r] eqn:P. cbn [fst] in V. subst v. destruct ok.
  - apply NI. destruct (p_int_inv _ _ _ P) as (g & t & k & G & T & E & -> & N). exists g, t, k, r.
    rewrite <- (wf_rest _ _ W). split; [assumption |]. split; [assumption |]. split; [assumption |]. split; [apply nd_decdigit; assumption | reflexivity].
  - unfold p_int in P. destruct (p_ws (rest s)) as [| b q]; [congruence |]. destruct (is_digit b); [| congruence]. destruct (p_digits _ _). discriminate.
Qed.

Lemma repair_one_spec : forall file num object p, reads file p -> exists p',
  repair_one file (num, object) p = Ok (tt, p') /\ reads file p' /\ ptrailer p' = ptrailer p /\ psh p' = psh p /\
  (forall n, n <> num -> xget n (pxref p') = xget n (pxref p)) /\
  match xget num (pxref p) with
  | None => xget num (pxref p') = Some object
  | Some e => (xget num (pxref p') = Some e \/ xget num (pxref p') = Some (set_off (x_off object) e)) /\
      (0 <= x_off e -> num <> 0 -> ~ int_at file (x_off e) num -> xget num (pxref p') = Some (set_off (x_off object) e))
  end.
Proof.
  intros file num object p W. unfold repair_one. destruct (xget num (pxref p)) as [e |] eqn:X.
  - unfold bind, pseek, onrd, put_xref, ret. cbn [prd with_rd].
    assert (W1 : wf file (seek file (x_off e) (prd p))) by (apply seek_wf; exact W).
    pose proof (read_object_header_rel file (keeps file) (keeps_respects file) _ _ (conj eq_refl W1)) as [_ [_ K]].
    assert (NO : 0 <= x_off e -> num <> 0 -> ~ int_at file (x_off e) num ->
      fst (fst (fst (read_object_header (seek file (x_off e) (prd p))))) <> num).
    { intros O NZ NI. apply (header_no_number file _ _ W1 NZ). replace (pos (seek file (x_off e) (prd p))) with (x_off e); [assumption |].
      unfold seek. apply Z.ltb_ge in O. rewrite O. reflexivity. }
    destruct (read_object_header (seek file (x_off e) (prd p))) as [[[n g] ok] s1]. cbn [fst snd] in *.
    destruct (ok || negb (n =? num)) eqn:C.
    + eexists. split; [reflexivity |]. cbn [pxref with_xref with_rd prd ptrailer psh]. split; [exact K |]. split; [reflexivity |]. split; [reflexivity |].
      split; [intros m N; apply xget_xset_other; assumption |]. split; [right; apply xget_xset |]. intros. apply xget_xset.
    + eexists. split; [reflexivity |]. cbn [pxref with_xref with_rd prd ptrailer psh]. split; [exact K |]. split; [reflexivity |]. split; [reflexivity |].
      split; [reflexivity |]. split; [left; assumption |]. intros O NZ NI. exfalso. apply (NO O NZ NI). apply orb_false_iff in C. destruct C as [_ C].
      apply negb_false_iff, Z.eqb_eq in C. assumption.
  - eexists. split; [reflexivity |]. cbn [pxref with_xref prd]. split; [exact W |]. split; [reflexivity |]. split; [reflexivity |].
    split; [intros n N; apply xget_xset_other; assumption | apply xget_xset].
Qed.

Definition redirected (file : bytes) (objs x x' : xmap) : Prop := forall n s e, xget n objs = Some s -> xget n x = Some e ->
  0 <= x_off e -> n <> 0 -> ~ int_at file (x_off e) n -> exists e', xget n x' = Some e' /\ x_off e' = x_off s.
Lemma repair_spec : forall file l p, reads file p -> NoDup (map fst l) -> exists p',
  repair file l p = Ok (tt, p') /\ reads file p' /\ ptrailer p' = ptrailer p /\ psh p' = psh p /\
  completed l (pxref p) (pxref p') /\ redirected file l (pxref p) (pxref p').
Proof.
  intros file. induction l as [| [num object] l IH]; intros p W ND.
  - exists p. split; [reflexivity |]. split; [assumption |]. split; [reflexivity |]. split; [reflexivity |].
    split; [intros n; reflexivity | intros n s e H; discriminate].
  - inversion ND as [| ? ? NI ND']; subst. cbn [repair]. unfold bind.
    destruct (repair_one_spec file num object p W) as (p1 & -> & W1 & T1 & H1 & O1 & M1).
    destruct (IH p1 W1 ND') as (p2 & -> & W2 & T2 & H2 & C2 & R2). exists p2. split; [reflexivity |]. split; [assumption |].
    split; [congruence |]. split; [congruence |].
    assert (NL : xget num l = None) by (apply (mget_None Z.eqb Zeqb_ok); assumption).
    assert (SM : xget num (pxref p2) = xget num (pxref p1)). { pose proof (C2 num) as C. rewrite NL in C. assumption. }
    split.
    + intros n. destruct (Z.eq_dec n num) as [-> | N].
      * unfold xget at 1. cbn [mget]. rewrite Z.eqb_refl. destruct (xget num (pxref p)) as [e |]; [| congruence].
        rewrite SM. destruct M1 as [[M | M] _]; rewrite M; eexists; (split; [reflexivity |]); split; try (split; [|split; [| split]]; reflexivity); [left | right]; reflexivity.
      * pose proof (C2 n) as C. rewrite (O1 n N) in C. unfold xget at 1. cbn [mget]. apply Z.eqb_neq in N. rewrite Z.eqb_sym, N || rewrite N. exact C.
    + intros n s e Hs He O NZ NN. destruct (Z.eq_dec n num) as [-> | N].
      * unfold xget in Hs. cbn [mget] in Hs. rewrite Z.eqb_refl in Hs. assert (s = object) by congruence. subst s.
        rewrite He in M1. destruct M1 as [_ M]. rewrite SM, M by assumption. eexists. split; reflexivity.
      * apply (R2 n s e); [| rewrite O1; assumption | assumption | assumption | assumption].
        unfold xget in Hs. cbn [mget] in Hs. apply Z.eqb_neq in N. rewrite ?N, ?(Z.eqb_sym num n), ?N in Hs. exact Hs.
Qed.

Lemma perm_xget : forall (l objs : xmap), Permutation l objs -> NoDup (map fst objs) -> forall n, xget n l = xget n objs.
Proof.
  intros l objs P ND n. assert (ND' : NoDup (map fst l)) by (eapply Permutation_NoDup; [symmetry; apply Permutation_map; exact P | assumption]).
  unfold xget. destruct (mget Z.eqb n objs) as [e |] eqn:Q.
  - apply (In_mget Z.eqb Zeqb_ok); [assumption |]. apply (BaseP.mget_In Z.eqb Zeqb_ok) in Q. eapply Permutation_in; [symmetry; exact P | assumption].
  - destruct (mget Z.eqb n l) as [e |] eqn:Q2; [| reflexivity]. exfalso.
    apply (BaseP.mget_In Z.eqb Zeqb_ok) in Q2. apply (mget_None Z.eqb Zeqb_ok) in Q. apply Q. apply in_map_iff. exists (n, e). split; [reflexivity |].
    eapply Permutation_in; eassumption.
Qed.
(** in whatever order the objects come *)
Theorem repair_any_order : forall file l objs p, reads file p -> NoDup (map fst objs) -> Permutation l objs -> exists p',
  repair file l p = Ok (tt, p') /\ reads file p' /\ ptrailer p' = ptrailer p /\ psh p' = psh p /\
  completed objs (pxref p) (pxref p') /\ redirected file objs (pxref p) (pxref p').
Proof.
  intros file l objs p W ND P. assert (ND' : NoDup (map fst l)) by (eapply Permutation_NoDup; [symmetry; apply Permutation_map; exact P | assumption]).
  destruct (repair_spec file l p W ND') as (p' & R & W' & T & H & C & D). exists p'. split; [assumption |]. split; [assumption |].
  split; [assumption |]. split; [assumption |]. split.
  - intros n. specialize (C n). rewrite (perm_xget l objs P ND) in C. exact C.
  - intros n s e Hs. rewrite <- (perm_xget l objs P ND) in Hs. apply D. assumption.
Qed.

(** ** Exactly which entries are redirected *)
Lemma header_whole : forall file s n g s', wf file s -> read_object_header s = ((n, g, true), s') -> exists m, head_at file (pos s) m.
Proof.
  intros file s n g s' W H. pose proof (St_intro _ _ W) as S0. set (e := pos s + zlen (rest s)) in *. clearbody e. unfold read_object_header in H.
  destruct (p_ws (rest s)) as [| b u] eqn:W1; [destruct (read_int_eof file s _ _ _ S0 W1) as (s1 & R1 & _); rewrite R1 in H; discriminate |].
  destruct (read_int_sim file s _ _ _ S0) as (s1 & R1 & S1); [congruence |]. rewrite R1 in H. destruct (p_int (rest s)) as [[v ok] r1] eqn:P1. cbn [fst snd] in *. destruct ok; [| discriminate].
  destruct (p_ws r1) as [| b' u'] eqn:W2; [destruct (read_int_eof file s1 _ _ _ S1 W2) as (s2 & R2 & _); rewrite R2 in H; discriminate |].
  destruct (read_int_sim file s1 _ _ _ S1) as (s2 & R2 & S2); [congruence |]. rewrite R2 in H. destruct (p_int r1) as [[v2 ok2] r2] eqn:P2. cbn [fst snd] in *. destruct ok2; [| discriminate].
  destruct (read_keyword_sim file s2 _ _ _ S2) as (s3 & R3 & _). rewrite R3 in H. assert (K : bseq (fst (p_keyword r2)) (lit "obj") = true) by congruence. apply bseq_eq in K.
  destruct (p_int_inv _ _ _ P1) as (g0 & t0 & k0 & G0 & T0 & E0 & _ & N0). destruct (p_int_inv _ _ _ P2) as (g1 & t1 & k1 & G1 & T1 & E1 & _ & _).
  unfold p_keyword in K. destruct (p_kw_inv (p_ws r2)) as (r & Er & _ & ET & _). rewrite K in Er. destruct (p_ws_gap _ _ _ Er) as (g2 & G2 & E2).
  exists (wrap64 k0), (g0 ++ t0 ++ g1 ++ t1 ++ g2 ++ lit "obj"), k0, k1, r. split; [rewrite <- (wf_rest _ _ W), E0, E1, E2, <- !app_assoc; reflexivity |].
  split; [| split; [exact ET | reflexivity]]. constructor; try assumption. intros ->. cbn [app] in E1. destruct (nat_text_cons _ _ T1) as (c & d & q & ds & Q & DD & _). rewrite E1, Q in N0. cbn [app no_digit] in N0. apply decdigit_spec in DD. destruct DD. congruence.
Qed.
Lemma header_whole_back : forall file s m, wf file s -> head_at file (pos s) m -> snd (fst (read_object_header s)) = true.
Proof.
  intros file s m W (h & k & g & r & Q & H & T & _). destruct (read_object_header_text file s h k g r (pos s + zlen (rest s)) (log s) H T) as (s' & R & _).
  - rewrite <- Q, <- (wf_rest _ _ W). apply St_intro. exact W.
  - rewrite R. reflexivity.
Qed.
Lemma int_at_iff : forall file s n, wf file s -> int_at file (pos s) n <-> fst (p_int (rest s)) = (n, true).
Proof.
  intros file s n W. split.
  - intros (g & t & k & r & Q & G & T & N & ->). rewrite (wf_rest _ _ W), Q. rewrite (p_int_text g t k r G T); [reflexivity |]. destruct r as [| b r]; [exact Logic.I |]. cbn [no_digit]. destruct (is_digit b) eqn:D; [| reflexivity]. exfalso. destruct (dec_digits_exist [b]) as (ds & DD); [intros c [<- | []]; exact D |]. inversion DD as [| ? d ? ? DB _]; subst. exact (N b r d eq_refl DB).
  - intros P. destruct (p_int (rest s)) as [[v ok] r] eqn:Q. cbn [fst] in P. injection P as -> ->. destruct (p_int_inv _ _ _ Q) as (g & t & k & G & T & E & -> & N). exists g, t, k, r.
    rewrite <- (wf_rest _ _ W). split; [assumption |]. split; [assumption |]. split; [assumption |]. split; [apply nd_decdigit; assumption | reflexivity].
Qed.
Lemma header_number : forall s, fst (fst (fst (read_object_header s))) = fst (fst (read_int s)).
Proof. intros s. unfold read_object_header. destruct (read_int s) as [[v [|]] s1]; [destruct (read_int s1) as [[g [|]] s2]; [destruct (read_keyword s2) |] |]; reflexivity. Qed.
Lemma header_taken : forall file s n, wf file s -> taken_for file (pos s) n <-> fst (fst (fst (read_object_header s))) = n.
Proof.
  intros file s n W. rewrite header_number, (read_int_value file s W). split.
  - intros [H | [-> H]].
    + apply (int_at_iff file s n W) in H. rewrite H. reflexivity.
    + destruct (p_int (rest s)) as [[v ok] r] eqn:Q. cbn [fst]. destruct ok.
      * exfalso. apply (H v). apply (int_at_iff file s v W). rewrite Q. reflexivity.
      * unfold p_int in Q. destruct (p_ws (rest s)) as [| b q]; [congruence |]. destruct (is_digit b); [| congruence]. destruct (p_digits _ _). discriminate.
  - intros <-. destruct (p_int (rest s)) as [[v ok] r] eqn:Q. cbn [fst]. destruct ok.
    + left. apply (int_at_iff file s v W). rewrite Q. reflexivity.
    + right. split.
      * unfold p_int in Q. destruct (p_ws (rest s)) as [| b q]; [congruence |]. destruct (is_digit b); [| congruence]. destruct (p_digits _ _). discriminate.
      * intros m H. apply (int_at_iff file s m W) in H. rewrite Q in H. discriminate.
Qed.
Lemma repair_one_exact : forall file num object p e p', reads file p -> xget num (pxref p) = Some e -> 0 <= x_off e -> repair_one file (num, object) p = Ok (tt, p') ->
  ((exists m, head_at file (x_off e) m) \/ ~ taken_for file (x_off e) num -> xget num (pxref p') = Some (set_off (x_off object) e)) /\
  (~ (exists m, head_at file (x_off e) m) -> taken_for file (x_off e) num -> xget num (pxref p') = Some e).
Proof.
  intros file num object p e p' W X O H. unfold repair_one in H. rewrite X in H. unfold bind, pseek, onrd, put_xref, ret in H. cbn [prd with_rd] in H.
  assert (W1 : wf file (seek file (x_off e) (prd p))) by (apply seek_wf; exact W).
  assert (PS : pos (seek file (x_off e) (prd p)) = x_off e) by (unfold seek; apply Z.ltb_ge in O; rewrite O; reflexivity).
  pose proof (header_taken file _ num W1) as TK. pose proof (header_whole file (seek file (x_off e) (prd p))) as HW. pose proof (header_whole_back file (seek file (x_off e) (prd p))) as HB. rewrite PS in *.
  destruct (read_object_header (seek file (x_off e) (prd p))) as [[[n g] ok] s1]. cbn [fst snd] in *.
  destruct (ok || negb (n =? num)) eqn:C.
  - match type of H with Ok (_, ?q) = _ => assert (p' = q) by congruence end. subst p'. cbn [pxref with_xref with_rd]. rewrite xget_xset. split; [reflexivity |].
    intros NH T. exfalso. apply TK in T. subst n. rewrite Z.eqb_refl in C. cbn [negb] in C. rewrite orb_false_r in C. subst ok. apply NH. exact (HW _ _ _ W1 eq_refl).
  - apply orb_false_iff in C. destruct C as [-> C]. apply negb_false_iff, Z.eqb_eq in C. match type of H with Ok (_, ?q) = _ => assert (p' = q) by congruence end. subst p'. cbn [pxref with_rd]. split; [| intros; exact X].
    intros [(m & HM) | NT]; [pose proof (HB m W1 HM); discriminate | exfalso; apply NT, TK; exact C].
Qed.
Lemma repair_exact : forall file l p p', reads file p -> NoDup (map fst l) -> repair file l p = Ok (tt, p') -> repaired file l (pxref p) (pxref p').
Proof.
  intros file. induction l as [| [num object] l IH]; intros p p' W ND H n s e Hs He O; [discriminate |].
  inversion ND as [| ? ? NI ND']; subst. cbn [repair] in H. unfold bind in H.
  destruct (repair_one_spec file num object p W) as (p1 & R1 & W1 & _ & _ & O1 & _). rewrite R1 in H.
  assert (NL : xget num l = None) by (apply (mget_None Z.eqb Zeqb_ok); assumption).
  destruct (Z.eq_dec n num) as [-> | N].
  - unfold xget in Hs. cbn [mget] in Hs. rewrite Z.eqb_refl in Hs. assert (s = object) by congruence. subst s.
    destruct (repair_spec file l p1 W1 ND') as (p2 & R2 & _ & _ & _ & C2 & _). assert (p2 = p') by congruence. subst p2.
    pose proof (C2 num) as C. rewrite NL in C. rewrite C. exact (repair_one_exact file num object p e p1 W He O R1).
  - apply (IH p1 p' W1 ND' H n s e); [| rewrite O1; assumption | exact O]. unfold xget in Hs. cbn [mget] in Hs. apply Z.eqb_neq in N. rewrite ?N, ?(Z.eqb_sym num n), ?N in Hs. exact Hs.
Qed.
Theorem repair_exactly : forall file l objs p p', reads file p -> NoDup (map fst objs) -> Permutation l objs -> repair file l p = Ok (tt, p') -> repaired file objs (pxref p) (pxref p').
Proof.
  intros file l objs p p' W ND P H n s e Hs. assert (ND' : NoDup (map fst l)) by (eapply Permutation_NoDup; [symmetry; apply Permutation_map; exact P | assumption]).
  rewrite <- (perm_xget l objs P ND) in Hs. exact (repair_exact file l p p' W ND' H n s e Hs).
Qed.

Theorem repair_does : forall file l objs p, reads file p -> NoDup (map fst objs) -> Permutation l objs -> exists p',
  repair file l p = Ok (tt, p') /\ reads file p' /\ ptrailer p' = ptrailer p /\ psh p' = psh p /\
  completed objs (pxref p) (pxref p') /\ repaired file objs (pxref p) (pxref p').
Proof.
  intros file l objs p W ND P. destruct (repair_any_order file l objs p W ND P) as (p' & R & W' & T & H & C & _). exists p'.
  split; [exact R |]. split; [exact W' |]. split; [exact T |]. split; [exact H |]. split; [exact C |]. exact (repair_exactly file l objs p p' W ND P R).
Qed.

(** ** Load as a whole *)
Definition same_apart_from_enc (a b : option xentry) : Prop :=
  match a, b with
  | Some e, Some e' => x_off e' = x_off e /\ x_gen e' = x_gen e /\ x_type e' = x_type e /\ x_stm e' = x_stm e
  | None, None => True
  | _, _ => False
  end.
Lemma same_enc_refl : forall a, same_apart_from_enc a a.
Proof. intros [e |]; cbn; auto. Qed.
Lemma exempt_same : forall file en p u p' n, exempt_encrypt en p = Ok (u, p') -> reads file p -> reads file p' /\ same_apart_from_enc (xget n (pxref p)) (xget n (pxref p')).
Proof.
  intros file en p u p' n H W. unfold exempt_encrypt in H.
  destruct en; try (assert (p' = p) by congruence; subst; split; [assumption | apply same_enc_refl]; fail).
  destruct (xget n0 (pxref p)) as [e |] eqn:X; [| assert (p' = p) by congruence; subst; split; [assumption | apply same_enc_refl]].
  match type of H with Ok (_, ?q) = _ => assert (p' = q) by congruence end. subst p'. split; [exact W |]. cbn [pxref with_xref].
  destruct (Z.eq_dec n n0) as [-> | D]; [rewrite xget_xset, X; cbn; auto | rewrite xget_xset_other by assumption; apply same_enc_refl].
Qed.
Theorem load_completes : forall fuel E ord file pw p r p', reads file p -> pxref p = [] -> (2 <= fuel)%nat ->
  (forall m, Permutation (ord m) m) -> load fuel E ord file pw p = Ok (r, p') ->
  exists l objs q0 q x', scan obj_marker file 0 l /\ records file l objs /\
    reads file q0 /\ pxref q0 = [] /\ load_all fuel E file (xref_offsets file objs) q0 = Ok (tt, q) /\
    completed objs (pxref q) x' /\ forall n, same_apart_from_enc (xget n x') (xget n (pxref p')).
Proof.
  intros fuel E ord file pw p r p' W X F P H. unfold load, bind in H.
  destruct (find_objects_records E file p fuel W X F) as (l & objs & p1 & F1 & SC & RC & W1 & X1 & T1 & S1 & ND). rewrite F1 in H.
  destruct (pseek file (zlen file) p1) as [[u p2]| |] eqn:F2; try discriminate.
  assert (W2 : reads file p2) by (eapply safe_pseek; [exact W1 | exact F2]).
  assert (X2 : pxref p2 = []). { unfold pseek in F2. match type of F2 with Ok (_, ?q) = _ => assert (p2 = q) by congruence end. subst p2. exact X1. }
  destruct (load_all fuel E file _ p2) as [[[] p3]| |] eqn:F3; try discriminate.
  assert (W3 : reads file p3) by (eapply safe_load_all; eassumption).
  destruct (repair_any_order file (ord objs) objs p3 W3 ND (P objs)) as (p4 & F4 & W4 & T4 & S4 & C4 & _). rewrite F4 in H.
  exists l, objs, p2, p3, (pxref p4). split; [assumption |]. split; [assumption |]. split; [assumption |]. split; [assumption |]. split; [assumption |]. split; [assumption |].
  intros n. destruct (dget (lit "Encrypt") (ptrailer p4)) as [enc |].
  - destruct (exempt_encrypt enc p4) as [[u5 p5]| |] eqn:F5; try discriminate.
    destruct (exempt_same file enc p4 u5 p5 n F5 W4) as [W5 SM]. destruct (set_password_sparing _ _ _ _ _ _ _ W5 H) as (_ & Xp & _). rewrite Xp. exact SM.
  - assert (p' = p4) by congruence. subst. apply same_enc_refl.
Qed.
(** so every marker's number has an entry *)
Theorem load_has_markers : forall fuel E ord file pw p r p', reads file p -> pxref p = [] -> (2 <= fuel)%nat ->
  (forall m, Permutation (ord m) m) -> load fuel E ord file pw p = Ok (r, p') ->
  exists l, scan obj_marker file 0 l /\ forall i j k, In (i, j) l -> number_at file i k -> xget (wrap64 k) (pxref p') <> None.
Proof.
  intros fuel E ord file pw p r p' W X F P H.
  destruct (load_completes fuel E ord file pw p r p' W X F P H) as (l' & objs & q0 & q & x' & SC' & RC & _ & _ & _ & C & SM).
  exists l'. split; [assumption |]. intros i j k I A N.
  specialize (RC (wrap64 k)). specialize (C (wrap64 k)). specialize (SM (wrap64 k)). rewrite N in SM.
  destruct (xget (wrap64 k) objs) as [s |].
  - destruct (xget (wrap64 k) (pxref q)) as [e |]; [destruct C as (e' & C & _) |]; rewrite C in SM; destruct SM.
  - exact (RC i j k I A eq_refl).
Qed.
