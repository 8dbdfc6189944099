(** DiskP.v -- what is in the output directory after a run (C116, C117). *)
From Verif Require Import Base BaseP Msg Reader ReaderP Num Lexer Obj Env Getters GetObj Load Output Render Extract Parse SpecFetch SpecLook SpecOut OutP OutTopP SpecDisk.
From Coq Require Import Strings.String.

Lemma put_same : forall n c d, put n c d n = Some c.
Proof. intros n c d. unfold put. destruct (list_eq_dec _ n n); [reflexivity | contradiction]. Qed.
Lemma put_other : forall n m c d, m <> n -> put n c d m = d m.
Proof. intros n m c d N. unfold put. destruct (list_eq_dec _ m n); [contradiction | reflexivity]. Qed.
Lemma name_inj : forall f g, out_name f = out_name g -> f = g.
Proof. intros f g. destruct f, g; intros Q; try reflexivity; vm_compute in Q; discriminate Q. Qed.
Lemma name_fixed : forall f, In (out_name f) fixed_names.
Proof. destruct f; vm_compute; tauto. Qed.
Lemma fixed_not_hash : forall n, In n fixed_names -> ~ hash_name n.
Proof. intros n I [L _]. cbn in I. repeat (destruct I as [<- | I]; [vm_compute in L; discriminate L |]). destruct I. Qed.
Lemma after_app : forall S a b d, after S (a ++ b) d = after S b (after S a d).
Proof. intros. unfold after. apply fold_left_app. Qed.

(** ** While the document is extracted *)
Definition later (o : op) : Prop := match o with OpEv (EDump n _) => hash_name n | OpEv (EWrite _ _) | OpClose _ => True | _ => False end.
Lemma after_fixed : forall S f ops d c, Forall later ops -> d (out_name f) = Some c -> after S ops d (out_name f) = Some (c ++ content f ops).
Proof.
  intros S f ops. induction ops as [| o ops IH]; intros d c LT D; [cbn; rewrite app_nil_r; exact D |]. inversion LT as [| ? ? L1 L2]; subst.
  unfold content. cbn [map List.concat]. fold (content f ops). change (after S (o :: ops) d) with (after S ops (step S d o)).
  destruct o as [| | g | [g t | n t] | g]; try contradiction; cbn [step appended].
  - destruct (ofile_eqb f g) eqn:Q.
    + assert (f = g) by (destruct f, g; (reflexivity || discriminate Q)). subst g. rewrite D. rewrite (IH _ (c ++ t)); [rewrite app_assoc; reflexivity | exact L2 | apply put_same].
    + assert (NE : f <> g) by (intros ->; destruct g; discriminate Q). apply IH; [exact L2 |]. destruct (d (out_name g)); [| exact D]. rewrite put_other; [exact D | intros X; apply NE, name_inj, X].
  - apply IH; [exact L2 |]. rewrite put_other; [exact D |]. intros X. apply (fixed_not_hash _ (name_fixed f)). rewrite X. exact L1.
  - apply IH; assumption.
Qed.
Lemma last_dump_cons : forall o ops n c, (forall c', o <> OpEv (EDump n c')) -> last_dump (o :: ops) n c <-> last_dump ops n c.
Proof.
  intros o ops n c N. split.
  - intros (a & b & Q & L). destruct a as [| x a]; cbn [app] in Q; injection Q as Q1 Q2; [exfalso; exact (N c Q1) |]. exists a, b. auto.
  - intros (a & b & -> & L). exists (o :: a), b. auto.
Qed.
Lemma after_none : forall S n ops d, Forall later ops -> ~ In n fixed_names -> (forall c, ~ In (OpEv (EDump n c)) ops) -> after S ops d n = d n.
Proof.
  intros S n ops. induction ops as [| o ops IH]; intros d LT NF ND; [reflexivity |]. inversion LT as [| ? ? L1 L2]; subst. change (after S (o :: ops) d) with (after S ops (step S d o)).
  rewrite IH; [| exact L2 | exact NF | intros c I; apply (ND c); right; exact I]. destruct o as [| | g | [g t | m t] | g]; try contradiction; cbn [step].
  - destruct (d (out_name g)); [| reflexivity]. apply put_other. intros ->. apply NF, name_fixed.
  - apply put_other. intros ->. apply (ND t). left. reflexivity.
  - reflexivity.
Qed.
Lemma after_dump : forall S n ops d, Forall later ops -> ~ In n fixed_names -> d n = None -> forall c, after S ops d n = Some c <-> last_dump ops n c.
Proof.
  intros S n ops. induction ops as [| o ops IH] using rev_ind; intros d LT NF DN c.
  - cbn. rewrite DN. split; [discriminate |]. intros (a & b & Q & _). destruct a; discriminate Q.
  - apply Forall_app in LT. destruct LT as [L1 L2]. inversion L2 as [| ? ? L3 _]; subst. rewrite after_app. cbn [after fold_left].
    assert (SK : (forall t, o <> OpEv (EDump n t)) -> (last_dump (ops ++ [o]) n c <-> last_dump ops n c)).
    { intros N. split.
      - intros (a & b & Q & L). destruct b as [| y b _] using rev_ind.
        + apply app_inj_tail in Q. destruct Q as [_ Q]. exfalso. exact (N c Q).
        + rewrite app_comm_cons, app_assoc in Q. apply app_inj_tail in Q. destruct Q as [-> _]. exists a, b. split; [reflexivity |]. intros c' I. apply (L c'), in_or_app. left. exact I.
      - intros (a & b & -> & L). exists a, (b ++ [o]). split; [rewrite <- app_assoc; reflexivity |]. intros c' I. apply in_app_or in I. destruct I as [I | [I | []]]; [exact (L c' I) | exact (N c' I)]. }
    destruct o as [| | g | [g t | m t] | g]; try contradiction; cbn [step].
    + rewrite SK by discriminate. rewrite <- (IH d L1 NF DN). destruct (after S ops d (out_name g)); [| reflexivity]. rewrite put_other; [reflexivity |]. intros ->. apply NF, name_fixed.
    + destruct (list_eq_dec Byte.byte_eq_dec n m) as [<- | NE].
      * rewrite put_same. split.
        -- intros Q. injection Q as <-. exists ops, []. split; [reflexivity |]. intros c' [].
        -- intros (a & b & Q & L). destruct b as [| y b _] using rev_ind; [apply app_inj_tail in Q; destruct Q as [_ Q]; congruence |].
           exfalso. rewrite app_comm_cons, app_assoc in Q. apply app_inj_tail in Q. destruct Q as [_ <-]. apply (L t), in_or_app. right. left. reflexivity.
      * rewrite put_other by exact NE. rewrite SK by congruence. apply IH; assumption.
    + rewrite SK by discriminate. apply IH; assumption.
Qed.

(** ** Before that *)
Lemma start_created : forall S d, (forall f, s_create S f = true) ->
  (forall f, after S (fst (fst (new_output S))) d (out_name f) = Some []) /\ (forall n, ~ In n fixed_names -> after S (fst (fst (new_output S))) d n = None).
Proof.
  intros S d CR. unfold new_output, output_files. cbn [create_files]. rewrite !CR. cbn [fst snd]. unfold after. cbn [fold_left step]. rewrite !CR. split.
  - intros f. destruct f; repeat first [apply put_same | rewrite put_other by (vm_compute; discriminate)].
  - intros n N. repeat (rewrite put_other by (intros ->; apply N; vm_compute; tauto)). reflexivity.
Qed.
Lemma create_clears : forall S l d n, d n = None \/ d n = Some [] -> after S (fst (fst (create_files S l))) d n = None \/ after S (fst (fst (create_files S l))) d n = Some [].
Proof.
  intros S l. induction l as [| f l IH]; intros d n H; [exact H |]. cbn [create_files]. destruct (s_create S f) eqn:C.
  - destruct (create_files S l) as [[ops opened] ok]. cbn [fst] in *. change (after S (OpCreate f :: ops) d) with (after S ops (step S d (OpCreate f))). apply IH. cbn [step]. rewrite C.
    unfold put. destruct (list_eq_dec _ n (out_name f)); [right; reflexivity | exact H].
  - cbn [fst after fold_left step]. rewrite C. exact H.
Qed.
Lemma start_clears : forall S d n, after S (fst (fst (new_output S))) d n = None \/ after S (fst (fst (new_output S))) d n = Some [].
Proof.
  intros S d n. unfold new_output. pose proof (create_clears S output_files (fun _ => None) n (or_introl eq_refl)) as H. destruct (create_files S output_files) as [[ops opened] ok]. exact H.
Qed.
Lemma close_keeps : forall S opened d, after S (close_output opened) d = d.
Proof.
  intros S opened. assert (K : forall l d, (forall o, In o l -> exists f, o = OpClose f) -> after S l d = d).
  { intros l. induction l as [| o l IH]; intros d H; [reflexivity |]. destruct (H o (or_introl eq_refl)) as [f ->]. change (after S (OpClose f :: l) d) with (after S l d). apply IH. intros x I. apply H. right. exact I. }
  intros d. apply K. intros o I. destruct (close_ops _ _ I) as (f & -> & _). eauto.
Qed.

(** ** A run *)
Lemma run_later : forall E OD S fuel pw file, order_ok OD -> (forall b, List.length (e_md5 E b) = 16%nat) -> s_input S = Some file ->
  exists rest, fst (parse E OD fuel S pw) = fst (fst (new_output S)) ++ rest /\ Forall later rest.
Proof.
  intros E OD S fuel pw file OK M IN. destruct (parse_shape E OD fuel S pw) as [[_ Q] | (file' & w & tail & _ & -> & T & W)]; [congruence |].
  exists (map OpEv w ++ tail). split; [reflexivity |]. apply Forall_app. split.
  - assert (MF : manifested (e_md5 E) w) by (destruct W as [-> | ->]; [constructor | apply body_manifested; assumption]).
    clear - M MF. induction MF as [| f b w MF IH | name data h w H MF IH]; [constructor | constructor; [exact Logic.I | exact IH] |].
    constructor; [exact Logic.I |]. constructor; [| exact IH]. cbn. split; [rewrite (hexed_length _ _ H), M; reflexivity | apply (hexed_digits _ _ H)].
  - destruct T as [-> | ->]; [constructor |]. apply Forall_forall. intros o I. destruct (close_ops _ _ I) as (f & -> & _). exact Logic.I.
Qed.
Lemma new_no_events : forall S e, ~ In (OpEv e) (fst (fst (new_output S))).
Proof. intros S e I. destruct (new_output_ops _ _ I) as [X | [X | (f & X)]]; discriminate. Qed.
Lemma content_new : forall S f, content f (fst (fst (new_output S))) = [].
Proof.
  intros S f. assert (K : forall l, (forall e, ~ In (OpEv e) l) -> content f l = []).
  { intros l. induction l as [| o l IH]; intros N; [reflexivity |]. unfold content. cbn [map List.concat]. fold (content f l). rewrite IH by (intros e I; apply (N e); right; exact I).
    destruct o as [| | g | e | g]; try reflexivity. exfalso. apply (N e). left. reflexivity. }
  apply K. apply new_no_events.
Qed.
Lemma directory : forall E OD S fuel pw file d, order_ok OD -> (forall b, List.length (e_md5 E b) = 16%nat) -> s_input S = Some file -> (forall f, s_create S f = true) ->
  let ops := fst (parse E OD fuel S pw) in
  (forall f, f <> FErrors -> after S ops d (out_name f) = Some (content f ops)) /\ after S ops d (out_name FErrors) <> None /\
  (forall n, ~ In n (map out_name [FCommands; FErrors; FFiles; FJavascript; FRaw; FText; FURLs]) -> forall c, after S ops d n = Some c <-> last_dump ops n c) /\
  (forall n c, last_dump ops n c -> hexed (e_md5 E c) n /\ ~ In n (map out_name [FCommands; FErrors; FFiles; FJavascript; FRaw; FText; FURLs])).
Proof.
  intros E OD S fuel pw file d OK M IN CR ops. destruct (run_later E OD S fuel pw file OK M IN) as (r & Q & LT). fold ops in Q. destruct (start_created S d CR) as [S1 S2].
  assert (FX : forall f, after S ops d (out_name f) = Some (content f ops)).
  { intros f. rewrite Q, after_app, (after_fixed S f r _ [] LT (S1 f)). unfold content. rewrite map_app, concat_app. fold (content f (fst (fst (new_output S)))). rewrite content_new. reflexivity. }
  change (map out_name [FCommands; FErrors; FFiles; FJavascript; FRaw; FText; FURLs]) with fixed_names.
  split; [intros f _; apply FX |]. split; [rewrite FX; discriminate |]. split.
  - intros n N c. rewrite Q, after_app, (after_dump S n r _ LT N (S2 n N) c). split.
    + intros (a & b & -> & L). exists (fst (fst (new_output S)) ++ a), b. split; [rewrite <- app_assoc; reflexivity | exact L].
    + intros (a & b & Qa & L). assert (K : exists a', a = fst (fst (new_output S)) ++ a' /\ r = a' ++ OpEv (EDump n c) :: b).
      { revert Qa. generalize (new_no_events S). generalize (fst (fst (new_output S))). intros p. revert a. induction p as [| x p IH]; intros a NE Qa; [exists a; auto |].
        destruct a as [| y a]; cbn [app] in Qa; injection Qa as Q1 Q2; [exfalso; apply (NE (EDump n c)); left; exact Q1 |]. destruct (IH a) as (a' & -> & R); [intros e I; apply (NE e); right; exact I | exact Q2 |]. exists a'. subst y. auto. }
      destruct K as (a' & _ & ->). exists a', b. auto.
  - intros n c (a & b & Qa & L). destruct (parse_manifested E OD OK fuel S pw) as (pre & w & post & Qp & MF & NE). fold ops in Qp.
    assert (I : In (OpEv (EDump n c)) ops) by (rewrite Qa; apply in_or_app; right; left; reflexivity). rewrite Qp in I. apply in_app_or in I.
    destruct I as [I | I]; [exfalso; exact (proj1 (NE _) I) |]. apply in_app_or in I. destruct I as [I | I]; [| exfalso; exact (proj2 (NE _) I)].
    apply in_map_iff in I. destruct I as (e & Qe & I). injection Qe as ->.
    assert (H : hexed (e_md5 E c) n) by (clear - MF I; induction MF as [| f t w MF IH | name data h w H MF IH]; [destruct I | destruct I as [I | I]; [discriminate I | exact (IH I)] |]; destruct I as [I | [I | I]]; [discriminate I | injection I as <- <-; exact H | exact (IH I)]).
    split; [exact H |]. intros F. apply (fixed_not_hash n F). split; [rewrite (hexed_length _ _ H), M; reflexivity | apply (hexed_digits _ _ H)].
Qed.
Lemma directory_fresh : forall E OD S fuel pw file d d', s_input S = Some file -> forall n, after S (fst (parse E OD fuel S pw)) d n = after S (fst (parse E OD fuel S pw)) d' n.
Proof.
  intros E OD S fuel pw file d d' IN n. destruct (parse_shape E OD fuel S pw) as [[_ Q] | (file' & w & tail & _ & -> & _)]; [congruence |].
  unfold new_output. destruct (create_files S output_files) as [[ops opened] ok]. reflexivity.
Qed.

(** ** A run that fails *)
Lemma missing_kept : forall E OD S fuel pw d, s_input S = None -> parse E OD fuel S pw = ([], Ok POpen) /\ forall n, after S (fst (parse E OD fuel S pw)) d n = d n.
Proof. intros E OD S fuel pw d Q. assert (P : parse E OD fuel S pw = ([], Ok POpen)) by (unfold parse; rewrite Q; reflexivity). rewrite P. split; reflexivity. Qed.
Lemma refused_silent : forall E OD fuel file pw p w e q, parse_body E OD fuel file pw p = (w, Ok (Some e, q)) -> w = [].
Proof.
  intros E OD fuel file pw p w e q H. unfold parse_body, xbind, xlift in H. destruct (lift (debug E) p) as [[u p1] | |]; [| discriminate H | discriminate H].
  destruct (load fuel E (o_objects OD) file pw p1) as [[[e' |] p2] | |]; try discriminate H.
  - cbn in H. injection H as <- _ _. reflexivity.
  - destruct (extract_all E OD fuel file (o_xref OD (pxref p2)) p2) as [w' [[u' p3] | |]]; cbn in H; try discriminate H.
Qed.
Lemma failed_lost : forall E OD S fuel pw d ops e, parse E OD fuel S pw = (ops, Ok e) -> e <> PNone -> e <> POpen -> forall n, after S ops d n = None \/ after S ops d n = Some [].
Proof.
  intros E OD S fuel pw d ops e H N1 N2 n. unfold parse in H. destruct (s_input S) as [file |]; [| injection H as _ <-; contradiction].
  pose proof (start_clears S d n) as C. destruct (new_output S) as [[o1 opened] ok] eqn:Q. cbn [fst] in C. destruct ok.
  - destruct (parse_body E OD fuel file pw (new_parser file)) as [w [[[e' |] q] | |]] eqn:B; injection H as <- He; try congruence.
    rewrite (refused_silent _ _ _ _ _ _ _ _ _ B). cbn [map app]. rewrite after_app, close_keeps. exact C.
  - injection H as <- _. rewrite after_app, close_keeps. exact C.
Qed.
