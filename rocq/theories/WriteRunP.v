(** WriteRunP.v -- Parse returns for written documents (C92). *)
From Verif Require Import Base BaseP Msg Reader ReaderP Num NumP Lexer Plain LexerP Obj ReadObj Bits Filters Env Getters Crypt GetObj GetObjP Regex Xref Load Extract Output Render Parse Errors
  SpecLex SpecLexP SpecObj SpecObjP SpecFilters SpecRead SpecFetch SpecLook SpecStream SpecScan FetchP LookP RawP SpecTree SpecOut SpecSource SpecText SpecPage SpecPages SpecContents SpecTotal TotalP TreeP
  RecoverP SpecWrite SpecFollow WriteP WriteDocP WriteLoadP WriteOutP.
From Coq Require Import Strings.String Sorting.Permutation.

Section Run.
  Variables (E : env) (file : bytes) (p : pst) (D : list iobj).
  Hypothesis W : ReaderP.wf file (prd p).
  Hypothesis OF : offsets_ok (pxref p).
  (** objects as they are or as they are written *)
  Variable wr : iobj -> iobj.
  Hypothesis WR : forall o, wr o = o \/ wr o = as_written o.
  Hypothesis FD : forall o, In o D -> fetched E file p (inum o) (wr o).
  Hypothesis FN : forall n, ~ In n (map inum D) -> fetched E file p n (new_iobj n).
  (** what following a reference can lead to *)
  Definition found (n : Z) (o : iobj) : Prop := (exists x, leads D n x /\ o = wr x) \/ (exists k, o = new_iobj k).
  Lemma written_ref : forall x m g, ival (wr x) = ORef m g -> ival x = ORef m g.
  Proof. intros x m g H. destruct (WR x) as [K | K]; rewrite K in H; [exact H |]. unfold as_written in H. destruct (istream x) as [s |]; [| exact H]. destruct (raw s); [exact H |]. cbn in H. destruct (ival x); cbn in H; try discriminate H; exact H. Qed.
  Lemma follow : forall k n seen q, (List.length D - List.length seen <= k)%nat -> NoDup seen -> incl seen (map inum D) -> pwf file q -> alike p q ->
    exists f0 o, found n o /\ forall f, (f0 <= f)%nat -> exists q', resolve f E file n seen q = Ok (o, q').
  Proof.
    induction k as [| k IH]; intros n seen q L NS IS Wq A; (destruct (zmem n seen) eqn:Z;
      [exists 1%nat, (new_iobj n); split; [right; eauto |]; intros f F; destruct f as [| f]; [lia |]; cbn [resolve]; rewrite Z; eexists; reflexivity |]);
      (destruct (in_dec Z.eq_dec n (map inum D)) as [I | I];
       [| destruct (get_here E file p OF n (new_iobj n) q (FN n I) Wq A) as (f0 & G); exists (S f0), (new_iobj n); split; [right; eauto |];
          intros f F; destruct f as [| f]; [lia |]; cbn [resolve]; rewrite Z; unfold bind; destruct (G f) as (q1 & G1 & _); [lia |]; rewrite G1; eexists; reflexivity]).
    - exfalso. assert (NI : ~ In n seen) by (intros I2; apply zmem_In in I2; congruence). assert (LE : (List.length (n :: seen) <= List.length (map inum D))%nat).
      { apply NoDup_incl_length; [constructor; assumption |]. intros x [<- | Ix]; auto. }
      rewrite map_length in LE. cbn [List.length] in LE. lia.
    - apply in_map_iff in I. destruct I as (x & <- & Ix). destruct (get_here E file p OF _ _ q (FD x Ix) Wq A) as (f0 & G).
      assert (NI : ~ In (inum x) seen) by (intros I2; apply zmem_In in I2; congruence).
      assert (DR : (exists m g, ival (wr x) = ORef m g) \/ forall m g, ival (wr x) <> ORef m g) by (clear; destruct (ival (wr x)); [right | right | right | right | left; eauto | right | right]; intros; discriminate).
      destruct DR as [(m & g & R) | NR].
      + destruct (G f0 (le_n _)) as (q1 & G1 & W1 & A1). destruct (IH m (inum x :: seen) q1) as (f1 & o & FO & R1); [cbn [List.length]; lia | constructor; assumption | | exact W1 | exact A1 |].
        { intros y [<- | Iy]; [apply in_map; exact Ix | apply IS; exact Iy]. }
        exists (S (f0 + f1)), o. split.
        * destruct FO as [(y & Ly & ->) | FO]; [left; exists y; split; [| reflexivity] | right; exact FO]. eapply ld_next; [exact Ix | apply written_ref; exact R | exact Ly].
        * intros f F. destruct f as [| f]; [lia |]. cbn [resolve]. rewrite Z. unfold bind. rewrite (get_object_mono f0 f E file _ q (wr x, q1)) by (auto; lia). rewrite R. apply R1. lia.
      + exists (S f0), (wr x). split.
        * left. exists x. split; [| reflexivity]. apply ld_here; [exact Ix |]. intros m g Q. apply (NR m g). destruct (WR x) as [K | K]; rewrite K; [exact Q |]. unfold as_written. destruct (istream x) as [s |]; [destruct (raw s); [exact Q | cbn; rewrite Q; reflexivity] | exact Q].
        * intros f F. destruct f as [| f]; [lia |]. cbn [resolve]. rewrite Z. unfold bind. destruct (G f) as (q1 & G1 & _); [lia |]. rewrite G1. exists q1.
          destruct (ival (wr x)) eqn:IV; try reflexivity. exfalso. eapply NR. reflexivity.
  Qed.
  Lemma found_all : forall n, exists o, target E file p n o /\ found n o.
  Proof.
    intros n. destruct (follow (List.length D) n [] p) as (f0 & o & FO & R); [cbn; lia | constructor | intros x [] | exact W | split; reflexivity |].
    exists o. split; [| exact FO]. destruct (R f0 (le_n _)) as (q' & Q). exists f0. unfold Resolve, restoring, bind, pseek, ret. rewrite Q. eexists. reflexivity.
  Qed.
  Lemma target_found : forall n o, target E file p n o -> found n o.
  Proof. intros n o T. destruct (found_all n) as (o' & T' & FO). rewrite (target_det _ _ _ _ _ _ T T'). exact FO. Qed.

  (** the dictionaries met: those of the list, with the filter of its streams,
      and the empty one *)
  Definition met (h : dict) : Prop := h = [] \/ exists o, In o D /\ holds (ival (wr o)) h.
  Lemma leads_in : forall n x, leads D n x -> In x D.
  Proof. intros n x H. induction H; assumption. Qed.
  Lemma target_met : forall n o h, target E file p n o -> holds (ival o) h -> met h.
  Proof.
    intros n o h T H. destruct (target_found _ _ T) as [(x & Lx & ->) | (k & ->)]; [right; exists x; split; [eapply leads_in; exact Lx | exact H] | cbn in H; inversion H].
  Qed.
  Lemma typed_met : forall h k d, met h -> typed E file p is_dict (entry h k) d -> met d.
  Proof.
    intros h k d M (v & V & Q). unfold is_dict in Q. subst v. destruct (entry h k) as [x |] eqn:EN; [| inversion V].
    inversion V as [| y NR Q1 Q2 | n g o T Q1 Q2]; subst.
    - destruct M as [-> | (o & I & H)]; [discriminate |]. right. exists o. split; [exact I |]. destruct (entry_in _ _ _ EN) as (k' & IN).
      clear -H IN. induction H as [d0 | k0 x0 d0 e IN0 H IH | x0 l e IN0 H IH]; [eapply hd_dict; [exact IN | apply hd_here] | eapply hd_dict; [exact IN0 | auto] | eapply hd_array; [exact IN0 | auto]].
    - eapply target_met; [exact T |]. rewrite Q2. apply hd_here.
  Qed.
  Lemma dict_met : forall h k d, met h -> dict_at E file p h k d -> met d.
  Proof. intros h k d M [T | [_ ->]]; [eapply typed_met; eassumption | left; reflexivity]. Qed.
  Lemma fetched_met : forall n o h, fetched E file p n o -> holds (ival o) h -> met h.
  Proof.
    intros n o h F H. destruct (in_dec Z.eq_dec n (map inum D)) as [I | I].
    - apply in_map_iff in I. destruct I as (x & <- & Ix). rewrite (fetched_det _ _ _ _ _ _ F (FD x Ix)) in H. right. eauto.
    - rewrite (fetched_det _ _ _ _ _ _ F (FN n I)) in H. cbn in H. inversion H.
  Qed.
  Lemma document_met : forall h, of_document E file p h -> met h.
  Proof. intros h (n & o & d & _ & F & Q & H). eapply fetched_met; [exact F | rewrite Q; exact H]. Qed.
  Lemma reachable_met : forall ks n d, reachable E file p ks n d -> met d.
  Proof. intros ks n d R. induction R as [ks n g d I (o & T & Q) | ks m g e ks' n d I PG A R IH]; [eapply target_met; [exact T | rewrite Q; apply hd_here] | exact IH]. Qed.
  Lemma page_met : forall h d, met h -> page_under E file p h d -> met d.
  Proof. intros h d M [root T | root ks n d0 T A R]; [eapply typed_met; eassumption | eapply reachable_met; exact R]. Qed.
  (** the entries of the dictionaries met *)
  Lemma holds_coded : forall o h, holds (ival (wr o)) h -> exists h', (forall k, k <> lit "Filter" -> entry h k = entry h' k) /\ holds (ival o) h'.
  Proof.
    intros o h H. destruct (WR o) as [KW | KW]; rewrite KW in H; clear KW; [exists h; auto |]. unfold as_written in H. destruct (istream o) as [s |]; [destruct (raw s); [exists h; auto | cbn in H] | exists h; auto].
    destruct (ival o) as [| | | | | l | d]; cbn [coded] in H; try (exists h; auto; fail). inversion H as [d0 Q | k x d0 e I H' Q |]; subst.
    - exists d. split; [| apply hd_here]. intros k K. induction d as [| [k' v] d IH]; cbn [List.app entry]; [destruct (list_eq_dec Byte.byte_eq_dec k (lit "Filter")); [congruence | reflexivity] |].
      destruct (list_eq_dec Byte.byte_eq_dec k k'); [reflexivity | apply IH; apply hd_here].
    - apply in_app_or in I. destruct I as [I | [I | []]]; [exists h; split; [auto | eapply hd_dict; eassumption] |]. injection I as <- <-. inversion H'.
  Qed.
  Lemma met_entry : forall h k x, met h -> entry h k = Some x -> k <> lit "Filter" -> exists h', within D h' /\ entry h' k = Some x.
  Proof.
    intros h k x [-> | (o & I & H)] EN K; [discriminate |]. destruct (holds_coded o h H) as (h' & Q & H'). exists h'. split; [exists o; auto |]. rewrite <- Q; assumption.
  Qed.
  Lemma follow_maps : moderate_maps D -> maps_end E file p.
  Proof.
    intros MM c [h page res fonts k info c' OD PU R F I (n & g & o & EN & T & ->)].
    assert (M : met info) by (eapply dict_met; [| exact I]; eapply dict_met; [| exact F]; eapply dict_met; [| exact R]; eapply page_met; [| exact PU]; apply document_met; exact OD).
    destruct (target_found _ _ T) as [(x & Lx & ->) | (j & ->)]; [| exact empty_moderate]. unfold stream_of.
    assert (QI : istream (wr x) = istream x) by (destruct (WR x) as [-> | ->]; [reflexivity | unfold as_written; destruct (istream x) as [s |] eqn:IS; [destruct (raw s) |]; exact IS || reflexivity]).
    rewrite QI. destruct (istream x) as [s |] eqn:IS; [| exact empty_moderate].
    destruct (met_entry _ _ _ M EN) as (h' & WI & EN'); [vm_compute; discriminate |]. eapply MM; eassumption.
  Qed.
  Lemma follow_names : direct_kids D -> names_end E file p.
  Proof.
    intros DK. exists met. split.
    - intros d ks M A. split.
      + intros x kd I [T | [_ ->]]; [| left; reflexivity]. destruct T as (v & V & Q). unfold is_dict in Q. subst v. inversion V as [| y NR Q1 Q2 | n g o T Q1 Q2]; subst.
        * destruct A as [(v & V2 & Q) | [_ ->]]; [| destruct I]. unfold is_array in Q. subst v. destruct (entry d (lit "Kids")) as [x |] eqn:EN; [| inversion V2].
          inversion V2 as [| y NR2 Q1 Q2 | n g o T Q1 Q2]; subst.
          -- destruct M as [-> | (o & Io & H)]; [discriminate |]. right. exists o. split; [exact Io |]. destruct (entry_in _ _ _ EN) as (k' & IN).
             clear -H IN I. induction H as [d0 | k0 x0 d0 e IN0 H IH | x0 l e IN0 H IH]; [eapply hd_dict; [exact IN |]; eapply hd_array; [exact I | apply hd_here] | eapply hd_dict; [exact IN0 | auto] | eapply hd_array; [exact IN0 | auto]].
          -- eapply target_met; [exact T |]. rewrite Q2. eapply hd_array; [exact I | apply hd_here].
        * eapply target_met; [exact T |]. rewrite Q2. apply hd_here.
      + destruct A as [(v & V2 & Q) | [_ ->]]; [| right; intros kd []]. unfold is_array in Q. subst v. destruct (entry d (lit "Kids")) as [x |] eqn:EN; [| inversion V2].
        inversion V2 as [| y NR2 Q1 Q2 | n g o T Q1 Q2]; subst; [left; reflexivity |]. exfalso. destruct (met_entry _ _ _ M EN) as (h' & WI & EN'); [vm_compute; discriminate |]. eapply DK; eassumption.
    - intros h k root OD _ T. eapply typed_met; [apply document_met; exact OD | exact T].
  Qed.
End Run.

Lemma document_returns : forall E D tr OD S pw, good_document D tr -> direct_kids D -> moderate_maps D -> order_ok OD -> e_verbose E <> None ->
  s_input S = Some (w_document D tr) -> (forall f, s_create S f = true) ->
  exists F, forall fuel, (F <= fuel)%nat -> exists ops, parse E OD fuel S pw = (ops, Ok PNone).
Proof.
  intros E D tr OD S pw GD DK MM OK V IN CR.
  destruct (document_loaded E D tr GD 2 (o_objects OD) pw (le_n _) (fun m => Permutation_sym (proj1 (proj2 OK) m))) as (p & L & W & LG & SH & TR & OF & XG & IU).
  destruct (document_read E D tr GD 2 (o_objects OD) pw (le_n _) (fun m => Permutation_sym (proj1 (proj2 OK) m))) as (p' & L' & FD & FN & _).
  assert (p' = p) by congruence. subst p'. clear L'.
  apply (parse_returns E OD S pw (w_document D tr) p 2); try assumption.
  - intros n. destruct (found_all E (w_document D tr) p D W OF as_written (fun o => or_intror eq_refl) FD FN n) as (o & T & _). eauto.
  - apply (follow_names E (w_document D tr) p D W OF as_written (fun o => or_intror eq_refl) FD FN DK).
  - apply (follow_maps E (w_document D tr) p D W OF as_written (fun o => or_intror eq_refl) FD FN MM).
Qed.
