(** XUpdateFindP.v -- Load finds the newest objects of a document with updates
    that have cross-reference streams (C111). *)
From Verif Require Import Base BaseP Msg Reader ReaderP Num NumP Lexer Plain LexerP Obj ReadObj Bits Filters Env Getters Crypt GetObj GetObjP Regex Xref Load SpecLex SpecLexP SpecObj SpecObjP SpecNumP SpecFilters FiltersP
  SpecRead SpecFetch SpecLook SpecStream SpecScan RegexP ScanP StreamP StreamObjP CryptObjP ReadP StreamEx RepairP FetchP SpecOut SpecXref XrefP SpecRecover RecoverP ReadObjP ErrorsP SpecWrite WriteP WriteDocP WriteLoadP WriteOutP
  SpecXWrite XWriteP SpecUpdate UpdateFindP StrayP SpecXUpdate XUpdateP XUpdateLoadP TrailerP DocP.
From Coq Require Import Strings.String Sorting.Permutation Sorting.Sorted.

(** ** What the streams together say *)
(** an object as it is read, where it is, and the entry its stream gives it *)
Definition spot := (Z * iobj * xentry)%type.
Definition t_obj (t : spot) : iobj := snd (fst t).
Definition t_num (t : spot) : Z := inum (t_obj t).
Definition m_own (m : melement) : spot := (m_pos m, x_read (xv_stream (m_rev m)) (xv_data (m_rev m)), own_entry (m_behind m) (igen (xv_stream (m_rev m)))).
Definition m_spots (m : melement) : list spot :=
  map (fun p => (fst p, as_written (snd p), new_xentry (fst p) (igen (snd p)) 1)) (w_places (m_off m) (xv_objects (m_rev m))) ++ [m_own m].
Definition touched (m : melement) (n : Z) : bool := touches (xv_read (m_rev m)) n.
Definition m_after (l : list spot) (m : melement) : list spot := filter (fun t => negb (touched m (t_num t))) l ++ m_spots m.
Definition m_living (M : list melement) : list spot := fold_left m_after M [].
Definition m_all (M : list melement) : list spot := flat_map m_spots M.
Lemma m_living_snoc : forall M m, m_living (M ++ [m]) = m_after (m_living M) m.
Proof. intros M m. unfold m_living. rewrite fold_left_app. reflexivity. Qed.
Lemma m_all_snoc : forall M m, m_all (M ++ [m]) = m_all M ++ m_spots m.
Proof. intros M m. unfold m_all. rewrite flat_map_app. cbn [flat_map]. rewrite app_nil_r. reflexivity. Qed.
Lemma places_objs : forall D off, map snd (w_places off D) = D.
Proof. induction D as [| o D IH]; intros off; [reflexivity |]. cbn [w_places map snd]. rewrite IH. reflexivity. Qed.
Lemma m_spots_objs : forall m, map t_obj (m_spots m) = rv_objects (xv_read (m_rev m)).
Proof.
  intros m. unfold m_spots. rewrite map_app, map_map. cbn [map xv_read rv_objects]. f_equal. unfold t_obj. cbn [fst snd].
  rewrite <- (map_map snd as_written). rewrite places_objs. reflexivity.
Qed.
Lemma m_spots_nums : forall m, map t_num (m_spots m) = map inum (xv_all (m_rev m)).
Proof.
  intros m. unfold t_num. rewrite <- (map_map t_obj inum), m_spots_objs. cbn [xv_read rv_objects]. unfold xv_all. rewrite !map_app, map_map. cbn [map x_read inum]. f_equal. apply map_ext. intros o. exact (proj1 (as_written_num o)).
Qed.
Lemma touched_iff : forall m n, touched m n = true <-> In n (xv_freed (m_rev m)) \/ In n (map t_num (m_spots m)).
Proof.
  intros m n. unfold touched. rewrite touches_iff. cbn [xv_read rv_freed]. unfold t_num. rewrite <- (map_map t_obj inum), m_spots_objs. reflexivity.
Qed.
Lemma m_living_is : forall M l, map t_obj (fold_left m_after M l) = fold_left after (map (fun m => xv_read (m_rev m)) M) (map t_obj l).
Proof.
  induction M as [| m M IH]; intros l; [reflexivity |]. cbn [fold_left map]. rewrite IH. f_equal. unfold m_after, after. rewrite map_app, m_spots_objs. f_equal.
  induction l as [| t l IHl]; [reflexivity |]. cbn [filter map]. unfold touched, t_num. destruct (negb (touches (xv_read (m_rev m)) (inum (t_obj t)))); cbn [map]; rewrite <- IHl; reflexivity.
Qed.
Lemma m_spots_nodup : forall E m, says E m -> NoDup (map t_num (m_spots m)).
Proof.
  intros E m Sm. rewrite m_spots_nums. pose proof (gv_numbers _ _ _ _ (xw_revision _ _ (sy_well _ _ Sm))) as ND. change (snd (fst m)) with (m_rev m) in ND.
  induction (xv_freed (m_rev m)) as [| a l IH]; [exact ND |]. cbn [app] in ND. inversion ND; subst. auto.
Qed.
Lemma freed_apart : forall E m n, says E m -> In n (xv_freed (m_rev m)) -> ~ In n (map t_num (m_spots m)).
Proof.
  intros E m n Sm I I2. rewrite m_spots_nums in I2. pose proof (gv_numbers _ _ _ _ (xw_revision _ _ (sy_well _ _ Sm))) as NN. change (snd (fst m)) with (m_rev m) in NN.
  clear - NN I I2. induction (xv_freed (m_rev m)) as [| a l IH]; [destruct I |]. cbn [app] in NN. inversion NN; subst. destruct I as [-> | I]; [apply H1; apply in_or_app; right; exact I2 | exact (IH I H2)].
Qed.
Lemma place_entry : forall E m k o, says E m -> In (k, o) (w_places (m_off m) (xv_objects (m_rev m))) -> lay_object o /\ 0 <= k < 2 ^ 53.
Proof.
  intros E m k o Sm I. pose proof (sy_well _ _ Sm) as PW. pose proof (places_in _ _ _ _ I) as ID. pose proof (gv_objects _ _ _ _ (xw_revision _ _ PW) o ID) as G. split; [exact G |].
  apply places_split in I. destruct I as (D1 & D2 & Q & ->). pose proof (xw_off _ _ PW) as O. pose proof (xw_stream _ _ PW) as B. unfold s_pos, w_stream_at in B. change (fst (fst (fst m))) with (m_off m) in *. change (snd (fst m)) with (m_rev m) in B.
  rewrite Q in B. unfold w_objects in *. rewrite flat_map_app, zlen_app in B. pose proof (zlen_nonneg _ (flat_map w_object D1)). match type of B with _ + (_ + zlen ?x) < _ => pose proof (zlen_nonneg _ x) end. lia.
Qed.
Lemma section_says : forall E m, says E m ->
  (forall t, In t (m_spots m) -> latest (t_num t) (sc_entries (m_section m)) = Some (snd t)) /\
  (forall n, touched m n = false -> latest n (sc_entries (m_section m)) = None) /\
  (forall n, In n (xv_freed (m_rev m)) -> exists e, latest n (sc_entries (m_section m)) = Some e /\ x_type e = 0).
Proof.
  intros E m Sm. pose proof (m_spots_nodup E m Sm) as ND. cbn [m_section sc_entries].
  assert (OWN : In (inum (xv_stream (m_rev m))) (map t_num (m_spots m))) by (unfold m_spots; rewrite map_app; apply in_or_app; right; left; reflexivity).
  split; [| split].
  - intros t I. unfold m_spots in I, ND. rewrite map_app in ND. cbn [map] in ND. apply NoDup_remove_2 in ND. rewrite app_nil_r in ND. change (t_num (m_own m)) with (inum (xv_stream (m_rev m))) in ND. apply in_app_or in I. destruct I as [I | [<- | []]].
    + assert (N : t_num t <> inum (xv_stream (m_rev m))) by (intros Q; apply ND; rewrite <- Q; apply in_map; exact I). rewrite latest_snoc_other by exact N.
      apply in_map_iff in I. destruct I as ([k o] & <- & I). unfold t_num, t_obj. cbn [fst snd]. rewrite (proj1 (as_written_num o)). rewrite (sy_in _ _ Sm k o I). f_equal. unfold line_entry, new_xentry.
      destruct (place_entry E m k o Sm I) as (Lo & B). pose proof (lo_generation _ Lo). rewrite !wrap_small by lia. reflexivity.
    + apply latest_snoc_same.
  - intros n TN. assert (N : n <> inum (xv_stream (m_rev m))) by (intros ->; assert (touched m (inum (xv_stream (m_rev m))) = true) by (apply touched_iff; right; exact OWN); congruence).
    rewrite latest_snoc_other by exact N. destruct (latest n (snd m)) as [e |] eqn:Q; [| reflexivity]. exfalso. apply (sy_only _ _ Sm) in Q. rewrite <- m_spots_nums in Q. apply in_app_or in Q. apply touched_iff in Q. congruence.
  - intros n I. rewrite latest_snoc_other; [exact (sy_freed _ _ Sm n I) |]. intros ->. exact (freed_apart E m _ Sm I OWN).
Qed.
Lemma newest_snoc : forall n M m, newest n (m_secs (M ++ [m])) = or_else (latest n (sc_entries (m_section m))) (newest n (m_secs M)).
Proof. intros n M m. rewrite m_secs_snoc. cbn [newest]. destruct (latest n _); reflexivity. Qed.
Lemma m_living_all : forall M t, In t (m_living M) -> In t (m_all M).
Proof.
  induction M as [| m M IH] using rev_ind; intros t I; [destruct I |]. rewrite m_living_snoc in I. rewrite m_all_snoc. apply in_or_app. apply in_app_or in I. destruct I as [I | I]; [left; apply filter_In in I; exact (IH t (proj1 I)) | right; exact I].
Qed.
Lemma m_living_nodup : forall E M, Forall (says E) M -> NoDup (map t_num (m_living M)).
Proof.
  intros E. induction M as [| m M IH] using rev_ind; intros F; [constructor |]. rewrite m_living_snoc. unfold m_after. apply Forall_app in F. destruct F as [F FX]. inversion FX as [| ? ? Sm _]; subst. specialize (IH F). pose proof (m_spots_nodup E m Sm) as NX.
  rewrite map_app. clear F FX. induction (m_living M) as [| a l IHl]; [exact NX |]. cbn [map] in IH. inversion IH as [| ? ? N1 N2]; subst. cbn [filter].
  destruct (touched m (t_num a)) eqn:TA; cbn [negb]; [exact (IHl N2) |]. cbn [map app]. constructor; [| exact (IHl N2)]. intros I. apply in_app_or in I. destruct I as [I | I].
  - apply N1. apply in_map_iff in I. destruct I as (b & Q & I). apply filter_In in I. apply in_map_iff. exists b. tauto.
  - assert (touched m (t_num a) = true) by (apply touched_iff; right; exact I). congruence.
Qed.
Lemma m_living_newest : forall E M, Forall (says E) M -> forall t, In t (m_living M) -> newest (t_num t) (m_secs M) = Some (snd t).
Proof.
  intros E. induction M as [| m M IH] using rev_ind; intros F t I; [destruct I |]. rewrite m_living_snoc in I. apply Forall_app in F. destruct F as [F FX]. inversion FX as [| ? ? Sm _]; subst.
  destruct (section_says E m Sm) as (S1 & S2 & _). rewrite newest_snoc. apply in_app_or in I. destruct I as [I | I]; [| rewrite S1 by exact I; reflexivity].
  apply filter_In in I. destruct I as [I TN]. apply Bool.negb_true_iff in TN. rewrite S2 by exact TN. exact (IH F t I).
Qed.
Lemma m_newest_living : forall E M, Forall (says E) M -> forall n e, newest n (m_secs M) = Some e ->
  x_type e = 0 \/ exists t, In t (m_living M) /\ t_num t = n /\ e = snd t.
Proof.
  intros E. induction M as [| m M IH] using rev_ind; intros F n e; [discriminate |]. apply Forall_app in F. destruct F as [F FX]. inversion FX as [| ? ? Sm _]; subst.
  destruct (section_says E m Sm) as (S1 & S2 & S3). rewrite newest_snoc. intros Q. destruct (touched m n) eqn:TN.
  - apply touched_iff in TN. destruct TN as [I | I].
    + left. destruct (S3 n I) as (e0 & Q0 & T0). rewrite Q0 in Q. cbn in Q. congruence.
    + right. apply in_map_iff in I. destruct I as (t & QN & It). exists t. split; [rewrite m_living_snoc; apply in_or_app; right; exact It |]. split; [exact QN |]. subst n. rewrite S1 in Q by exact It. cbn in Q. congruence.
  - rewrite S2 in Q by exact TN. cbn in Q. destruct (IH F n e Q) as [T0 | (t & It & QN & ->)]; [left; exact T0 |].
    right. exists t. split; [| auto]. rewrite m_living_snoc. apply in_or_app. left. apply filter_In. split; [exact It |]. rewrite QN, TN. reflexivity.
Qed.
Lemma m_spot_has : forall E M, Forall (says E) M -> forall t, In t (m_all M) -> newest (t_num t) (m_secs M) <> None.
Proof.
  intros E. induction M as [| m M IH] using rev_ind; intros F t I; [destruct I |]. apply Forall_app in F. destruct F as [F FX]. inversion FX as [| ? ? Sm _]; subst.
  rewrite newest_snoc. rewrite m_all_snoc in I. apply in_app_or in I. destruct I as [I | I].
  - specialize (IH F t I). destruct (latest _ _); [discriminate | exact IH].
  - destruct (section_says E m Sm) as (S1 & _). rewrite S1 by exact I. discriminate.
Qed.
(** later revisions are further down *)
Definition t_at (t : spot) : Z := fst (fst t).
Lemma spot_raw : forall m t, In t (m_spots m) -> exists o, In (t_at t, o) (raw_places (fst m)) /\ inum o = t_num t /\ igen o = igen (t_obj t) /\ ival (as_written o) = ival (t_obj t).
Proof.
  intros m t I. rewrite raw_are. apply in_app_or in I. destruct I as [I | [<- | []]].
  - apply in_map_iff in I. destruct I as ([k o] & <- & I). exists o. unfold t_at, t_num, t_obj. cbn [fst snd]. destruct (as_written_num o) as [A1 A2]. split; [apply in_or_app; left; exact I |]. auto.
  - exists (xv_stream (m_rev m)). split; [apply in_or_app; right; left; reflexivity | auto].
Qed.
Lemma spot_bounds : forall x k o, In (k, o) (raw_places x) -> fst (fst x) <= k < fst (fst x) + zlen (w_xrevision (fst (fst x)) (snd x)).
Proof.
  intros [[off q] r] k o I. unfold raw_places in I. cbn [fst snd] in *. apply places_split in I. destruct I as (D1 & D2 & Q & ->). unfold w_xrevision. rewrite Q. unfold w_objects. rewrite flat_map_app, !zlen_app.
  assert (1 <= zlen (w_end (w_stream_at off r))) by (unfold w_end; rewrite zlen_cons; match goal with |- context [zlen ?x + 1] => pose proof (zlen_nonneg _ x) | |- context [1 + zlen ?x] => pose proof (zlen_nonneg _ x) end; lia).
  pose proof (zlen_nonneg _ (flat_map w_object D1)). pose proof (zlen_nonneg _ (flat_map w_object (o :: D2))). lia.
Qed.
Lemma xlayout_order : forall rs off prev L1 x L2, x_layout off prev rs = L1 ++ x :: L2 -> off <= fst (fst x) /\ forall y k o, In y L1 -> In (k, o) (raw_places y) -> k < fst (fst x).
Proof.
  induction rs as [| r0 rs IH]; intros off prev L1 x L2 Q; [destruct L1; discriminate Q |]. cbn [x_layout] in Q. destruct L1 as [| z L1]; cbn [app] in Q.
  - injection Q as <- _. split; [cbn; lia | intros y k o []].
  - injection Q as <- Q. destruct (IH _ _ _ _ _ Q) as [LE PL]. pose proof (zlen_nonneg _ (w_xrevision off r0)). split; [lia |]. intros y k o [<- | I] J; [| exact (PL y k o I J)].
    pose proof (spot_bounds _ k o J) as B. cbn [fst snd] in B. lia.
Qed.
Lemma m_living_last : forall E rs off prev M M2, x_layout off prev rs = map fst (M ++ M2) -> Forall (says E) M -> forall t u, In t (m_living M) -> In u (m_all M) -> t_num u = t_num t -> t_at u <= t_at t.
Proof.
  intros E rs off prev. induction M as [| m M IH] using rev_ind; intros M2 QL F t u It Iu QN; [destruct It |]. rewrite <- app_assoc in QL. cbn [app] in QL. apply Forall_app in F. destruct F as [F FX]. inversion FX as [| ? ? Sm _]; subst.
  rewrite m_living_snoc in It. rewrite m_all_snoc in Iu. pose proof QL as QL'. rewrite map_app in QL'. cbn [map] in QL'. destruct (xlayout_order _ _ _ _ _ _ QL') as [_ OL]. apply in_app_or in It. apply in_app_or in Iu. destruct It as [It | It].
  - apply filter_In in It. destruct It as [It TN]. apply Bool.negb_true_iff in TN. destruct Iu as [Iu | Iu]; [exact (IH _ QL F t u It Iu QN) |]. exfalso. assert (touched m (t_num t) = true); [| congruence].
    apply touched_iff. right. rewrite <- QN. apply in_map. exact Iu.
  - destruct Iu as [Iu | Iu].
    + unfold m_all in Iu. apply in_flat_map in Iu. destruct Iu as (m' & Im & Iu). destruct (spot_raw _ _ Iu) as (o & Ro & _). destruct (spot_raw _ _ It) as (o' & Ro' & _).
      pose proof (OL (fst m') _ _ (in_map fst _ _ Im) Ro). pose proof (spot_bounds _ _ _ Ro'). lia.
    + pose proof (m_spots_nodup E m Sm) as ND. assert (u = t); [| subst; lia].
      clear - ND It Iu QN. induction (m_spots m) as [| a l IH]; [destruct It |]. cbn [map] in ND. inversion ND; subst. destruct It as [-> | It]; destruct Iu as [-> | Iu]; auto; exfalso; apply H1; [rewrite <- QN | rewrite QN]; apply in_map; assumption.
Qed.
Lemma m_key : forall k M was, or_else (newest_key k (m_secs M)) was = current_key k (map (fun m => xv_read (m_rev m)) M) was.
Proof.
  intros k. induction M as [| m M IH]; intros was; [reflexivity |]. cbn [map current_key]. rewrite <- IH. unfold m_secs. cbn [map rev]. rewrite newest_key_app.
  assert (QE : newest_key k [m_section m] = entry (xv_dict (m_rev m)) k) by (cbn [newest_key m_section sc_trailer]; destruct (entry _ k); reflexivity).
  rewrite QE. cbn [xv_read rv_trailer]. destruct (newest_key k (rev _)); [reflexivity |]. cbn [or_else]. destruct (entry _ k); reflexivity.
Qed.
Lemma m_newest_more : forall n L1 L2, newest n (m_secs L1) <> None -> newest n (m_secs (L1 ++ L2)) <> None.
Proof. intros n L1 L2 H. unfold m_secs in *. rewrite map_app, rev_app_distr, newest_app. destruct (newest n (rev (map m_section L2))); [discriminate | exact H]. Qed.
Lemma m_newest_key_more : forall n L1 L2, newest_key n (m_secs L1) <> None -> newest_key n (m_secs (L1 ++ L2)) <> None.
Proof. intros n L1 L2 H. unfold m_secs in *. rewrite map_app, rev_app_distr, newest_key_app. destruct (newest_key n (rev (map m_section L2))); [discriminate | exact H]. Qed.

(** ** Loading *)
(** the entry the scan makes *)
Definition r_xref (o : iobj) : bool :=
  match ival (as_written o) with
  | ODict d => match entry d (lit "Type") with Some (OName n) => if list_eq_dec Byte.byte_eq_dec n (lit "XRef") then true else false | _ => false end
  | _ => false
  end.
Definition r_entry (k : Z) (o : iobj) : xentry := if r_xref o then {| x_off := k; x_gen := igen o; x_type := 1; x_enc := false; x_stm := true |} else new_xentry k (igen o) 1.
Lemma r_off : forall k o, x_off (r_entry k o) = k.
Proof. intros k o. unfold r_entry. destruct (r_xref o); reflexivity. Qed.
Lemma good_r : forall o, lay_object o -> r_xref o = false.
Proof.
  intros o Lo. unfold r_xref. destruct (ival (as_written o)) as [| | | | | | d] eqn:Q; try reflexivity. pose proof (lay_type o d Lo Q) as N. destruct (entry d (lit "Type")) as [[| | n | | | |] |]; try reflexivity.
  destruct (list_eq_dec Byte.byte_eq_dec n (lit "XRef")) as [-> | _]; [contradiction N; reflexivity | reflexivity].
Qed.
Section Loading.
  Variables (E : env) (rs : list xrevision) (M : list melement).
  Hypothesis GU : lay_xupdates E rs.
  Let file := w_xupdated rs.
  Let lay := x_layout (zlen w_version) None rs.
  Hypothesis QM : map fst M = lay.
  Hypothesis SY : Forall (says E) M.
  Let objs := all_raw lay.
  Lemma stream_r : forall m, In m M -> r_xref (xv_stream (m_rev m)) = true.
  Proof.
    intros m I. pose proof (m_says E M SY m I) as Sm. unfold r_xref. rewrite (xs_value E _ _ _ _ (sy_lines _ _ Sm)). pose proof (gv_type _ _ _ _ (xw_revision _ _ (sy_well _ _ Sm))) as TX. change (snd (fst m)) with (m_rev m) in TX. rewrite TX.
    destruct (list_eq_dec Byte.byte_eq_dec (lit "XRef") (lit "XRef")); [reflexivity | contradiction].
  Qed.
  Lemma raw_cases : forall k o, In (k, o) objs -> exists m, In m M /\ (In (k, o) (w_places (m_off m) (xv_objects (m_rev m))) \/ (k = m_pos m /\ o = xv_stream (m_rev m))).
  Proof.
    intros k o I. unfold objs, all_raw in I. rewrite <- QM in I. apply in_flat_map in I. destruct I as (x & Ix & I). apply in_map_iff in Ix. destruct Ix as (m & <- & Im). exists m. split; [exact Im |]. rewrite raw_are in I. apply in_app_or in I.
    destruct I as [I | [I | []]]; [left; exact I | right; injection I as <- <-; auto].
  Qed.
  Lemma raw_spot : forall k o, In (k, o) objs -> exists u, In u (m_all M) /\ t_at u = k /\ t_num u = inum o.
  Proof.
    intros k o I. destruct (raw_cases k o I) as (m & Im & C). destruct C as [C | [-> ->]].
    - exists (k, as_written o, new_xentry k (igen o) 1). split; [| split; [reflexivity | exact (proj1 (as_written_num o))]]. apply in_flat_map. exists m. split; [exact Im |]. apply in_or_app. left. apply in_map_iff. exists (k, o). auto.
    - exists (m_own m). split; [| auto]. apply in_flat_map. exists m. split; [exact Im |]. apply in_or_app. right. left. reflexivity.
  Qed.
  Lemma spot_in : forall t, In t (m_all M) -> exists m o, In m M /\ In t (m_spots m) /\ In (t_at t, o) objs /\ inum o = t_num t.
  Proof.
    intros t I. apply in_flat_map in I. destruct I as (m & Im & I). destruct (spot_raw m t I) as (o & Ro & N & _). exists m, o. split; [exact Im |]. split; [exact I |]. split; [| exact N].
    unfold objs, all_raw. rewrite <- QM. apply in_flat_map. exists (fst m). split; [apply in_map; exact Im | exact Ro].
  Qed.
  Lemma obj_shape : forall k o, In (k, o) objs -> lay_shape o.
  Proof.
    intros k o I. destruct (raw_cases k o I) as (m & Im & C). pose proof (xw_revision _ _ (sy_well _ _ (m_says E M SY m Im))) as G. apply (all_shape _ _ _ _ G). unfold xv_all. apply in_or_app.
    destruct C as [C | [_ ->]]; [left; exact (places_in _ _ _ _ C) | right; left; reflexivity].
  Qed.
  Lemma obj_split : forall k o, In (k, o) objs -> exists pre r, file = (pre ++ [x0a]) ++ w_object o ++ r /\ k = zlen (pre ++ [x0a]).
  Proof. intros k o I. unfold objs, all_raw in I. apply in_flat_map in I. destruct I as (x & Ix & I). exact (xu_split rs x k o Ix I). Qed.
  Lemma obj_headed : forall k o, In (k, o) objs -> headed_at file k (inum o) (igen o) (ival (as_written o)).
  Proof. intros k o I. destruct (obj_split k o I) as (pre & r & QF & QK). eapply shape_headed; [exact (obj_shape k o I) | exact QF | exact QK]. Qed.
  Lemma obj_entry : forall k o n e, In (k, o) objs -> marker_entry file k n e -> n = inum o /\ e = r_entry k o.
  Proof.
    intros k o n e I ME. destruct (raw_cases k o I) as (m & Im & C). pose proof (m_says E M SY m Im) as Sm. destruct C as [C | [QK ->]].
    - destruct (place_entry E m k o Sm C) as (Lo & _). unfold r_entry. rewrite (good_r o Lo). destruct (obj_split k o I) as (pre & r & QF & QK). exact (listed_entry _ _ _ _ _ _ (listed_text o file k pre r Lo QF QK) ME).
    - unfold r_entry. rewrite (stream_r m Im). pose proof (obj_headed k _ I) as H. rewrite (xs_value E _ _ _ _ (sy_lines _ _ Sm)) in H. exact (headed_stream _ _ _ _ _ _ _ H (gv_type _ _ _ _ (xw_revision _ _ (sy_well _ _ Sm))) ME).
  Qed.
  Lemma spot_nonneg : forall t, In t (m_all M) -> 0 <= t_at t.
  Proof.
    intros t I. destruct (spot_in t I) as (m & o & _ & _ & IO & _). destruct (obj_split _ _ IO) as (pre & r & _ & ->). apply zlen_nonneg.
  Qed.
  (** the streams are readable where they are *)
  Lemma own_readable : forall m, In m M -> readable_at E file (m_pos m) (x_read (xv_stream (m_rev m)) (xv_data (m_rev m))).
  Proof.
    intros m Im. pose proof (m_says E M SY m Im) as Sm. destruct (m_at rs M QM m Im) as [r ZA]. pose proof (xw_revision _ _ (sy_well _ _ Sm)) as G.
    eapply xs_readable; [exact (gv_stream _ _ _ _ G) | exact (gv_type _ _ _ _ G) | exact (sy_lines _ _ Sm) | exact (m_nonneg E M SY m Im) | exact ZA].
  Qed.
  Lemma place_split : forall m k o, In m M -> In (k, o) (w_places (m_off m) (xv_objects (m_rev m))) -> exists pre r, file = (pre ++ [x0a]) ++ w_object o ++ r /\ k = zlen (pre ++ [x0a]).
  Proof.
    intros m k o Im I. apply obj_split. unfold objs, all_raw. rewrite <- QM. apply in_flat_map. exists (fst m). split; [apply in_map; exact Im | rewrite raw_are; apply in_or_app; left; exact I].
  Qed.
  Lemma m_in : forall m, In m M -> In (m_rev m) rs.
  Proof.
    intros m I. pose proof (m_lay rs M QM m I) as IL. apply in_split in IL. destruct IL as (L1 & L2 & QL). destruct m as [[[o q] r] l]. cbn [fst] in QL. destruct (xlayout_split _ _ _ _ _ _ _ _ QL) as (rs1 & rs2 & a & -> & _). apply in_or_app. right. left. reflexivity.
  Qed.

  Lemma chains : exists F, forall M1 m M2, M = M1 ++ m :: M2 -> forall fuel p, (F <= fuel)%nat -> reads file p -> psh p = new_sechandler -> exists p',
    load_xref fuel E file (m_pos m) [] p = Ok (tt, p') /\ reads file p' /\ log (prd p') = log (prd p) /\ psh p' = psh p /\
    (forall n, xget n (pxref p') = or_else (newest n (m_secs (M1 ++ [m]))) (xget n (pxref p))) /\
    (forall k, entry (ptrailer p') k = or_else (newest_key k (m_secs (M1 ++ [m]))) (entry (ptrailer p) k)).
  Proof.
    assert (H : forall L2 L1, M = L1 ++ L2 -> exists F, forall A m B, L2 = A ++ m :: B -> forall fuel p, (F <= fuel)%nat -> reads file p -> psh p = new_sechandler -> exists p',
      load_xref fuel E file (m_pos m) [] p = Ok (tt, p') /\ reads file p' /\ log (prd p') = log (prd p) /\ psh p' = psh p /\
      (forall n, xget n (pxref p') = or_else (newest n (m_secs ((L1 ++ A) ++ [m]))) (xget n (pxref p))) /\
      (forall k, entry (ptrailer p') k = or_else (newest_key k (m_secs ((L1 ++ A) ++ [m]))) (entry (ptrailer p) k))).
    { induction L2 as [| m0 L2 IH]; intros L1 Q; [exists 0%nat; intros A m B QX; destruct A; discriminate QX |].
      destruct (m_chain E rs M QM SY L1 m0 L2 Q) as (F1 & H1). destruct (IH (L1 ++ [m0])) as (F2 & H2); [rewrite <- app_assoc; exact Q |].
      exists (F1 + F2)%nat. intros A m B QX fuel p LE W SH. destruct A as [| a A]; cbn [app] in QX; injection QX as QX1 QX2.
      - subst m0. rewrite app_nil_r. apply H1; [lia | intros q [] | exact W | exact SH].
      - subst m0. destruct (H2 A m B QX2 fuel p ltac:(lia) W SH) as (p' & R). exists p'. replace (L1 ++ a :: A) with ((L1 ++ [a]) ++ A) by (rewrite <- app_assoc; reflexivity). exact R. }
    destruct (H M [] eq_refl) as (F & HF). exists F. exact HF.
  Qed.
  Definition xso_far (p : pst) : Prop := reads file p /\ log (prd p) = [] /\ psh p = new_sechandler /\
    (forall n, xget n (pxref p) <> None -> newest n (m_secs M) <> None) /\
    (forall k v, entry (ptrailer p) k = Some v -> newest_key k (m_secs M) <> None \/ exists d, xfirst_of rs d /\ entry d k = Some v).
  Definition place_ok (i : Z) : Prop := (exists m, In m M /\ i = m_pos m) \/ exists x, In x lay /\ i = t_pos x.
  Lemma x_offsets_read : exists F, (forall fuel p i, (F <= fuel)%nat -> xso_far p -> place_ok i -> exists p', load_xref fuel E file i [] p = Ok (tt, p') /\ xso_far p') /\
    forall l fuel p m L, (F <= fuel)%nat -> M = L ++ [m] -> xso_far p -> (forall i, In i l -> place_ok i) ->
    exists p', load_all fuel E file (l ++ [m_pos m]) p = Ok (tt, p') /\ xso_far p' /\
      (forall n, xget n (pxref p') = newest n (m_secs M)) /\ (forall k v, newest_key k (m_secs M) = Some v -> entry (ptrailer p') k = Some v).
  Proof.
    destruct chains as (F & CH). exists (S F).
    assert (ONE : forall fuel p i, (S F <= fuel)%nat -> xso_far p -> place_ok i -> exists p', load_xref fuel E file i [] p = Ok (tt, p') /\ xso_far p').
    { intros fuel p i LE (W & LG & SH & XN & TN) C. destruct C as [(m & I & ->) | (x & I & ->)].
      - pose proof I as I0. apply in_split in I0. destruct I0 as (L1 & L2 & QL). destruct (CH L1 m L2 QL fuel p ltac:(lia) W SH) as (p' & R & W' & L' & S' & X' & T').
        assert (QA : M = (L1 ++ [m]) ++ L2) by (rewrite QL; apps; reflexivity).
        exists p'. split; [exact R |]. split; [exact W' |]. split; [congruence |]. split; [congruence |]. split.
        + intros n H. rewrite X' in H. apply or_else_none in H. destruct H as [H | H]; [rewrite QA; apply m_newest_more; exact H | exact (XN n H)].
        + intros k v H. rewrite T' in H. destruct (newest_key k (m_secs (L1 ++ [m]))) as [v' |] eqn:Q; [left; rewrite QA; apply m_newest_key_more; congruence | exact (TN k v H)].
      - destruct fuel as [| f]; [lia |].
        destruct (t_read E rs GU x f p I W) as (s1 & d & W1 & L1 & CD & ND & R). eexists. split; [exact R |]. split; [exact W1 |]. split; [cbn [prd with_trailer with_rd]; congruence |]. split; [exact SH |]. split; [exact XN |].
        intros k v H. cbn [ptrailer with_trailer with_rd] in H. rewrite merged_key in H by exact ND. destruct (entry d k) as [v' |] eqn:Q; [| exact (TN k v H)]. injection H as <-. destruct CD as [-> | FO]; [discriminate | right; eauto]. }
    split; [exact ONE |]. induction l as [| i l IH]; intros fuel p m L FU QL SF OK; cbn [app load_all].
    - destruct (ONE fuel p (m_pos m) FU SF) as (p1 & R1 & S1); [left; exists m; split; [rewrite QL; apply in_or_app; right; left; reflexivity | reflexivity] |].
      destruct SF as (W & LG & SH & XN & TN). destruct (CH L m [] QL fuel p ltac:(lia) W SH) as (p' & R & W' & L' & S' & X' & T').
      assert (p' = p1) by congruence. subst p'. unfold bind. rewrite R1. exists p1. split; [reflexivity |]. split; [exact S1 |]. rewrite <- QL in X', T'. split.
      + intros n. rewrite X'. destruct (newest n (m_secs M)) eqn:Q; [reflexivity |]. cbn [or_else]. destruct (xget n (pxref p)) eqn:Q2; [| reflexivity]. exfalso. apply (XN n); [rewrite Q2; discriminate | exact Q].
      + intros k v Q. rewrite T', Q. reflexivity.
    - destruct (ONE fuel p i FU SF) as (p1 & R1 & S1); [apply OK; left; reflexivity |]. unfold bind at 1. rewrite R1. apply (IH fuel p1 m L FU QL S1). intros j J. apply OK. right. exact J.
  Qed.
  Lemma x_start_last : forall L m, M = L ++ [m] -> start_xref_offset file = Some (m_pos m).
  Proof.
    intros L m QM'. assert (Im : In m M) by (rewrite QM'; apply in_or_app; right; left; reflexivity). pose proof (sy_well _ _ (m_says E M SY m Im)) as PW. pose proof (m_nonneg E M SY m Im) as TN.
    pose proof (xw_stream _ _ PW) as TB. apply start_offset. assert (B : m_pos m < 2 ^ 53) by exact TB. assert (B2 : 2 ^ 53 < 2 ^ 54) by reflexivity. split; [| lia].
    destruct m as [[[o q] r] l]. pose proof QM as QL. rewrite QM', map_app in QL. cbn [map fst] in QL. symmetry in QL.
    destruct (xlayout_split _ _ _ _ _ _ _ _ QL) as (rs1 & rs2 & a & _ & QR & Q2 & _ & _). destruct rs2; [| discriminate Q2]. cbn [w_xrevisions] in QR. rewrite app_nil_r in QR.
    apply (start_end _ (w_version ++ a ++ w_objects (xv_all r))); [unfold m_pos, s_pos in *; cbn [fst snd] in *; lia |]. unfold file, w_xupdated. rewrite QR. unfold w_xrevision, m_pos, s_pos. cbn [fst snd]. apps. reflexivity.
  Qed.
  Lemma m_revs : map (fun m => xv_read (m_rev m)) M = map xv_read rs.
  Proof.
    transitivity (map xv_read (map (fun x : xelement => snd x) (map fst M))); [rewrite !map_map; reflexivity |]. rewrite QM. f_equal. unfold lay. generalize (zlen w_version), (@None Z). clear.
    induction rs as [| r l IH]; intros off pv; [reflexivity |]. cbn [x_layout map snd]. rewrite IH. reflexivity.
  Qed.
  Lemma m_xliving : map t_obj (m_living M) = xliving rs.
  Proof. unfold m_living, xliving, living. rewrite m_living_is, m_revs. reflexivity. Qed.
  Lemma m_xkey : forall k, newest_key k (m_secs M) = xkey k rs.
  Proof. intros k. unfold xkey. rewrite <- m_revs, <- m_key. destruct (newest_key k (m_secs M)); reflexivity. Qed.

  Lemma xupdates_first : exists F, forall fuel ord, (F <= fuel)%nat -> (forall m, Permutation (ord m) m) ->
    exists p, first_part fuel E ord file (new_parser file) = Ok (tt, p) /\ reads file p /\ log (prd p) = [] /\ psh p = new_sechandler /\
      (forall k v, xkey k rs = Some v -> entry (ptrailer p) k = Some v) /\
      (forall k v, entry (ptrailer p) k = Some v -> xkey k rs = Some v \/ exists d, xfirst_of rs d /\ entry d k = Some v) /\ offsets_ok (pxref p) /\
      (forall t, In t (m_living M) -> exists e, xget (t_num t) (pxref p) = Some e /\ x_off e = t_at t /\ x_gen e = igen (t_obj t) /\ x_type e = 1 /\ x_enc e = x_enc (snd t) /\ x_stm e = x_stm (snd t)) /\
      (forall n, SpecOut.in_use p n -> exists t, In t (m_living M) /\ t_num t = n).
  Proof.
    destruct x_offsets_read as (F0 & _ & ALL). exists (S (S F0)). intros fuel ord F P. unfold first_part. unfold bind at 1.
    destruct (find_objects_records E file (new_parser file) fuel (open_wf file) eq_refl ltac:(lia)) as (l & os & p1 & F1 & SC & RC & W1 & X1 & T1 & S1 & ND).
    destruct (find_objects_silent E file (new_parser file) fuel os p1 (open_wf file) eq_refl ltac:(lia) F1) as (l' & SC' & L1).
    assert (ON : only_at file (map fst objs)) by (apply (xupdated_markers E); exact GU).
    assert (HA : forall i o, In (i, o) objs -> header_at file i (inum o)) by (intros i o I; eapply headed_header, obj_headed, I).
    assert (L1' : log (prd p1) = []).
    { rewrite L1; [reflexivity |]. intros i I. assert (I2 : In i (map fst objs)).
      { refine (proj1 (scan_headers file (map fst objs) l' _ ON SC' i) I). intros k K. apply in_map_iff in K. destruct K as ([k' o] & Q & K). cbn in Q. subst k'. exists (inum o). apply HA. exact K. }
      apply in_map_iff in I2. destruct I2 as ([i' o] & Q & I2). cbn in Q. subst i'. eapply headed_silent, obj_headed, I2. }
    clear L1 SC' l'. rewrite F1.
    pose proof (markers_recorded r_entry file objs l os HA obj_entry ON SC RC) as RO.
    destruct (exists_last (l := M)) as (L & m & QL).
    { intros Q. apply (gxu_some _ _ GU). apply length_zero_iff_nil. rewrite <- (xlayout_length rs (zlen w_version) None). fold lay. rewrite <- QM, Q. reflexivity. }
    pose proof (x_start_last L m QL) as SX. unfold xref_offsets. rewrite SX. unfold bind at 1. unfold pseek at 1.
    set (p2 := with_rd (seek file (zlen file) (prd p1)) p1).
    assert (SF : xso_far p2).
    { split; [apply sk_nonneg; apply zlen_nonneg |]. split; [unfold p2; cbn [prd with_rd]; rewrite sk_log by apply zlen_nonneg; exact L1' |]. split; [unfold p2; cbn [psh with_rd]; rewrite S1; reflexivity |].
      split; [intros n H; unfold p2 in H; cbn [pxref with_rd] in H; rewrite X1 in H; contradiction H; reflexivity |]. intros k v H. unfold p2 in H. cbn [ptrailer with_rd] in H. rewrite T1 in H. discriminate H. }
    match goal with |- context [load_all fuel E file (sortZ ?a ++ _)] => set (offs := a) end.
    destruct (ALL (sortZ offs) fuel p2 m L ltac:(lia) QL SF) as (p5 & R5 & (W5 & L5 & S5 & _ & TN5) & X5 & T5).
    { intros i I. apply (proj1 (sortZ_In _ _)) in I. unfold offs in I. apply in_app_or in I. destruct I as [I | I]; [right; apply (xrefs_only E rs GU); exact I |]. left.
      apply in_map_iff in I. destruct I as ([n e] & <- & I). apply filter_In in I. destruct I as [I XS]. cbn [snd] in *. assert (Q : xget n os = Some e) by (apply (In_mget Z.eqb Zeqb_ok); assumption).
      specialize (RO n). rewrite Q in RO. destruct RO as (i & o & [IO _] & _ & ->). rewrite r_off. destruct (raw_cases i o IO) as (m' & Im & C). exists m'. split; [exact Im |]. destruct C as [C | [C _]]; [| exact C]. exfalso.
      destruct (place_entry E m' i o (m_says E M SY m' Im) C) as (Lo & _). unfold r_entry in XS. rewrite (good_r o Lo) in XS. discriminate XS. }
    unfold bind at 1. rewrite R5.
    destruct (repair_does file (ord os) os p5 W5 ND (P os)) as (p6 & R6 & W6 & T6 & S6 & C6 & RP). rewrite R6.
    assert (TR : forall k v, entry (ptrailer p6) k = Some v -> xkey k rs = Some v \/ exists d, xfirst_of rs d /\ entry d k = Some v).
    { intros k v H. rewrite T6 in H. rewrite <- m_xkey. destruct (newest_key k (m_secs M)) as [v' |] eqn:Q; [left; rewrite (T5 k v' Q) in H; exact H |]. destruct (TN5 k v H) as [K | K]; [contradiction K; exact Q | right; exact K]. }
    assert (LAST : forall t s, In t (m_living M) -> xget (t_num t) os = Some s -> x_off s = t_at t).
    { intros t s I Q. specialize (RO (t_num t)). rewrite Q in RO. destruct RO as (i & o & [IO LO] & QN & ->). rewrite r_off. destruct (raw_spot i o IO) as (u & Iu & <- & Nu).
      assert (QA : lay = map fst (M ++ [])) by (rewrite app_nil_r; symmetry; exact QM). pose proof (m_living_last E rs _ _ M [] QA SY t u I Iu) as B1.
      destruct (spot_in t (m_living_all M t I)) as (m' & o' & _ & _ & IO' & N'). specialize (LO _ _ IO'). assert (t_at t <= t_at u) by (apply LO; congruence). assert (t_at u <= t_at t) by (apply B1; congruence). lia. }
    assert (HAS : forall t, In t (m_living M) -> exists s, xget (t_num t) os = Some s).
    { intros t I. destruct (xget (t_num t) os) as [s |] eqn:Q; [eauto |]. exfalso. specialize (RO (t_num t)). rewrite Q in RO. destruct (spot_in t (m_living_all M t I)) as (m' & o' & _ & _ & IO' & N'). exact (RO _ _ IO' N'). }
    assert (X6 : forall t, In t (m_living M) -> exists e, xget (t_num t) (pxref p6) = Some e /\ x_off e = t_at t /\ x_gen e = igen (t_obj t) /\ x_type e = 1 /\ x_enc e = x_enc (snd t) /\ x_stm e = x_stm (snd t)).
    { intros t I. pose proof (m_living_newest E M SY t I) as NQ. destruct (HAS t I) as (s & QS). pose proof (LAST t s I QS) as LS.
      destruct (spot_in t (m_living_all M t I)) as (m' & _ & Im & It & _ & _). pose proof (m_says E M SY m' Im) as Sm. apply in_app_or in It. destruct It as [It | [It | []]].
      - apply in_map_iff in It. destruct It as ([k o] & Qt & It). cbn [fst snd] in Qt. subst t. specialize (C6 (t_num (k, as_written o, new_xentry k (igen o) 1))). rewrite X5, NQ, QS in C6. destruct C6 as (e' & Q6 & (M1 & M2 & M3 & M4) & OFF).
        exists e'. split; [exact Q6 |]. unfold t_at, t_obj in *. cbn [fst snd new_xentry x_off x_gen x_type] in *. split; [destruct OFF; congruence |]. split; [rewrite M1; symmetry; exact (proj2 (as_written_num o)) |]. split; [exact M2 |]. split; [exact M3 | exact M4].
      - subst t. rewrite <- X5 in NQ. unfold m_own in NQ at 2. cbn [snd] in NQ. destruct (RP _ _ _ QS NQ) as [K _]; [cbn [x_off own_entry]; unfold m_behind; pose proof (m_nonneg E M SY m' Im); pose proof (zlen_nonneg _ (w_head (xv_stream (m_rev m')))); lia |].
        eexists. split; [apply K |].
        + right. cbn [x_off own_entry]. destruct (m_at rs M QM m' Im) as [r ZA].
          assert (NI : forall n, ~ int_at file (m_behind m') n) by (eapply xs_no_int; [exact (sy_lines _ _ Sm) | exact (m_nonneg E M SY m' Im) | exact ZA]).
          intros [T | [T _]]; [exact (NI _ T) |]. pose proof (lo_number _ (gv_stream _ _ _ _ (xw_revision _ _ (sy_well _ _ Sm)))) as N1. change (snd (fst m')) with (m_rev m') in N1. unfold t_num, t_obj, m_own in T. cbn [fst snd x_read inum] in T. lia.
        + cbn [x_off x_gen x_type own_entry]. split; [exact LS |]. split; [reflexivity |]. split; [reflexivity |]. split; reflexivity. }
    assert (IU : forall n e, xget n (pxref p6) = Some e -> x_type e = 1 -> exists t, In t (m_living M) /\ t_num t = n).
    { intros n e Q TY. specialize (C6 n). rewrite X5 in C6. destruct (newest n (m_secs M)) as [e0 |] eqn:NQ.
      - destruct (m_newest_living E M SY n e0 NQ) as [T0 | (t & It & Qn & _)]; [| eauto].
        exfalso. destruct (xget n os) as [s |]; [| rewrite C6 in Q; injection Q as <-; rewrite T0 in TY; discriminate TY]. destruct C6 as (e' & Q6 & (M1 & M2 & M3 & M4) & _). assert (e' = e) by congruence. subst e'. congruence.
      - exfalso. destruct (xget n os) as [s |] eqn:QS; [| congruence]. specialize (RO n). rewrite QS in RO. destruct RO as (i & o & [IO _] & QN & _). destruct (raw_spot i o IO) as (u & Iu & _ & Nu).
        apply (m_spot_has E M SY u Iu). rewrite Nu, QN. exact NQ. }
    exists p6. split; [reflexivity |]. split; [exact W6 |]. split.
    { rewrite (repair_log file (ord os) p5 tt p6 W5); [exact L5 | | exact R6]. eapply Permutation_NoDup; [symmetry; apply Permutation_map; apply P | exact ND]. }
    split; [congruence |]. split; [intros k v Q; rewrite T6; apply T5; rewrite m_xkey; exact Q |]. split; [exact TR |]. split; [| split; [exact X6 |]].
    - intros n e Q TY. destruct (IU n e Q TY) as (t & It & <-). destruct (X6 t It) as (e' & Q' & OFF & _). assert (e' = e) by congruence. subst e'. rewrite OFF. exact (spot_nonneg t (m_living_all M t It)).
    - intros n (e & Q & TY). exact (IU n e Q TY).
  Qed.
End Loading.
(** ** A document that is not encrypted *)
Section Plain.
  Variables (E : env) (rs : list xrevision) (M : list melement).
  Hypothesis GU : good_xupdates E rs.
  Let lay := x_layout (zlen w_version) None rs.
  Let file := w_xupdated rs.
  Hypothesis QM : map fst M = lay.
  Hypothesis SY : Forall (says E) M.
  (** every object is readable where it is *)
  Lemma spot_readable : forall t, In t (m_all M) -> readable_at E file (t_at t) (t_obj t).
  Proof.
    intros t I. unfold m_all in I. apply in_flat_map in I. destruct I as (m & Im & I). apply in_app_or in I. destruct I as [I | [<- | []]].
    - apply in_map_iff in I. destruct I as ([k o] & <- & I). unfold t_at, t_obj. cbn [fst snd].
      assert (Go : good_object o) by (apply (gxu_objects _ _ GU (m_rev m)); [exact (m_in E rs M GU QM m Im) | exact (places_in _ _ _ _ I)]).
      destruct (place_split rs M QM m k o Im I) as (pre & r & QF & ->). apply object_readable. eapply good_at; [exact Go | exact QF].
    - exact (own_readable E rs M QM SY m Im).
  Qed.
  Lemma x_no_encrypt : xkey (lit "Encrypt") rs = None.
  Proof.
    unfold xkey. pose proof (gxu_plain _ _ GU) as G.
    clear - G. induction rs as [| r l IH]; [reflexivity |]. cbn [map current_key xv_read rv_trailer]. rewrite (G r (or_introl eq_refl)). apply IH. intros r' I. apply G. right. exact I.
  Qed.
  Lemma xupdates_loaded : exists F, forall fuel ord pw, (F <= fuel)%nat -> (forall m, Permutation (ord m) m) ->
    exists p, load fuel E ord file pw (new_parser file) = Ok (None, p) /\ reads file p /\ log (prd p) = [] /\ psh p = new_sechandler /\
      (forall k v, xkey k rs = Some v -> entry (ptrailer p) k = Some v) /\
      (forall k v, entry (ptrailer p) k = Some v -> xkey k rs = Some v \/ exists d, xfirst_of rs d /\ entry d k = Some v) /\ offsets_ok (pxref p) /\
      (forall t, In t (m_living M) -> exists e, xget (t_num t) (pxref p) = Some e /\ x_off e = t_at t /\ x_gen e = igen (t_obj t) /\ x_type e = 1 /\ x_enc e = x_enc (snd t) /\ x_stm e = x_stm (snd t)) /\
      (forall n, SpecOut.in_use p n -> exists t, In t (m_living M) /\ t_num t = n).
  Proof.
    destruct (xupdates_first E rs M GU QM SY) as (F & H). exists F. intros fuel ord pw LE P. destruct (H fuel ord LE P) as (p & L & W & LG & SH & T1 & T2 & R). fold file in L, W, R.
    exists p. split; [| auto 8]. rewrite load_parts. unfold bind. rewrite L.
    assert (NE : dget (lit "Encrypt") (ptrailer p) = None); [| rewrite NE; reflexivity].
    rewrite dget_entry. destruct (entry (ptrailer p) (lit "Encrypt")) as [v |] eqn:Q; [| reflexivity]. exfalso. destruct (T2 _ _ Q) as [K | (d & FO & K)]; [| rewrite (xfirst_plain E rs M GU QM d FO) in K; discriminate K].
    rewrite x_no_encrypt in K. discriminate K.
  Qed.
End Plain.
