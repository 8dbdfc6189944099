(** XPutP.v -- a cross-reference stream for every list of objects (C101). *)
From Verif Require Import Base BaseP Msg Reader ReaderP Num NumP Obj ReadObj Bits Filters Env SpecLex SpecObj SpecFilters FiltersP SpecFetch SpecLook SpecStream StreamEx SpecXref XrefP
  SpecWrite WriteP WriteDocP WriteLoadP WriteOutP SpecXWrite XWriteP.
From Coq Require Import Strings.String Sorting.Permutation.

(** ** The records *)
Lemma w_be_len : forall k v, zlen (w_be k v) = Z.of_nat k.
Proof. induction k as [| k IH]; intros v; [reflexivity |]. cbn [w_be]. rewrite zlen_app, IH. change (zlen [zb v]) with 1. lia. Qed.
Lemma be_last : forall l b, be (l ++ [b]) = be l * 256 + bv b.
Proof.
  induction l as [| x l IH]; intros b; cbn [app be List.length]; [cbn; lia |]. rewrite IH, app_length. cbn [List.length].
  replace (Z.of_nat (List.length l + 1)) with (Z.of_nat (List.length l) + 1) by lia. rewrite Z.pow_add_r, Z.pow_1_r by lia. lia.
Qed.
Lemma be_w_be : forall k v, 0 <= v < 256 ^ Z.of_nat k -> be (w_be k v) = v.
Proof.
  induction k as [| k IH]; intros v H; [cbn in *; lia |]. cbn [w_be]. rewrite be_last, bv_zb. rewrite Nat2Z.inj_succ, Z.pow_succ_r in H by lia.
  rewrite IH; [pose proof (Z.div_mod v 256 ltac:(lia)); lia |]. split; [apply Z.div_pos; lia | apply Z.div_lt_upper_bound; lia].
Qed.
(** what the record for [n] says *)
Definition e_record (l : list (Z * (Z * Z))) (n : Z) : xentry :=
  match find (fun p => fst p =? n) l with Some (_, (off, g)) => line_entry (off, g, true) | None => line_entry (0, 65535, false) end.
Definition fits (l : list (Z * (Z * Z))) : Prop := forall n off g, In (n, (off, g)) l -> 0 <= off < 256 ^ 5 /\ 0 <= g <= 65535.
Lemma w_record_text : forall l n, fits l -> record_text (1, 5, 2) (w_record l n) (e_record l n).
Proof.
  intros l n F. unfold w_record, e_record. destruct (find _ l) as [[m [off g]] |] eqn:Q.
  - apply find_some in Q. destruct Q as [I _]. destruct (F _ _ _ I) as [F1 F2]. pose proof (rt_intro (1, 5, 2) (w_be 1 1) (w_be 5 off) (w_be 2 g)) as R. rewrite !w_be_len in R. specialize (R eq_refl).
    rewrite (be_w_be 1), (be_w_be 5), (be_w_be 2) in R by (change (Z.of_nat 5) with 5; change (256 ^ Z.of_nat 2) with 65536; change (256 ^ Z.of_nat 1) with 256; lia). exact R.
  - pose proof (rt_intro (1, 5, 2) (w_be 1 0) (w_be 5 0) (w_be 2 65535)) as R. rewrite !w_be_len in R. exact (R eq_refl).
Qed.
Lemma w_records_text : forall l ns, fits l -> records_text (1, 5, 2) (flat_map (w_record l) ns) (map (e_record l) ns).
Proof. intros l ns F. induction ns as [| n ns IH]; cbn [flat_map map]; [constructor |]. constructor; [apply w_record_text; exact F | exact IH]. Qed.
Lemma w_record_len : forall l n, zlen (w_record l n) = 8.
Proof. intros l n. unfold w_record. destruct (find _ l) as [[m [off g]] |]; rewrite !zlen_app, !w_be_len; reflexivity. Qed.
Lemma w_records_len : forall l ns, zlen (flat_map (w_record l) ns) = 8 * zlen ns.
Proof. intros l. induction ns as [| n ns IH]; [reflexivity |]. cbn [flat_map]. rewrite zlen_app, w_record_len, IH, zlen_cons. lia. Qed.
Lemma latest_seq : forall (f : Z -> xentry) k s n, 0 <= Z.of_nat s -> Z.of_nat s + Z.of_nat k < 2 ^ 62 ->
  latest n (number_from (Z.of_nat s) (map f (map Z.of_nat (seq s k)))) = if (Z.of_nat s <=? n) && (n <? Z.of_nat s + Z.of_nat k) then Some (f n) else None.
Proof.
  intros f. induction k as [| k IH]; intros s n P B; cbn [seq map number_from latest].
  - destruct (Z.leb_spec (Z.of_nat s) n), (Z.ltb_spec n (Z.of_nat s + Z.of_nat 0)); try reflexivity. lia.
  - replace (Z.of_nat s + 1) with (Z.of_nat (S s)) by lia. rewrite (IH (S s)) by lia. rewrite wrap64_small by (unfold two63; lia).
    destruct (Z.leb_spec (Z.of_nat (S s)) n), (Z.ltb_spec n (Z.of_nat (S s) + Z.of_nat k)), (Z.leb_spec (Z.of_nat s) n), (Z.ltb_spec n (Z.of_nat s + Z.of_nat (S k))), (Z.eqb_spec (Z.of_nat s) n); cbn [andb]; try reflexivity; try lia; congruence.
Qed.
Lemma find_key : forall (l : list (Z * (Z * Z))) n v, NoDup (map fst l) -> In (n, v) l -> find (fun p => fst p =? n) l = Some (n, v).
Proof.
  induction l as [| [m w] l IH]; intros n v ND I; [destruct I |]. cbn [map fst] in ND. inversion ND as [| ? ? NI ND']; subst. cbn [find fst]. destruct (Z.eqb_spec m n) as [-> | N].
  - destruct I as [Q | I]; [congruence |]. exfalso. apply NI. apply in_map_iff. exists (n, v). auto.
  - destruct I as [Q | I]; [congruence |]. apply IH; assumption.
Qed.
Lemma zlen_hex : forall s, zlen s <= zlen (hex s).
Proof. induction s as [| b s IH]; [cbn; lia |]. unfold hex in *. cbn [flat_map]. rewrite zlen_app, zlen_cons. change (zlen (hex_of b)) with 2. lia. Qed.
Lemma zlen_data : forall s, zlen s <= zlen (w_data s).
Proof. intros s. unfold w_data. destruct (raw s); [lia |]. rewrite zlen_app. pose proof (zlen_hex s). change (zlen [">"%byte]) with 1. lia. Qed.

Lemma max_of : forall n l, n <= fold_right Z.max n l /\ forall x, In x l -> x <= fold_right Z.max n l.
Proof. intros n. induction l as [| y l [IH1 IH2]]; cbn [fold_right]; (split; [lia |]); [intros x [] |]. intros x [-> | I]; [lia | specialize (IH2 x I); lia]. Qed.
Lemma keep_entry : forall (tr t : dict) k, In k (map fst tr) -> entry (tr ++ t) k = entry tr k.
Proof.
  induction tr as [| [k' v] r IH]; intros t k I; [destruct I |]. cbn [app entry map fst In] in *. destruct (list_eq_dec _ k k') as [| X]; [reflexivity |]. apply IH. destruct I as [Q | I]; [congruence | exact I].
Qed.

Section Put.
  Variables (E : env) (D : list iobj) (n : Z) (tr : dict).
  Hypothesis GT : lay_trailer D n tr.
  Let xs := w_xstream D n tr.
  Let N := w_size D n.
  Let l := w_entries D n.
  Let dx := match ival (as_written xs) with ODict d => d | _ => [] end.
  Lemma p_form : ival (as_written xs) = ODict dx /\
    (raw (w_xdata D n) = true /\ dx = w_xdict D n tr \/ raw (w_xdata D n) = false /\ dx = w_xdict D n tr ++ [(lit "Filter", OName (lit "ASCIIHexDecode"))]).
  Proof. unfold dx, as_written, xs, w_xstream. cbn [istream]. destruct (raw (w_xdata D n)); cbn [ival coded]; auto. Qed.
  Lemma p_max : forall o, In o D -> inum o < N.
  Proof. unfold N, w_size. intros o I. pose proof (proj2 (max_of n (map inum D)) (inum o) (in_map inum _ _ I)). lia. Qed.
  Lemma p_n : n < N.
  Proof. unfold N, w_size. pose proof (proj1 (max_of n (map inum D))). lia. Qed.
  Lemma p_file : zlen (w_xdocument D xs) = zlen (w_body D) + zlen (w_object xs) + zlen (w_end (zlen (w_body D))).
  Proof. unfold w_xdocument, w_body. unfold w_objects. rewrite flat_map_app. cbn [flat_map]. rewrite app_nil_r. rewrite !zlen_app. lia. Qed.
  Lemma p_small : 0 < N < 2 ^ 31 /\ zlen (w_body D) < 10 ^ 10.
  Proof.
    pose proof (lt_size _ _ _ GT) as SZ. fold xs in SZ. rewrite p_file in SZ. pose proof (zlen_nonneg _ (w_body D)). pose proof (zlen_nonneg _ (w_end (zlen (w_body D)))). pose proof p_n. pose proof (lt_number _ _ _ GT).
    assert (K : zlen (w_xdata D n) <= zlen (w_object xs)).
    { unfold w_object, w_value, xs, w_xstream. cbn [istream ival]. pose proof (zlen_data (w_xdata D n)).
      rewrite !zlen_app, !zlen_cons, !zlen_app, !zlen_cons, !zlen_app, !zlen_cons, !zlen_app. 
      repeat match goal with |- context [zlen ?x] => lazymatch goal with _ : 0 <= zlen x |- _ => fail | _ => pose proof (zlen_nonneg _ x) end end. lia. }
    unfold w_xdata in K. rewrite w_records_len in K. fold N in K. unfold zlen at 1 in K. rewrite map_length, seq_length, Z2Nat.id in K by lia. lia.
  Qed.
  Lemma p_fits : fits l.
  Proof.
    intros m off g I. destruct p_small as [_ B]. unfold l, w_entries in I. apply in_app_or in I. destruct I as [I | [I | []]].
    - apply in_map_iff in I. destruct I as ([k o] & Q & I). cbn [fst snd] in Q. injection Q as <- <- <-. apply places_split in I. destruct I as (D1 & D2 & QD & ->).
      pose proof (lo_generation _ ((lt_objects _ _ _ GT o ltac:(rewrite QD; apply in_or_app; right; left; reflexivity)))).
      assert (zlen w_version + zlen (w_objects D1) <= zlen (w_body D)); [| pose proof (zlen_nonneg _ w_version); pose proof (zlen_nonneg _ (w_objects D1)); lia].
      unfold w_body. rewrite QD. unfold w_objects. rewrite flat_map_app, !zlen_app. pose proof (zlen_nonneg _ (flat_map w_object (o :: D2))). lia.
    - injection I as <- <- <-. pose proof (zlen_nonneg _ (w_body D)). lia.
  Qed.
  Lemma place_objects : forall D0 off, map (fun p => inum (snd p)) (w_places off D0) = map inum D0.
  Proof. induction D0 as [| o D0 IH]; intros off; [reflexivity |]. cbn [w_places map snd]. rewrite IH. reflexivity. Qed.
  Lemma p_keys : map fst l = map inum D ++ [n].
  Proof. unfold l, w_entries. rewrite map_app, map_map. cbn [map fst]. rewrite place_objects. reflexivity. Qed.
  Lemma p_lines : stream_lines (1, 5, 2) [(0, N)] (w_xdata D n) (number_from 0 (map (e_record l) (map Z.of_nat (seq 0 (Z.to_nat N)))) ++ []) true.
  Proof.
    rewrite <- (app_nil_r (w_xdata D n)). constructor; [apply w_records_text, p_fits | | constructor].
    unfold zlen. rewrite !map_length, seq_length. pose proof p_small. lia.
  Qed.
  Lemma p_latest : forall m, latest m (number_from 0 (map (e_record l) (map Z.of_nat (seq 0 (Z.to_nat N)))) ++ []) = if (0 <=? m) && (m <? N) then Some (e_record l m) else None.
  Proof.
    intros m. rewrite app_nil_r. pose proof p_small. pose proof (latest_seq (e_record l) (Z.to_nat N) 0 m) as Q. change (Z.of_nat 0) with 0 in Q. rewrite Q by lia. rewrite Z2Nat.id by lia. reflexivity.
  Qed.
  Lemma p_entry : forall k, ~ In k (map fst tr) -> k <> lit "Filter" -> entry dx k = entry (firstn 3 (w_xdict D n tr)) k.
  Proof.
    intros k NI NF. destruct p_form as [_ [[_ ->] | [_ ->]]]; unfold w_xdict; cbn [firstn app entry].
    - rewrite (no_entry tr k NI). reflexivity.
    - rewrite (no_entry (tr ++ _) k); [reflexivity |]. rewrite map_app. intros I. apply in_app_or in I. destruct I as [I | [I | []]]; [exact (NI I) | apply NF; symmetry; exact I].
  Qed.
  Lemma p_key : forall k, In k [lit "Type"; lit "Size"; lit "W"; lit "Index"; lit "Prev"; lit "Filter"; lit "DecodeParms"] -> ~ In k (map fst tr).
  Proof. intros k I J. exact (lt_keys _ _ _ GT k J I). Qed.
  Lemma p_printable : printable (ODict (w_xdict D n tr)).
  Proof.
    destruct (lt_trailer _ _ _ GT) as [ND AL]. pose proof p_small as SM. unfold w_xdict. split.
    - cbn [map fst]. constructor; [| constructor; [| constructor; [| exact ND]]].
      + intros [Q | [Q | I]]; [discriminate Q | discriminate Q |]. revert I. apply p_key. left. reflexivity.
      + intros [Q | I]; [discriminate Q |]. revert I. apply p_key. right. left. reflexivity.
      + apply p_key. right. right. left. reflexivity.
    - assert (NX : forall t, forallb (fun k => negb (bseq (firstn 4 (skipn k t)) (lit "xref"))) (seq 0 (S (List.length t))) = true -> ~ occurs (lit "xref") t) by (exact (occurs_check (lit "xref"))).
      split; [apply NX; vm_compute; reflexivity |]. split; [apply NX; vm_compute; reflexivity |]. split; [apply NX; vm_compute; reflexivity |].
      split; [exists N; split; [lia | reflexivity] |]. split; [apply NX; vm_compute; reflexivity |]. split; [| exact AL].
      cbn [printable]. split; [exists 1; split; [lia | reflexivity] |]. split; [exists 5; split; [lia | reflexivity] |]. split; [exists 2; split; [lia | reflexivity] |]. exact Logic.I.
  Qed.
  Lemma p_len : zlen (w_obj (ODict dx)) <= 4000.
  Proof.
    pose proof (lt_fits _ _ _ GT) as F. pose proof p_small as SM. pose proof (dec_len N ltac:(lia)) as DL.
    assert (K : zlen (w_obj (ODict (w_xdict D n tr))) <= 3700).
    { unfold w_xdict. cbn [w_obj flat_map fst snd app] in *. change (w_name (lit "Type")) with (lit "Type"). change (w_name (lit "XRef")) with (lit "XRef"). change (w_name (lit "Size")) with (lit "Size"). change (w_name (lit "W")) with (lit "W").
      fold N. rewrite !num_int_of_Z by lia. unfold w_int at 1. replace (N <? 0) with false by (symmetry; apply Z.ltb_ge; lia).
      rewrite !zlen_cons in *. rewrite !zlen_app in *. rewrite !zlen_cons in *. rewrite !zlen_app in *. rewrite !zlen_cons in *. rewrite !zlen_app in *.
      change (zlen (lit "Type")) with 4. change (zlen (lit "XRef")) with 4. change (zlen (lit "Size")) with 4. change (zlen (lit "W")) with 1. change (zlen (w_int 1)) with 1. change (zlen (w_int 5)) with 1. change (zlen (w_int 2)) with 1.
      change (zlen (@nil byte)) with 0 in *. match goal with |- context [zlen (x20 :: "["%byte :: ?t)] => change (zlen (x20 :: "["%byte :: t)) with 9 end. lia. }
    destruct p_form as [_ [[_ ->] | [_ ->]]]; [lia |]. cbn [w_obj] in *. rewrite flat_map_app. rewrite !zlen_cons, !zlen_app in *.
    match goal with |- context [flat_map ?f [(lit "Filter", ?x)]] => change (zlen (flat_map f [(lit "Filter", x)])) with 24 end. lia.
  Qed.
  Lemma p_shape : lay_shape xs.
  Proof.
    pose proof p_small as SM. pose proof p_n as PN. pose proof (lt_number _ _ _ GT) as N0. split.
    - unfold xs. cbn [w_xstream inum]. lia.
    - unfold xs. cbn [w_xstream igen]. lia.
    - exact p_printable.
    - intros s QS. exists (w_xdict D n tr). split; [reflexivity |]. split; [| rewrite (proj1 p_form); exact p_len].
      intros _ I. unfold w_xdict in I. cbn [map fst] in I. destruct I as [Q | [Q | [Q | I]]]; try discriminate Q. revert I. apply p_key. cbn. tauto.
  Qed.
  Lemma put_lay : lay_xdocument E D xs dx (w_xdata D n).
  Proof.
    pose proof p_small as SM. destruct p_form as [QV C]. split.
    - intros o IO. exact ((lt_objects _ _ _ GT o IO)).
    - exact p_shape.
    - rewrite map_app. exact (lt_numbers _ _ _ GT).
    - rewrite p_entry; [reflexivity | apply p_key; cbn; tauto | discriminate].
    - rewrite p_entry; [reflexivity | apply p_key; cbn; tauto | discriminate].
    - pose proof (lt_size _ _ _ GT) as SZ. unfold xs. lia.
    - assert (NF : ~ In (lit "Filter") (map fst (w_xdict D n tr))) by (cbn [w_xdict map fst]; intros [Q | [Q | [Q | I]]]; try discriminate Q; revert I; apply p_key; cbn; tauto).
      assert (NP : ~ In (lit "DecodeParms") (map fst (w_xdict D n tr))) by (cbn [w_xdict map fst]; intros [Q | [Q | [Q | I]]]; try discriminate Q; revert I; apply p_key; cbn; tauto).
      eexists. split; [| split].
      + apply xl_intro with (s := w_xdata D n) (fl := if raw (w_xdata D n) then [] else [OName (lit "ASCIIHexDecode")]) (pl := []) (w := (1, 5, 2)) (ps := [(0, N)]).
        * exact QV.
        * reflexivity.
        * destruct C as [[C1 C2] | [C1 C2]]; rewrite C1, C2; [apply fo_none; exact NF |]. apply fo_name. exists (w_xdict D n tr), []. split; [reflexivity | exact NF].
        * apply po_none. cbn [key_of]. destruct C as [[_ ->] | [_ ->]]; [exact NP |]. rewrite map_app. intros I. apply in_app_or in I. destruct I as [I | [I | []]]; [exact (NP I) | discriminate I].
        * intros r QQ. destruct (raw (w_xdata D n)); discriminate QQ.
        * unfold w_data. destruct (raw (w_xdata D n)); [apply dc_nil |]. apply dc_cons with (y := Some (w_xdata D n)); [| apply dc_nil]. rewrite <- (hex_back (w_xdata D n)) at 2. apply st_hex. destruct (hex (w_xdata D n)); discriminate.
        * assert (QW : entry dx (lit "W") = Some (OArr [ONum (num_of_Z 1); ONum (num_of_Z 5); ONum (num_of_Z 2)])) by (rewrite p_entry; [reflexivity | apply p_key; cbn; tauto | discriminate]).
          pose proof (wo_intro _ _ _ _ _ QW) as R. rewrite !num_int_of_Z in R by lia. apply R; lia.
        * assert (QN : entry dx (lit "Size") = Some (ONum (num_of_Z N))) by (rewrite p_entry; [reflexivity | apply p_key; cbn; tauto | discriminate]).
          pose proof (ix_size _ _ ltac:(rewrite p_entry; [reflexivity | apply p_key; cbn; tauto | discriminate]) QN) as R. rewrite num_int_of_Z in R by lia. exact R.
        * exact p_lines.
      + intros k o I. rewrite p_latest. pose proof (places_in _ _ _ _ I) as ID. pose proof (p_max o ID). pose proof (lo_number _ ((lt_objects _ _ _ GT o ID))).
        replace ((0 <=? inum o) && (inum o <? N)) with true by (symmetry; apply andb_true_intro; split; [apply Z.leb_le | apply Z.ltb_lt]; lia). f_equal. unfold e_record.
        rewrite (find_key l (inum o) (k, igen o)); [reflexivity | rewrite p_keys; exact (lt_numbers _ _ _ GT) |]. unfold l, w_entries. apply in_or_app. left. apply in_map_iff. exists (k, o). auto.
      + intros m e Q TY. rewrite p_latest in Q. destruct ((0 <=? m) && (m <? N)); [| discriminate]. injection Q as <-. unfold e_record in TY. destruct (find _ l) as [[m' [off g]] |] eqn:FD; [| discriminate TY].
        apply find_some in FD. destruct FD as [I Q]. cbn [fst] in Q. apply Z.eqb_eq in Q. subst m'. rewrite map_app. change (map inum [xs]) with [n]. rewrite <- p_keys. apply in_map_iff. exists (m, (off, g)). auto.
  Qed.
  Lemma put_trailer : forall k, In k (map fst tr) -> entry dx k = entry tr k.
  Proof.
    intros k I. pose proof (lt_keys _ _ _ GT k I) as NK. cbn [In] in NK. 
    assert (T : forall t, entry (w_xdict D n tr ++ t) k = entry (tr ++ t) k).
    { intros t. unfold w_xdict. cbn [app entry]. repeat (destruct (list_eq_dec Byte.byte_eq_dec k _) as [-> | _]; [exfalso; apply NK; tauto |]). reflexivity. }
    pose proof (fun t => keep_entry tr t k I) as A.
    destruct p_form as [_ [[_ ->] | [_ ->]]]; [rewrite <- (app_nil_r (w_xdict D n tr)), T, A; reflexivity | rewrite T, A; reflexivity].
  Qed.
End Put.
Lemma no_key : forall (d : dict) k, ~ In k (map fst d) -> entry d k = None.
Proof. induction d as [| [k' v] r IH]; intros k N; [reflexivity |]. cbn [entry map fst In] in *. destruct (list_eq_dec _ k k') as [-> | X]; [destruct (N (or_introl eq_refl)) | apply IH; tauto]. Qed.
Lemma xlaid : forall E D n tr, lay_trailer D n tr -> exists d, lay_xdocument E D (w_xstream D n tr) d (w_xdata D n) /\ (forall k, In k (map fst tr) -> entry d k = entry tr k) /\
  forall k, ~ In k (map fst tr) -> ~ In k [lit "Type"; lit "Size"; lit "W"; lit "Filter"] -> entry d k = None.
Proof.
  intros E D n tr GT. eexists. split; [apply put_lay; exact GT |]. split; [intros k I; apply put_trailer; [exact GT | exact I] |].
  intros k NI NK. rewrite p_entry; [| exact NI | intros Q; apply NK; rewrite Q; right; right; right; left; reflexivity]. unfold w_xdict. cbn [firstn]. apply no_key. intros I. apply NK. cbn [map fst In] in I |- *. tauto.
Qed.
Lemma xwritten : forall E D n tr, good_trailer D n tr -> exists d, good_xdocument E D (w_xstream D n tr) d (w_xdata D n) /\ (forall k, In k (map fst tr) -> entry d k = entry tr k).
Proof.
  intros E D n tr [LT GO NE]. destruct (xlaid E D n tr LT) as (d & LX & T1 & T2). exists d. split; [| exact T1]. split; [exact LX | exact GO |].
  apply T2; [exact NE |]. intros I. vm_compute in I. intuition congruence.
Qed.
