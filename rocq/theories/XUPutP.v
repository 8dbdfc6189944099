(** XUPutP.v -- updates with cross-reference streams can be written (C111). *)
From Verif Require Import Base BaseP Msg Reader ReaderP Num NumP Obj ReadObj Bits Filters Env SpecLex SpecObj SpecFilters FiltersP SpecFetch SpecLook SpecStream StreamEx SpecXref XrefP
  SpecWrite WriteP WriteDocP WriteLoadP WriteOutP SpecXWrite XWriteP XPutP SpecUpdate SpecXUpdate XUpdateP RecoverP.
From Coq Require Import Strings.String Sorting.Permutation.

Definition f_entry (f : Z * Z * Z) : xentry := let '(t, o, g) := f in {| x_off := o; x_gen := g; x_type := t; x_enc := true; x_stm := false |}.
Definition f_fits (f : Z * Z * Z) : Prop := let '(t, o, g) := f in 0 <= t <= 1 /\ 0 <= o < 10 ^ 10 /\ 0 <= g <= 65535.
Lemma field_record : forall f, f_fits f -> record_text (1, 5, 2) (p_field f) (f_entry f).
Proof.
  intros [[t o] g] (H1 & H2 & H3). unfold p_field, f_entry. pose proof (rt_intro (1, 5, 2) (w_be 1 t) (w_be 5 o) (w_be 2 g)) as R. rewrite !w_be_len in R. specialize (R eq_refl).
  assert (B : 10 ^ 10 < 256 ^ 5) by reflexivity. assert (B2 : 10 ^ 10 < 2 ^ 53) by reflexivity.
  rewrite (be_w_be 1), (be_w_be 5), (be_w_be 2) in R by (change (Z.of_nat 5) with 5; change (256 ^ Z.of_nat 2) with 65536; change (256 ^ Z.of_nat 1) with 256; lia). rewrite !wrap_small in R by lia. exact R.
Qed.
Lemma pair_lines : forall ns fs, List.length ns = List.length fs -> (forall n, In n ns -> 0 <= n <= 2 ^ 53) -> Forall f_fits fs ->
  stream_lines (1, 5, 2) (map (fun n => (n, 1)) ns) (flat_map p_field fs) (combine ns (map f_entry fs)) true.
Proof.
  induction ns as [| n ns IH]; intros fs L B F; destruct fs as [| f fs]; try discriminate L; cbn [map flat_map combine]; [apply sl_nil |]. inversion F as [| ? ? F1 F2]; subst.
  assert (Q : (n, f_entry f) :: combine ns (map f_entry fs) = number_from n [f_entry f] ++ combine ns (map f_entry fs)).
  { cbn [number_from app]. rewrite wrap_small by (specialize (B n (or_introl eq_refl)); lia). reflexivity. }
  rewrite Q. apply sl_full; [| reflexivity |].
  - rewrite <- (app_nil_r (p_field f)). constructor; [apply field_record; exact F1 | constructor].
  - apply IH; [cbn in L; congruence | intros m I; apply B; right; exact I | exact F2].
Qed.
Lemma index_ok : forall ns, (forall n, In n ns -> 0 <= n <= 2 ^ 53) -> index_pairs (flat_map (fun n => [ONum (num_of_Z n); ONum (num_of_Z 1)]) ns) (map (fun n => (n, 1)) ns).
Proof.
  induction ns as [| n ns IH]; intros B; [constructor |]. cbn [flat_map map app]. pose proof (B n (or_introl eq_refl)). pose proof (ip_pair (num_of_Z n) (num_of_Z 1) _ _ (IH (fun m I => B m (or_intror I)))) as R. rewrite !num_int_of_Z in R by lia. exact R.
Qed.
Lemma printable_index : forall ns, (forall n, In n ns -> 0 <= n <= 2 ^ 53) -> printable (OArr (flat_map (fun n => [ONum (num_of_Z n); ONum (num_of_Z 1)]) ns)).
Proof.
  induction ns as [| n ns IH]; intros B; [exact Logic.I |]. cbn [flat_map app printable]. specialize (IH (fun m I => B m (or_intror I))). pose proof (B n (or_introl eq_refl)).
  split; [exists n; split; [lia | reflexivity] |]. split; [exists 1; split; [lia | reflexivity] |]. exact IH.
Qed.

Section Put.
  Variables (E : env) (prev : option Z) (off : Z) (p : xplan).
  Hypothesis GP : lay_plan p.
  Hypothesis OFF : 0 <= off.
  Let r := p_revision prev off p.
  Hypothesis SZ : off + zlen (w_xrevision off r) < 10 ^ 10.
  Hypothesis PB : forall q, prev = Some q -> 0 <= q < off.
  Let xs := p_stream prev off p.
  Let dx := xv_dict r.
  Lemma u_form : ival (as_written xs) = ODict dx /\
    (raw (p_data off p) = true /\ dx = p_dict prev p \/ raw (p_data off p) = false /\ dx = p_dict prev p ++ [(lit "Filter", OName (lit "ASCIIHexDecode"))]).
  Proof. unfold dx, r, p_revision. cbn [xv_dict]. unfold as_written, xs, p_stream. cbn [istream]. destruct (raw (p_data off p)); cbn [ival coded]; auto. Qed.
  Lemma u_at : w_stream_at off r < 10 ^ 10 /\ 0 <= w_stream_at off r.
  Proof. pose proof (s_inside off r). pose proof (s_nonneg off r OFF). lia. Qed.
  Lemma u_range : forall n, In n (p_numbers p) -> 0 <= n <= 2 ^ 53.
  Proof.
    intros n I. unfold p_numbers in I. apply in_app_or in I. destruct I as [I | I]; [exact (pg_freed _ GP n I) |]. apply in_app_or in I. destruct I as [I | [<- | []]]; [| pose proof (pg_number _ GP); lia].
    apply in_map_iff in I. destruct I as (o & <- & I). pose proof (lo_number _ (lo_shape _ (pg_objects _ GP o I))). lia.
  Qed.
  Lemma u_places : forall k o, In (k, o) (w_places off (pl_objects p)) -> 0 <= k < 10 ^ 10 /\ 0 <= igen o <= 65535.
  Proof.
    intros k o I. pose proof (lo_generation _ (lo_shape _ (pg_objects _ GP o (places_in _ _ _ _ I)))) as G. split; [| exact G]. apply places_split in I. destruct I as (D1 & D2 & Q & ->). pose proof (proj1 u_at) as B. unfold w_stream_at in B. cbn [r p_revision xv_objects] in B.
    rewrite Q in B. unfold w_objects in *. rewrite flat_map_app, zlen_app in B. pose proof (zlen_nonneg _ (flat_map w_object D1)). match type of B with _ + (_ + zlen ?x) < _ => pose proof (zlen_nonneg _ x) end. lia.
  Qed.
  Lemma u_fits : Forall f_fits (p_fields off p).
  Proof.
    unfold p_fields. rewrite !Forall_app. split; [| split].
    - apply Forall_forall. intros f I. apply in_map_iff in I. destruct I as (n & <- & _). cbn. lia.
    - apply Forall_forall. intros f I. apply in_map_iff in I. destruct I as ([k o] & <- & I). pose proof (u_places k o I). unfold f_fits. cbn [fst snd]. lia.
    - constructor; [| constructor]. pose proof u_at as B. unfold w_stream_at in B. cbn [r p_revision xv_objects] in B. unfold f_fits. lia.
  Qed.
  Lemma places_length : forall D o, List.length (w_places o D) = List.length D.
  Proof. induction D as [| x D IH]; intros o; cbn [w_places List.length]; [reflexivity | rewrite IH; reflexivity]. Qed.
  Lemma u_length : List.length (p_numbers p) = List.length (p_fields off p).
  Proof. unfold p_numbers, p_fields. rewrite !app_length, !map_length, places_length. reflexivity. Qed.
  Let l := combine (p_numbers p) (map f_entry (p_fields off p)).
  Lemma combine_fst : forall (A B : Type) (a : list A) (b : list B), List.length a = List.length b -> map fst (combine a b) = a.
  Proof. induction a as [| x a IH]; intros [| y b] L; try discriminate L; [reflexivity |]. cbn [combine map fst]. rewrite IH by (cbn in L; congruence). reflexivity. Qed.
  Lemma u_firsts : map fst l = p_numbers p.
  Proof. apply combine_fst. rewrite map_length. exact u_length. Qed.
  Lemma combine_app : forall (A B : Type) (a1 a2 : list A) (b1 b2 : list B), List.length a1 = List.length b1 -> combine (a1 ++ a2) (b1 ++ b2) = combine a1 b1 ++ combine a2 b2.
  Proof. induction a1 as [| x a1 IH]; intros a2 [| y b1] b2 L; try discriminate L; [reflexivity |]. cbn [app combine]. rewrite IH by (cbn in L; congruence). reflexivity. Qed.
  Lemma u_parts : l = map (fun n => (n, f_entry (0, 0, 65535))) (pl_freed p) ++ map (fun q => (inum (snd q), f_entry (1, fst q, igen (snd q)))) (w_places off (pl_objects p)) ++ [(pl_number p, f_entry (1, off + zlen (w_objects (pl_objects p)), 0))].
  Proof.
    unfold l, p_numbers, p_fields. rewrite !map_app, !map_map, combine_app by (rewrite map_length; reflexivity). f_equal; [generalize (pl_freed p); clear; intros fr; induction fr as [| n fr IH]; [reflexivity |]; cbn [map combine]; rewrite IH; reflexivity |].
    rewrite combine_app by (rewrite !map_length, places_length; reflexivity). f_equal. generalize off, (pl_objects p). clear. intros o D. revert o. induction D as [| x D IH]; intros o; [reflexivity |]. cbn [w_places map combine fst snd]. rewrite IH. reflexivity.
  Qed.
  Lemma u_nodup : NoDup (map fst l).
  Proof. rewrite u_firsts. exact (pg_numbers _ GP). Qed.
  Lemma u_key : forall k, In k [lit "Type"; lit "W"; lit "Index"; lit "Prev"; lit "Filter"; lit "DecodeParms"] -> ~ In k (map fst (pl_trailer p)).
  Proof. intros k I J. exact (pg_keys _ GP k J I). Qed.
  Definition u_prev : dict := match prev with Some q => [(lit "Prev", ONum (num_of_Z q))] | None => [] end.
  Lemma u_entry : forall k, ~ In k (map fst (pl_trailer p)) -> k <> lit "Filter" ->
    entry dx k = entry (firstn 3 (p_dict prev p) ++ u_prev) k.
  Proof.
    intros k NI NF. assert (T : forall t, ~ In k (map fst t) -> entry (p_dict prev p ++ t) k = entry (firstn 3 (p_dict prev p) ++ u_prev) k).
    { intros t NT. change (p_dict prev p) with (firstn 3 (p_dict prev p) ++ u_prev ++ pl_trailer p) at 1. rewrite <- !app_assoc. set (a := firstn 3 (p_dict prev p)). rewrite app_assoc.
      clearbody a. generalize (a ++ u_prev). intros b. induction b as [| [k' v] b IH]; cbn [app entry]; [apply no_entry; rewrite map_app; intros I; apply in_app_or in I; tauto |]. destruct (list_eq_dec _ k k'); [reflexivity | exact IH]. }
    destruct u_form as [_ [[_ ->] | [_ ->]]]; [rewrite <- (app_nil_r (p_dict prev p)); apply T; intros [] | apply T; intros [Q | []]; apply NF; symmetry; exact Q].
  Qed.
  Lemma u_keep : forall k, In k (map fst (pl_trailer p)) -> entry dx k = entry (pl_trailer p) k.
  Proof.
    clear SZ PB. intros k I. pose proof (pg_keys _ GP k I) as NK. cbn [In] in NK.
    assert (T : forall t, entry (p_dict prev p ++ t) k = entry (pl_trailer p ++ t) k).
    { intros t. unfold p_dict. cbn [app entry]. repeat (destruct (list_eq_dec Byte.byte_eq_dec k _) as [-> | _]; [exfalso; apply NK; tauto |]). destruct prev as [q |]; [| reflexivity]. cbn [app entry]. destruct (list_eq_dec Byte.byte_eq_dec k _) as [-> | _]; [exfalso; apply NK; tauto | reflexivity]. }
    pose proof (fun t => keep_entry (pl_trailer p) t k I) as A.
    destruct u_form as [_ [[_ ->] | [_ ->]]]; [rewrite <- (app_nil_r (p_dict prev p)), T, A; reflexivity | rewrite T, A; reflexivity].
  Qed.
  Lemma u_printable : printable (ODict (p_dict prev p)).
  Proof.
    destruct (pg_trailer _ GP) as [ND AL]. assert (NX : forall t, forallb (fun k => negb (bseq (firstn 4 (skipn k t)) (lit "xref"))) (seq 0 (S (List.length t))) = true -> ~ occurs (lit "xref") t) by (exact (occurs_check (lit "xref"))).
    assert (B : 10 ^ 10 < 2 ^ 53) by reflexivity.
    assert (U : printable (ODict (u_prev ++ pl_trailer p))).
    { unfold u_prev. destruct prev as [q |] eqn:QP; [| split; assumption]. specialize (PB q eq_refl). pose proof (zlen_nonneg _ (w_xrevision off r)). split; [cbn [app map fst]; constructor; [apply u_key; cbn; tauto | exact ND] |].
      split; [apply NX; vm_compute; reflexivity |]. split; [exists q; split; [lia | reflexivity] | exact AL]. }
    destruct U as [ND2 AL2]. assert (UK : forall k, In k [lit "Type"; lit "W"; lit "Index"] -> ~ In k (map fst (u_prev ++ pl_trailer p))).
    { intros k I J. rewrite map_app in J. apply in_app_or in J. destruct J as [J | J]; [unfold u_prev in J; destruct prev; [| exact J]; destruct J as [<- | []]; cbn in I; intuition discriminate |]. revert J. apply u_key. cbn [In] in *. tauto. }
    change (p_dict prev p) with ((lit "Type", OName (lit "XRef")) :: (lit "W", OArr [ONum (num_of_Z 1); ONum (num_of_Z 5); ONum (num_of_Z 2)]) ::
      (lit "Index", OArr (flat_map (fun n => [ONum (num_of_Z n); ONum (num_of_Z 1)]) (p_numbers p))) :: (u_prev ++ pl_trailer p)). split.
    - cbn [map fst]. constructor; [| constructor; [| constructor; [| exact ND2]]].
      + intros [Q | [Q | I]]; [discriminate Q | discriminate Q |]. revert I. apply UK. cbn; tauto.
      + intros [Q | I]; [discriminate Q |]. revert I. apply UK. cbn; tauto.
      + apply UK. cbn; tauto.
    - split; [apply NX; vm_compute; reflexivity |]. split; [apply NX; vm_compute; reflexivity |]. split; [apply NX; vm_compute; reflexivity |].
      split; [cbn [printable]; split; [exists 1; split; [lia | reflexivity] |]; split; [exists 5; split; [lia | reflexivity] |]; split; [exists 2; split; [lia | reflexivity] |]; exact Logic.I |].
      split; [apply NX; vm_compute; reflexivity |]. split; [apply printable_index; exact u_range | exact AL2].
  Qed.
  Lemma u_len : zlen (w_obj (ODict dx)) <= 4000.
  Proof.
    pose proof (pg_fits _ GP) as F. assert (K : zlen (w_obj (ODict (p_dict prev p))) <= 3970).
    { change (p_dict prev p) with (firstn 3 (p_dict None p) ++ u_prev ++ pl_trailer p). change (p_dict None p) with (firstn 3 (p_dict None p) ++ pl_trailer p) in F at 1. set (a := firstn 3 (p_dict None p)) in *. clearbody a.
      cbn [w_obj] in *. rewrite !flat_map_app in *. rewrite !zlen_cons, !zlen_app in *. match goal with |- context [flat_map ?f u_prev] => assert (U : zlen (flat_map f u_prev) <= 61); [| lia] end.
      unfold u_prev. destruct prev as [q |] eqn:QP; [| cbn; lia]. specialize (PB q eq_refl). pose proof (zlen_nonneg _ (w_xrevision off r)). assert (B : 10 ^ 10 < 2 ^ 53) by reflexivity. assert (B2 : 2 ^ 53 < 2 ^ 54) by reflexivity. pose proof (dec_len q ltac:(lia)) as DL.
      cbn [flat_map fst snd w_obj]. rewrite num_int_of_Z by lia. unfold w_int. replace (q <? 0) with false by (symmetry; apply Z.ltb_ge; lia). change (w_name (lit "Prev")) with (lit "Prev"). rewrite app_nil_r, !zlen_cons, zlen_app, zlen_cons. change (zlen (lit "Prev")) with 4. lia. }
    destruct u_form as [_ [[_ ->] | [_ ->]]]; [lia |]. cbn [w_obj] in *. rewrite flat_map_app. rewrite !zlen_cons, !zlen_app in *.
    match goal with |- context [flat_map ?f [(lit "Filter", ?x)]] => change (zlen (flat_map f [(lit "Filter", x)])) with 24 end. lia.
  Qed.
  Lemma u_shape : lay_shape xs.
  Proof.
    pose proof (pg_number _ GP) as N0. split.
    - exact N0.
    - cbn. lia.
    - exact u_printable.
    - intros s QS. exists (p_dict prev p). split; [reflexivity |]. split; [| rewrite (proj1 u_form); exact u_len].
      intros _ I. change (p_dict prev p) with (firstn 3 (p_dict prev p) ++ u_prev ++ pl_trailer p) in I. rewrite !map_app in I. apply in_app_or in I. destruct I as [I | I]; [cbn in I; intuition discriminate |].
      apply in_app_or in I. destruct I as [I | I]; [unfold u_prev in I; destruct prev; cbn in I; intuition discriminate |]. revert I. apply u_key. cbn; tauto.
  Qed.
  Lemma u_lines : xref_lines E xs dx (p_data off p) l.
  Proof.
    destruct u_form as [QV C].
    assert (AB : forall k, In k [lit "Filter"; lit "DecodeParms"] -> ~ In k (map fst (p_dict prev p))).
    { intros k K I. change (p_dict prev p) with (firstn 3 (p_dict prev p) ++ u_prev ++ pl_trailer p) in I. rewrite !map_app in I. apply in_app_or in I. destruct I as [I | I]; [cbn in I, K; intuition congruence |].
      apply in_app_or in I. destruct I as [I | I]; [unfold u_prev in I; destruct prev; cbn in I, K; intuition congruence |]. revert I. apply u_key. cbn [In] in *; tauto. }
    pose proof (AB (lit "Filter") ltac:(cbn; tauto)) as NF. pose proof (AB (lit "DecodeParms") ltac:(cbn; tauto)) as NP.
    apply xl_intro with (s := p_data off p) (fl := if raw (p_data off p) then [] else [OName (lit "ASCIIHexDecode")]) (pl := []) (w := (1, 5, 2)) (ps := map (fun n => (n, 1)) (p_numbers p)).
    - exact QV.
    - reflexivity.
    - destruct C as [[C1 C2] | [C1 C2]]; rewrite C1, C2; [apply fo_none; exact NF |]. apply fo_name. exists (p_dict prev p), []. split; [reflexivity | exact NF].
    - apply po_none. cbn [key_of]. destruct C as [[_ ->] | [_ ->]]; [exact NP |]. rewrite map_app. intros I. apply in_app_or in I. destruct I as [I | [I | []]]; [exact (NP I) | discriminate I].
    - intros q QQ. destruct (raw (p_data off p)); discriminate QQ.
    - unfold w_data. destruct (raw (p_data off p)); [apply dc_nil |]. apply dc_cons with (y := Some (p_data off p)); [| apply dc_nil]. rewrite <- (hex_back (p_data off p)) at 2. apply st_hex. destruct (hex (p_data off p)); discriminate.
    - assert (QW : entry dx (lit "W") = Some (OArr [ONum (num_of_Z 1); ONum (num_of_Z 5); ONum (num_of_Z 2)])) by (rewrite u_entry; [reflexivity | apply u_key; cbn; tauto | discriminate]).
      pose proof (wo_intro _ _ _ _ _ QW) as R. rewrite !num_int_of_Z in R by lia. apply R; lia.
    - apply ix_index with (l := flat_map (fun n => [ONum (num_of_Z n); ONum (num_of_Z 1)]) (p_numbers p)); [| apply index_ok; exact u_range]. rewrite u_entry; [reflexivity | apply u_key; cbn; tauto | discriminate].
    - apply pair_lines; [exact u_length | exact u_range | exact u_fits].
  Qed.
  Lemma put_revision : lay_xrevision E off prev r.
  Proof.
    assert (B : 10 ^ 10 < 2 ^ 53) by reflexivity. split.
    - exact (pg_objects _ GP).
    - exact u_shape.
    - pose proof (pg_numbers _ GP) as ND. unfold xv_all. cbn [r p_revision xv_freed xv_objects xv_stream]. rewrite map_app. exact ND.
    - fold dx. rewrite u_entry; [reflexivity | apply u_key; cbn; tauto | discriminate].
    - fold dx. rewrite u_entry; [unfold u_prev; destruct prev; reflexivity | apply u_key; cbn; tauto | discriminate].
    - exists l. split; [exact u_lines |]. split; [| split].
      + intros k o I. apply latest_one; [exact u_nodup |]. rewrite u_parts. apply in_or_app. right. apply in_or_app. left. apply in_map_iff. exists (k, o). split; [| exact I]. cbn [fst snd]. f_equal. unfold f_entry, line_entry. destruct (u_places k o I) as [B1 B2]. rewrite !wrap_small by lia. reflexivity.
      + intros n I. exists (f_entry (0, 0, 65535)). split; [| reflexivity]. apply latest_one; [exact u_nodup |]. rewrite u_parts. apply in_or_app. left. apply in_map_iff. exists n. split; [reflexivity | exact I].
      + intros n e Q. unfold xv_all. cbn [r p_revision xv_freed xv_objects xv_stream]. rewrite map_app. change (In n (p_numbers p)). rewrite <- u_firsts. destruct (in_dec Z.eq_dec n (map fst l)) as [I | N]; [exact I |]. rewrite (latest_none _ n l N) in Q. discriminate Q.
  Qed.
End Put.
Lemma put_revisions : forall E ps off prev, (forall p, In p ps -> lay_plan p) -> 0 <= off -> (forall q, prev = Some q -> 0 <= q < off) -> off + zlen (w_xrevisions off (p_revisions off prev ps)) < 10 ^ 10 ->
  lay_xrevisions E off prev (p_revisions off prev ps).
Proof.
  intros E. induction ps as [| p ps IH]; intros off prev GP O PB SZ; cbn [p_revisions lay_xrevisions]; [exact Logic.I |]. cbn [p_revisions w_xrevisions] in SZ. set (r := p_revision prev off p) in *. rewrite zlen_app in SZ.
  pose proof (zlen_nonneg _ (w_xrevisions (off + zlen (w_xrevision off r)) (p_revisions (off + zlen (w_xrevision off r)) (Some (w_stream_at off r)) ps))). pose proof (zlen_nonneg _ (w_xrevision off r)).
  split; [apply put_revision; [apply GP; left; reflexivity | exact O | fold r; lia | exact PB] |]. apply IH; [intros q I; apply GP; right; exact I | lia | | lia].
  intros q Q. injection Q as <-. pose proof (s_nonneg off r O). pose proof (s_inside off r). lia.
Qed.
Lemma updates_laid : forall E ps, lay_plans ps -> lay_xupdates E (p_updates ps).
Proof.
  intros E ps [A B C D]. assert (SZ : 10 ^ 10 < 2 ^ 53) by reflexivity. split.
  - destruct ps; [contradiction A; reflexivity | discriminate].
  - apply put_revisions; [exact B | apply zlen_nonneg | discriminate |]. unfold w_xupdated, p_updates in D. rewrite zlen_app in D. exact D.
  - intros r I. assert (H : exists p, In p (tl ps) /\ xv_objects r = pl_objects p).
    { destruct ps as [| p ps]; [destruct I |]. unfold p_updates in I. cbn [p_revisions tl] in *. clear - I. revert I. generalize (zlen w_version + zlen (w_xrevision (zlen w_version) (p_revision None (zlen w_version) p))), (Some (w_stream_at (zlen w_version) (p_revision None (zlen w_version) p))).
      induction ps as [| p' ps IH]; intros off prev I; [destruct I |]. cbn [p_revisions] in I. destruct I as [<- | I]; [exists p'; split; [left; reflexivity | reflexivity] |]. destruct (IH _ _ I) as (q & Iq & Q). exists q. split; [right; exact Iq | exact Q]. }
    destruct H as (p & Ip & Q). destruct (C p Ip) as (o & D0 & Q0 & H). exists o, D0. split; [congruence | exact H].
  - lia.
Qed.
(** every revision is one of the plan *)
Lemma planned : forall ps off prev r, In r (p_revisions off prev ps) -> exists p q k, In p ps /\ r = p_revision q k p.
Proof.
  induction ps as [| p ps IH]; intros off prev r I; [destruct I |]. cbn [p_revisions] in I. destruct I as [<- | I]; [exists p, prev, off; split; [left; reflexivity | reflexivity] |].
  destruct (IH _ _ _ I) as (p' & q & k & Ip & Q). exists p', q, k. split; [right; exact Ip | exact Q].
Qed.
Lemma updates_written : forall E ps, good_plans ps -> good_xupdates E (p_updates ps).
Proof.
  intros E ps [LP GO PL]. split; [exact (updates_laid E ps LP) | |]; intros r; intros.
  - destruct (planned _ _ _ _ H) as (p & q & k & Ip & ->). exact (GO p o Ip H0).
  - destruct (planned _ _ _ _ H) as (p & q & k & Ip & ->). rewrite (u_entry q k p); [unfold u_prev; destruct q; reflexivity | exact (PL p Ip) | discriminate].
Qed.
(** the dictionaries say what was asked for *)
Lemma plan_trailer : forall p prev off k, lay_plan p -> In k (map fst (pl_trailer p)) -> entry (xv_dict (p_revision prev off p)) k = entry (pl_trailer p) k.
Proof. intros p prev off k GP I. exact (u_keep prev off p GP k I). Qed.
