(** UpdateFindP.v -- Load finds the newest objects of a document with updates
    (C95). *)
From Verif Require Import Base BaseP Msg Reader ReaderP Num NumP Lexer Plain LexerP Obj ReadObj Bits Filters Env Getters Crypt GetObj GetObjP Regex Xref Load SpecLex SpecLexP SpecObj SpecObjP SpecNumP SpecFilters FiltersP
  SpecRead SpecFetch SpecLook SpecStream SpecScan RegexP ScanP StreamP StreamObjP CryptObjP ReadP StreamEx RepairP FetchP SpecOut SpecXref XrefP SpecRecover RecoverP ReadObjP ErrorsP SpecWrite WriteP WriteDocP WriteLoadP
  SpecUpdate StrayP UpdateP UpdateLoadP TrailerP DocP.
From Coq Require Import Strings.String Sorting.Permutation Sorting.Sorted.

(** ** Where the last startxref is *)
Lemma start_tail : forall F off, 0 <= off < 2 ^ 54 -> last_start (last256 (F ++ (lit "startxref" ++ [x0a] ++ dec off ++ [x0a] ++ lit "%%EOF") ++ [x0a])) off.
Proof.
  intros F off [O OB]. set (m := lit "startxref" ++ [x0a] ++ dec off ++ [x0a] ++ lit "%%EOF").
  assert (L : (List.length (m ++ [x0a]) <= 256)%nat).
  { pose proof (dec_len off ltac:(lia)) as DL. unfold m, zlen in *. rewrite !app_length. cbn [List.length]. change (List.length (lit "startxref")) with 9%nat. change (List.length (lit "%%EOF")) with 5%nat. lia. }
  exists (skipn (List.length F - (256 - List.length (m ++ [x0a]))) F), m, [x0a]. split; [| split].
  - unfold last256. rewrite app_length. set (k := List.length (m ++ [x0a])) in *.
    replace (List.length F + k - 256)%nat with (List.length F - (256 - k))%nat by lia. rewrite skipn_app. replace (List.length F - (256 - k) - List.length F)%nat with 0%nat by lia. reflexivity.
  - unfold m. apply st_intro; [intros b [<- | []]; vm_compute; tauto | apply dec_text; exact O | intros b [<- | []]; vm_compute; tauto].
  - intros a' m' b' n' Q' T. destruct (Nat.le_gt_cases (List.length a') (List.length (skipn (List.length F - (256 - List.length (m ++ [x0a]))) F))) as [LE | GT]; [exact LE |]. exfalso.
    revert Q'. unfold last256. rewrite app_length. set (k := List.length (m ++ [x0a])) in *.
    replace (List.length F + k - 256)%nat with (List.length F - (256 - k))%nat by lia. rewrite skipn_app. replace (List.length F - (256 - k) - List.length F)%nat with 0%nat by lia. cbn [skipn].
    set (a := skipn (List.length F - (256 - k)) F) in *. intros Q'.
    assert (K : exists x, m ++ [x0a] = x ++ m' ++ b' /\ x <> []).
    { assert (E : exists x, a' = a ++ x). { exists (skipn (List.length a) a'). assert (F1 : firstn (List.length a) (a ++ m ++ [x0a]) = firstn (List.length a) (a' ++ m' ++ b')) by (rewrite Q'; reflexivity).
        rewrite !firstn_app, Nat.sub_diag, firstn_all in F1. replace (List.length a - List.length a')%nat with 0%nat in F1 by lia. cbn [firstn] in F1. rewrite !app_nil_r in F1. rewrite F1 at 1. symmetry. apply firstn_skipn. }
      destruct E as [x ->]. rewrite <- app_assoc in Q'. apply app_inv_head in Q'. exists x. split; [exact Q' |]. intros ->. rewrite app_nil_r in GT. lia. }
    destruct K as (x & K & NX). destruct x as [| c x]; [contradiction |]. inversion T as [w1 d n2 w2 A1 A2 A3 Q2]. subst m'.
    assert (IS : In "s"%byte (lit "tartxref" ++ x0a :: dec off ++ x0a :: lit "%%EOF" ++ [x0a])).
    { assert (K2 : lit "tartxref" ++ x0a :: dec off ++ x0a :: lit "%%EOF" ++ [x0a] = x ++ (lit "startxref" ++ w1 ++ d ++ w2 ++ lit "%%EOF") ++ b').
      { unfold m in K. cbn [app] in K. injection K as _ K. etransitivity; [| exact K]. apps. reflexivity. }
      rewrite K2. apply in_or_app. right. left. reflexivity. }
    apply in_app_or in IS. destruct IS as [IS | [IS | IS]]; [vm_compute in IS; intuition discriminate | discriminate IS |].
    apply in_app_or in IS. destruct IS as [IS | [IS | IS]]; [| discriminate IS | vm_compute in IS; intuition discriminate].
    apply (dec_isdigit off O) in IS. discriminate IS.
Qed.

(** ** What the tables together say *)
Notation element := (Z * option Z * revision)%type.
Definition places_of (x : element) : list (Z * iobj) := w_places (fst (fst x)) (rv_objects (snd x)).
Definition after_at (l : list (Z * iobj)) (x : element) : list (Z * iobj) := filter (fun p => negb (touches (snd x) (inum (snd p)))) l ++ places_of x.
Definition living_at (L : list element) : list (Z * iobj) := fold_left after_at L [].
Lemma living_places : forall rs off prev l, map snd (fold_left after_at (w_layout off prev rs) l) = fold_left after rs (map snd l).
Proof.
  induction rs as [| r rs IH]; intros off prev l; [reflexivity |]. cbn [w_layout fold_left]. rewrite IH. f_equal. unfold after_at, after, places_of. cbn [fst snd]. rewrite map_app. f_equal.
  - induction l as [| [k o] l IHl]; [reflexivity |]. cbn [filter map snd]. destruct (negb (touches r (inum o))); cbn [map]; rewrite IHl; reflexivity.
  - clear. generalize (rv_objects r). intros D. revert off. induction D as [| o D IH]; intros off; [reflexivity |]. cbn [w_places map snd]. rewrite IH. reflexivity.
Qed.
Lemma living_snoc : forall L x, living_at (L ++ [x]) = after_at (living_at L) x.
Proof. intros L x. unfold living_at. rewrite fold_left_app. reflexivity. Qed.
Lemma touches_iff : forall r n, touches r n = true <-> In n (rv_freed r) \/ In n (map inum (rv_objects r)).
Proof. intros r n. unfold touches. rewrite existsb_exists, <- in_app_iff. split; [intros (m & I & Q); apply Z.eqb_eq in Q; subst; exact I | intros I; exists n; split; [exact I | apply Z.eqb_refl]]. Qed.
Lemma places_nums : forall x, map (fun p => inum (snd p)) (places_of x) = map inum (rv_objects (snd x)).
Proof. intros x. apply place_numbers. Qed.
Lemma section_says : forall x, laid_well x -> let T := sc_entries (u_section x) in
  (forall p, In p (places_of x) -> latest (inum (snd p)) T = Some (use_entry p)) /\
  (forall n, touches (snd x) n = false -> n <> 0 -> latest n T = None) /\ latest 0 T = Some free_entry /\
  (forall n, In n (rv_freed (snd x)) -> latest n T = Some free_entry).
Proof.
  intros [[o q] r] PW T. unfold laid_well in PW. cbn [fst snd] in PW. unfold T, u_section. cbn [sc_entries fst snd]. rewrite (u_lines_are _ _ (lv_freed _ (pw_revision _ _ _ PW)) (pw_places _ _ _ PW)). change (w_places o (rv_objects r)) with (places_of (o, q, r)).
  set (l := places_of (o, q, r)). pose proof (lv_numbers _ (pw_revision _ _ _ PW)) as NN. pose proof (lv_freed _ (pw_revision _ _ _ PW)) as GF. pose proof (lv_objects _ (pw_revision _ _ _ PW)) as GO.
  assert (MF : map fst (map (fun n : Z => (n, free_entry)) (rv_freed r) ++ map (fun p => (inum (snd p), use_entry p)) l) = rv_freed r ++ map inum (rv_objects r)).
  { rewrite map_app, !map_map. cbn [fst]. rewrite map_id. f_equal. exact (places_nums (o, q, r)). }
  assert (N0 : ~ In 0 (rv_freed r ++ map inum (rv_objects r))). { intros I. apply in_app_or in I. destruct I as [I | I]; [apply GF in I; lia |]. apply in_map_iff in I. destruct I as (x & Q & I). pose proof (lo_number _ (GO x I)). lia. }
  assert (ND : NoDup (map fst ((0, free_entry) :: map (fun n => (n, free_entry)) (rv_freed r) ++ map (fun p => (inum (snd p), use_entry p)) l))).
  { cbn [map fst]. rewrite MF. constructor; [exact N0 | exact NN]. }
  split; [| split; [| split]].
  - intros p I. apply latest_one; [exact ND |]. right. apply in_or_app. right. apply in_map_iff. exists p. auto.
  - intros n TN NZ. apply latest_none. cbn [map fst]. rewrite MF. intros [Q | I]; [congruence |]. apply in_app_or in I. apply touches_iff in I. cbn [snd] in TN. congruence.
  - apply latest_one; [exact ND |]. left. reflexivity.
  - intros n I. apply latest_one; [exact ND |]. right. apply in_or_app. left. apply in_map_iff. exists n. auto.
Qed.
Lemma newest_snoc : forall n L x, newest n (secs_to (L ++ [x])) = or_else (latest n (sc_entries (u_section x))) (newest n (secs_to L)).
Proof. intros n L x. unfold secs_to. rewrite map_app, rev_app_distr. cbn [map rev app newest]. destruct (latest n _); reflexivity. Qed.
Lemma living_num : forall L p, Forall laid_well L -> In p (living_at L) -> In p (all_places L) /\ 0 < inum (snd p).
Proof.
  induction L as [| x L IH] using rev_ind; intros p LW I; [destruct I |]. rewrite living_snoc in I. apply Forall_app in LW. destruct LW as [LW LX]. unfold all_places. rewrite flat_map_app. fold (all_places L). apply in_app_or in I. destruct I as [I | I].
  - apply filter_In in I. destruct (IH p LW (proj1 I)) as [A B]. split; [apply in_or_app; left; exact A | exact B].
  - split; [apply in_or_app; right; cbn [flat_map]; rewrite app_nil_r; exact I |]. inversion LX as [| ? ? PW _]; subst. destruct x as [[o q] r]. unfold laid_well in PW. cbn [fst snd] in PW.
    destruct (pw_places _ _ _ PW p I) as [_ G]. pose proof (lo_number _ G). lia.
Qed.
Lemma places_nodup : forall x, laid_well x -> NoDup (map (fun p => inum (snd p)) (places_of x)).
Proof. intros x PW. rewrite places_nums. pose proof (lv_numbers _ (pw_revision _ _ _ PW)) as ND. induction (rv_freed (snd x)) as [| a l IH]; [exact ND |]. cbn [app] in ND. inversion ND; subst. auto. Qed.
Lemma living_nodup : forall L, Forall laid_well L -> NoDup (map (fun p => inum (snd p)) (living_at L)).
Proof.
  induction L as [| x L IH] using rev_ind; intros LW; [constructor |]. rewrite living_snoc. unfold after_at. apply Forall_app in LW. destruct LW as [LW LX]. inversion LX as [| ? ? PW _]; subst. specialize (IH LW). pose proof (places_nodup x PW) as NX. pose proof (places_nums x) as PN.
  rewrite map_app. set (g := fun p : Z * iobj => inum (snd p)) in *. clear LW LX. induction (living_at L) as [| a l IHl]; [exact NX |]. cbn [map] in IH. inversion IH as [| ? ? N1 N2]; subst. cbn [filter].
  destruct (touches (snd x) (inum (snd a))) eqn:TA; cbn [negb]; [exact (IHl N2) |]. cbn [map app]. constructor; [| exact (IHl N2)]. intros I. apply in_app_or in I. destruct I as [I | I].
  - apply N1. apply in_map_iff in I. destruct I as (b & Q & I). apply filter_In in I. apply in_map_iff. exists b. tauto.
  - rewrite PN in I. unfold g in I. assert (touches (snd x) (inum (snd a)) = true) by (apply touches_iff; right; exact I). congruence.
Qed.
Lemma living_newest : forall L, Forall laid_well L -> forall p, In p (living_at L) -> newest (inum (snd p)) (secs_to L) = Some (use_entry p).
Proof.
  induction L as [| x L IH] using rev_ind; intros LW p I; [destruct I |]. pose proof (living_num _ _ LW I) as [_ N0]. rewrite living_snoc in I. apply Forall_app in LW. destruct LW as [LW LX]. inversion LX as [| ? ? PW _]; subst.
  destruct (section_says x PW) as (S1 & S2 & _ & _). rewrite newest_snoc. apply in_app_or in I. destruct I as [I | I]; [| rewrite S1 by exact I; reflexivity].
  apply filter_In in I. destruct I as [I TN]. apply Bool.negb_true_iff in TN. rewrite S2 by (exact TN || lia). exact (IH LW p I).
Qed.
Lemma newest_living : forall L, Forall laid_well L -> forall n e, newest n (secs_to L) = Some e ->
  e = free_entry /\ (forall p, In p (living_at L) -> inum (snd p) <> n) \/ exists p, In p (living_at L) /\ inum (snd p) = n /\ e = use_entry p.
Proof.
  induction L as [| x L IH] using rev_ind; intros LW n e; [discriminate |]. pose proof (living_nodup _ LW) as ND. pose proof LW as LW0. apply Forall_app in LW. destruct LW as [LW LX]. inversion LX as [| ? ? PW _]; subst.
  destruct (section_says x PW) as (S1 & S2 & S3 & S4). rewrite newest_snoc. intros Q. destruct (Z.eq_dec n 0) as [-> | NZ].
  { left. rewrite S3 in Q. cbn in Q. split; [congruence |]. intros p I. pose proof (living_num _ _ LW0 I) as [_ B]. lia. }
  destruct (touches (snd x) n) eqn:TN.
  - apply touches_iff in TN. destruct TN as [I | I].
    + left. rewrite S4 in Q by exact I. cbn in Q. split; [congruence |]. intros p Ip QN. subst n. rewrite living_snoc in Ip. apply in_app_or in Ip. destruct Ip as [Ip | Ip].
      * apply filter_In in Ip. destruct Ip as [_ TN]. apply Bool.negb_true_iff in TN. assert (touches (snd x) (inum (snd p)) = true) by (apply touches_iff; left; exact I). congruence.
      * pose proof (lv_numbers _ (pw_revision _ _ _ PW)) as NN. assert (I2 : In (inum (snd p)) (map inum (rv_objects (snd x)))) by (rewrite <- places_nums; apply (in_map (fun p => inum (snd p))); exact Ip).
        clear - NN I I2. induction (rv_freed (snd x)) as [| a l IH]; [destruct I |]. cbn [app] in NN. inversion NN; subst. destruct I as [-> | I]; [apply H1; apply in_or_app; right; exact I2 | exact (IH I H2)].
    + right. rewrite <- places_nums in I. apply in_map_iff in I. destruct I as (p & QN & Ip). exists p. split; [rewrite living_snoc; apply in_or_app; right; exact Ip |]. split; [exact QN |]. subst n. rewrite S1 in Q by exact Ip. cbn in Q. congruence.
  - rewrite S2 in Q by assumption. cbn in Q. destruct (IH LW n e Q) as [[-> NI] | (p & Ip & QN & ->)].
    + left. split; [reflexivity |]. intros p Ip QN. rewrite living_snoc in Ip. apply in_app_or in Ip. destruct Ip as [Ip | Ip]; [apply filter_In in Ip; exact (NI p (proj1 Ip) QN) |].
      assert (touches (snd x) n = true); [| congruence]. apply touches_iff. right. rewrite <- places_nums, <- QN. apply (in_map (fun p => inum (snd p))). exact Ip.
    + right. exists p. split; [| auto]. rewrite living_snoc. apply in_or_app. left. apply filter_In. split; [exact Ip |]. rewrite QN, TN. reflexivity.
Qed.
Lemma place_has : forall L, Forall laid_well L -> forall p, In p (all_places L) -> newest (inum (snd p)) (secs_to L) <> None.
Proof.
  induction L as [| x L IH] using rev_ind; intros LW p I; [destruct I |]. apply Forall_app in LW. destruct LW as [LW LX]. inversion LX as [| ? ? PW _]; subst.
  rewrite newest_snoc. unfold all_places in I. rewrite flat_map_app in I. fold (all_places L) in I. cbn [flat_map] in I. rewrite app_nil_r in I. apply in_app_or in I. destruct I as [I | I].
  - specialize (IH LW p I). destruct (latest _ _); [discriminate | exact IH].
  - destruct (section_says x PW) as (S1 & _). rewrite S1 by exact I. discriminate.
Qed.
(** later revisions are further down *)
Lemma place_bounds : forall o q r p, In p (places_of (o, q, r)) -> o <= fst p < o + zlen (w_revision o q r).
Proof.
  intros o q r [k x] I. unfold places_of in I. cbn [fst snd] in *. apply places_split in I. destruct I as (D1 & D2 & Q & ->). pose proof (rev_len o q r) as LT. unfold w_table_at in LT. rewrite Q in LT. unfold w_objects in *. rewrite flat_map_app, zlen_app in LT.
  pose proof (zlen_nonneg _ (flat_map w_object D1)). match type of LT with _ + (_ + zlen ?x) + _ <= _ => pose proof (zlen_nonneg _ x) end. lia.
Qed.
Lemma layout_order : forall rs off prev L1 o q r L2, w_layout off prev rs = L1 ++ (o, q, r) :: L2 -> off <= o /\ forall p, In p (all_places L1) -> fst p < o.
Proof.
  induction rs as [| r0 rs IH]; intros off prev L1 o q r L2 Q; [destruct L1; discriminate Q |]. cbn [w_layout] in Q. destruct L1 as [| x L1]; cbn [app] in Q.
  - injection Q as <- <- <- _. split; [lia | intros p []].
  - injection Q as <- Q. destruct (IH _ _ _ _ _ _ _ Q) as [LE PL]. pose proof (zlen_nonneg _ (w_revision off prev r0)). split; [lia |]. intros p I. unfold all_places in I. cbn [flat_map] in I. apply in_app_or in I. destruct I as [I | I]; [| exact (PL p I)].
    pose proof (place_bounds off prev r0 p I). lia.
Qed.
Lemma living_last : forall rs off prev L L2, w_layout off prev rs = L ++ L2 -> Forall laid_well L -> forall p q, In p (living_at L) -> In q (all_places L) -> inum (snd q) = inum (snd p) -> fst q <= fst p.
Proof.
  intros rs off prev. induction L as [| x L IH] using rev_ind; intros L2 QL LW p q Ip Iq QN; [destruct Ip |]. rewrite <- app_assoc in QL. cbn [app] in QL. apply Forall_app in LW. destruct LW as [LW LX]. inversion LX as [| ? ? PW _]; subst.
  rewrite living_snoc in Ip. unfold all_places in Iq. rewrite flat_map_app in Iq. fold (all_places L) in Iq. cbn [flat_map] in Iq. rewrite app_nil_r in Iq. fold (places_of x) in Iq.
  destruct x as [[o pr] r]. destruct (layout_order _ _ _ _ _ _ _ _ QL) as [_ OL]. apply in_app_or in Ip. apply in_app_or in Iq. destruct Ip as [Ip | Ip].
  - apply filter_In in Ip. destruct Ip as [Ip TN]. apply Bool.negb_true_iff in TN. destruct Iq as [Iq | Iq]; [exact (IH _ QL LW p q Ip Iq QN) |]. exfalso. assert (touches (snd (o, pr, r)) (inum (snd p)) = true); [| congruence].
    apply touches_iff. right. rewrite <- places_nums, <- QN. apply (in_map (fun p => inum (snd p))). exact Iq.
  - pose proof (place_bounds _ _ _ _ Ip) as B. destruct Iq as [Iq | Iq]; [apply OL in Iq; lia |]. pose proof (places_nodup _ PW) as ND. assert (q = p); [| subst; lia].
    clear - ND Ip Iq QN. induction (places_of (o, pr, r)) as [| a l IH]; [destruct Ip |]. cbn [map] in ND. inversion ND; subst. destruct Ip as [-> | Ip]; destruct Iq as [-> | Iq]; auto; exfalso; apply H1; [rewrite <- QN | rewrite QN]; apply (in_map (fun p => inum (snd p))); assumption.
Qed.
Lemma key_current : forall k, k <> lit "Prev" -> forall rs off prev was, or_else (newest_key k (secs_to (w_layout off prev rs))) was = current_key k rs was.
Proof.
  intros k NK. induction rs as [| r rs IH]; intros off prev was; [reflexivity |]. cbn [w_layout current_key]. rewrite <- (IH (off + zlen (w_revision off prev r)) (Some (w_table_at off r))). unfold secs_to. cbn [map rev]. rewrite newest_key_app.
  assert (QE : newest_key k [u_section (off, prev, r)] = entry (rv_trailer r) k).
  { cbn [newest_key u_section sc_trailer fst snd]. transitivity (entry (with_prev prev (rv_trailer r)) k); [destruct (entry _ k); reflexivity |]. destruct prev as [z |]; [| reflexivity]. cbn [with_prev].
    induction (rv_trailer r) as [| [k' v] d IHd]; cbn [app entry]; [destruct (list_eq_dec Byte.byte_eq_dec k (lit "Prev")); [contradiction | reflexivity] |]. destruct (list_eq_dec Byte.byte_eq_dec k k'); [reflexivity | exact IHd]. }
  rewrite QE. destruct (newest_key k (rev _)); [reflexivity |]. cbn [or_else]. destruct (entry (rv_trailer r) k); reflexivity.
Qed.
Lemma or_else_none : forall (A : Type) (x y : option A), or_else x y <> None -> x <> None \/ y <> None.
Proof. intros A [x |] y H; [left; discriminate | right; exact H]. Qed.
Lemma newest_more : forall n L1 L2, newest n (secs_to L1) <> None -> newest n (secs_to (L1 ++ L2)) <> None.
Proof. intros n L1 L2 H. unfold secs_to in *. rewrite map_app, rev_app_distr, newest_app. destruct (newest n (rev (map u_section L2))); [discriminate | exact H]. Qed.
Lemma newest_key_more : forall n L1 L2, newest_key n (secs_to L1) <> None -> newest_key n (secs_to (L1 ++ L2)) <> None.
Proof. intros n L1 L2 H. unfold secs_to in *. rewrite map_app, rev_app_distr, newest_key_app. destruct (newest_key n (rev (map u_section L2))); [discriminate | exact H]. Qed.

Lemma layout_length : forall rs off prev, List.length (w_layout off prev rs) = List.length rs.
Proof. induction rs as [| r rs IH]; intros off prev; cbn; [reflexivity | rewrite IH; reflexivity]. Qed.
Lemma no_encrypt_key : forall rs, (forall r, In r rs -> good_revision r) -> current_key (lit "Encrypt") rs None = None.
Proof.
  induction rs as [| r rs IH]; intros GR; [reflexivity |]. cbn [current_key]. rewrite (no_entry _ (lit "Encrypt") (proj2 (gr_plain _ (GR r (or_introl eq_refl))))). apply IH. intros r' I. apply GR. right. exact I.
Qed.

(** ** Loading *)
Section Loading.
  Variables (E : env) (rs : list revision).
  Hypothesis GU : lay_updates rs.
  Let file := w_updated rs.
  Let lay := w_layout (zlen w_version) None rs.
  Definition so_far (p : pst) : Prop := reads file p /\ log (prd p) = [] /\ psh p = new_sechandler /\
    (forall n, xget n (pxref p) <> None -> newest n (secs_to lay) <> None) /\
    (forall k v, entry (ptrailer p) k = Some v -> newest_key k (secs_to lay) <> None \/ exists d, first_of rs d /\ entry d k = Some v).
  Lemma one_offset : forall fuel p i, (List.length lay <= fuel)%nat -> so_far p -> (exists x, In x lay /\ (i = table_pos x \/ i = start_pos x)) -> exists p', load_xref fuel E file i [] p = Ok (tt, p') /\ so_far p'.
  Proof.
    intros fuel p i FU (W & LG & SH & XN & TN) (x & I & C). assert (LE : lay <> []) by (intros Q; rewrite Q in I; destruct I). destruct C as [-> | ->].
    - pose proof I as I0. apply in_split in I0. destruct I0 as (L1 & L2 & QL).
      destruct (chain_read E rs GU L1 x L2 QL fuel [] p) as (p' & R & W' & L' & S' & X' & T'); [fold lay in QL; rewrite QL in FU; rewrite app_length in FU; cbn in FU; lia | intros q [] | exact W |].
      assert (QA : lay = (L1 ++ [x]) ++ L2) by (rewrite QL; apps; reflexivity).
      exists p'. split; [exact R |]. split; [exact W' |]. split; [congruence |]. split; [congruence |]. split.
      + intros n H. rewrite X' in H. apply or_else_none in H. destruct H as [H | H]; [rewrite QA; apply newest_more; exact H | exact (XN n H)].
      + intros k v H. rewrite T' in H. destruct (newest_key k (secs_to (L1 ++ [x]))) as [v' |] eqn:Q; [left; rewrite QA; apply newest_key_more; congruence | exact (TN k v H)].
    - destruct fuel as [| f]; [destruct lay; [contradiction | cbn in FU; lia] |].
      destruct (start_read E rs GU x f p I W) as (s1 & d & W1 & L1 & CD & ND & R). eexists. split; [exact R |]. split; [exact W1 |]. split; [cbn [prd with_trailer with_rd]; congruence |]. split; [exact SH |]. split; [exact XN |].
      intros k v H. cbn [ptrailer with_trailer with_rd] in H. rewrite merged_key in H by exact ND. destruct (entry d k) as [v' |] eqn:Q; [| exact (TN k v H)]. injection H as <-. destruct CD as [-> | FO]; [discriminate | right; eauto].
  Qed.
  Lemma all_offsets : forall l fuel p x L, (List.length lay <= fuel)%nat -> lay = L ++ [x] -> so_far p -> (forall i, In i l -> exists x, In x lay /\ (i = table_pos x \/ i = start_pos x)) ->
    exists p', load_all fuel E file (l ++ [table_pos x]) p = Ok (tt, p') /\ so_far p' /\
      (forall n, xget n (pxref p') = newest n (secs_to lay)) /\ (forall k v, newest_key k (secs_to lay) = Some v -> entry (ptrailer p') k = Some v).
  Proof.
    induction l as [| i l IH]; intros fuel p x L FU QL SF OK; cbn [app load_all].
    - destruct (one_offset fuel p (table_pos x) FU SF) as (p1 & R1 & S1); [exists x; split; [rewrite QL; apply in_or_app; right; left; reflexivity | left; reflexivity] |].
      destruct SF as (W & LG & SH & XN & TN). destruct (chain_read E rs GU L x [] QL fuel [] p) as (p' & R & W' & L' & S' & X' & T'); [rewrite QL in FU; rewrite app_length in FU; cbn in FU; lia | intros q [] | exact W |].
      fold file in R. assert (p' = p1) by congruence. subst p'. unfold bind. rewrite R1. exists p1. split; [reflexivity |]. split; [exact S1 |]. rewrite <- QL in X', T'. split.
      + intros n. rewrite X'. destruct (newest n (secs_to lay)) eqn:Q; [reflexivity |]. cbn [or_else]. destruct (xget n (pxref p)) eqn:Q2; [| reflexivity]. exfalso. apply (XN n); [rewrite Q2; discriminate | exact Q].
      + intros k v Q. rewrite T', Q. reflexivity.
    - destruct (one_offset fuel p i FU SF) as (p1 & R1 & S1); [apply OK; left; reflexivity |]. unfold bind at 1. rewrite R1. apply (IH fuel p1 x L FU QL S1). intros j J. apply OK. right. exact J.
  Qed.
  Definition u_objs : list (Z * iobj) := map (fun p => (fst p, as_written (snd p))) (all_places lay).
  Lemma start_last : forall L x, lay = L ++ [x] -> start_xref_offset file = Some (table_pos x).
  Proof.
    intros L x QL. pose proof (updated_laid rs GU) as LW. fold lay in LW.
    apply start_offset. destruct x as [[o q] r]. assert (I : In (o, q, r) lay) by (rewrite QL; apply in_or_app; right; left; reflexivity). rewrite Forall_forall in LW. pose proof (LW _ I) as PW. unfold laid_well in PW. cbn [fst snd] in PW.
      pose proof (pw_table _ _ _ PW) as TB. pose proof (table_nonneg o r (pw_off _ _ _ PW)) as TN. assert (B : 10 ^ 10 < 2 ^ 54) by reflexivity. unfold table_pos. cbn [fst snd]. split; [| lia].
      destruct (layout_split _ _ _ _ _ _ _ _ QL) as (rs1 & rs2 & a & _ & QR & Q2 & _ & _). destruct rs2; [| discriminate Q2]. cbn [w_revisions] in QR. rewrite app_nil_r in QR.
      unfold file, w_updated. rewrite QR. unfold w_revision, w_end.
      match goal with |- last_start (last256 ?t) ?n => replace t with ((w_version ++ a ++ w_objects (rv_objects r) ++ w_sect (rv_freed r) (w_places o (rv_objects r)) (with_prev q (rv_trailer r)) ++ [x0a]) ++ (lit "startxref" ++ [x0a] ++ dec n ++ [x0a] ++ lit "%%EOF") ++ [x0a]) by (apps; reflexivity) end.
      apply start_tail. lia.
  Qed.
  Lemma updates_first : forall fuel ord, (2 <= fuel)%nat -> (List.length rs <= fuel)%nat -> (forall m, Permutation (ord m) m) ->
    exists p, first_part fuel E ord file (new_parser file) = Ok (tt, p) /\ reads file p /\ log (prd p) = [] /\ psh p = new_sechandler /\
      (forall k v, newest_key k (secs_to lay) = Some v -> entry (ptrailer p) k = Some v) /\
      (forall k v, entry (ptrailer p) k = Some v -> newest_key k (secs_to lay) = Some v \/ exists d, first_of rs d /\ entry d k = Some v) /\ offsets_ok (pxref p) /\
      (forall q, In q (living_at lay) -> xget (inum (snd q)) (pxref p) = Some (use_entry q)) /\
      (forall n, SpecOut.in_use p n -> exists q, In q (living_at lay) /\ inum (snd q) = n).
  Proof.
    intros fuel ord F FU P. unfold first_part, bind. pose proof (updated_laid rs GU) as LW. fold lay in LW.
    assert (LL : List.length lay = List.length rs) by apply layout_length.
    destruct (find_objects_records E file (new_parser file) fuel (open_wf file) eq_refl F) as (l & os & p1 & F1 & SC & RC & W1 & X1 & T1 & S1 & ND).
    assert (ON : only_at file (map fst u_objs)).
    { unfold u_objs. rewrite map_map. cbn [fst]. apply updated_markers. exact GU. }
    assert (LA : forall i o, In (i, o) u_objs -> listed_at file i (inum o) (igen o)).
    { intros i o I. unfold u_objs in I. apply in_map_iff in I. destruct I as ([k o'] & Q & I). cbn [fst snd] in Q. injection Q as <- <-. destruct (as_written_num o') as [-> ->]. apply updated_listed; assumption. }
    destruct (find_objects_silent E file (new_parser file) fuel os p1 (open_wf file) eq_refl F F1) as (l' & SC' & L1).
    assert (L1' : log (prd p1) = []).
    { rewrite L1; [reflexivity |]. intros i I. apply (scan_objects file u_objs l' LA ON SC') in I. apply in_map_iff in I. destruct I as ([i' o] & Q & I). cbn in Q. subst i'. eapply listed_silent, LA, I. }
    clear L1 SC' l'. rewrite F1.
    pose proof (objects_recorded file u_objs l os LA ON SC RC) as RO. pose proof (recorded_plain u_objs os RO ND) as NS.
    destruct (exists_last (l := lay)) as (L & x & QL); [intros Q; apply (lu_some _ GU); rewrite Q in LL; apply length_zero_iff_nil; symmetry; exact LL |].
    pose proof (start_last L x QL) as SX.
    unfold xref_offsets. rewrite NS, SX. cbn [map]. rewrite app_nil_r. unfold pseek at 1.
    set (p2 := with_rd (seek file (zlen file) (prd p1)) p1).
    assert (SF : so_far p2).
    { split; [apply sk_nonneg; apply zlen_nonneg |]. split; [unfold p2; cbn [prd with_rd]; rewrite sk_log by apply zlen_nonneg; exact L1' |]. split; [unfold p2; cbn [psh with_rd]; rewrite S1; reflexivity |].
      split; [intros n H; unfold p2 in H; cbn [pxref with_rd] in H; rewrite X1 in H; contradiction H; reflexivity |]. intros k v H. unfold p2 in H. cbn [ptrailer with_rd] in H. rewrite T1 in H. discriminate H. }
    destruct (all_offsets (sortZ (find_xref_offsets file)) fuel p2 x L ltac:(lia) QL SF) as (p5 & R5 & (W5 & L5 & S5 & _ & TN5) & X5 & T5).
    { intros i I. apply (proj1 (sortZ_In _ _)) in I. apply xrefs_only; assumption. }
    rewrite R5.
    destruct (repair_any_order file (ord os) os p5 W5 ND (P os)) as (p6 & R6 & W6 & T6 & S6 & C6 & _). rewrite R6.
    assert (TR : forall k v, entry (ptrailer p6) k = Some v -> newest_key k (secs_to lay) = Some v \/ exists d, first_of rs d /\ entry d k = Some v).
    { intros k v H. rewrite T6 in H. destruct (newest_key k (secs_to lay)) as [v' |] eqn:Q; [left; rewrite (T5 k v' Q) in H; exact H |]. destruct (TN5 k v H) as [K | K]; [contradiction K; exact Q | right; exact K]. }
    assert (LAST : forall n s e, xget n os = Some s -> newest n (secs_to lay) = Some e -> x_type e = 1 -> x_off s = x_off e).
    { intros n s e Q N TY. specialize (RO n). rewrite Q in RO. destruct RO as (i & o & [I LO] & QN & ->). destruct (newest_living lay LW n e N) as [[-> _] | (p & Ip & Qp & ->)]; [discriminate TY |]. cbn.
      assert (QA : lay = lay ++ []) by (rewrite app_nil_r; reflexivity). pose proof (living_num lay p LW Ip) as [Ap _].
      unfold u_objs in I. apply in_map_iff in I. destruct I as ([k o'] & Q1 & I). cbn [fst snd] in Q1. injection Q1 as <- <-. destruct (as_written_num o') as [A1 A2]. rewrite A1 in QN.
      pose proof (living_last rs _ _ lay [] QA LW p (k, o') Ip I) as B1. cbn [fst snd] in B1. specialize (LO (fst p) (as_written (snd p))). destruct (as_written_num (snd p)) as [A3 A4]. rewrite A1, A3 in LO.
      assert (fst p <= k); [| assert (k <= fst p) by (apply B1; congruence); lia]. apply LO; [| congruence]. unfold u_objs. apply in_map_iff. exists p. auto. }
    assert (X6 : forall q, In q (living_at lay) -> xget (inum (snd q)) (pxref p6) = Some (use_entry q)).
    { intros q I. pose proof (living_newest lay LW q I) as NQ. specialize (C6 (inum (snd q))). rewrite X5, NQ in C6. destruct (xget (inum (snd q)) os) as [s |] eqn:Q; [| exact C6].
      destruct C6 as (e' & Q6 & SM & OF). rewrite Q6. f_equal. pose proof (LAST _ _ _ Q NQ eq_refl) as LO. destruct SM as (M1 & M2 & M3 & M4). destruct s, e'. unfold use_entry, new_xentry in *. cbn in *. destruct OF; subst; congruence. }
    assert (IU : forall n e, xget n (pxref p6) = Some e -> x_type e = 1 -> exists q, In q (living_at lay) /\ inum (snd q) = n /\ e = use_entry q).
    { intros n e Q TY. specialize (C6 n). rewrite X5 in C6. destruct (newest n (secs_to lay)) as [e0 |] eqn:NQ.
      - destruct (newest_living lay LW n e0 NQ) as [[-> _] | (q & Iq & Qn & ->)].
        + exfalso. destruct (xget n os) as [s |]; [| rewrite C6 in Q; injection Q as <-; discriminate TY]. destruct C6 as (e' & Q6 & (M1 & M2 & M3 & M4) & _). assert (e' = e) by congruence. subst e'. cbn in *. congruence.
        + exists q. split; [exact Iq |]. split; [exact Qn |]. subst n. rewrite (X6 q Iq) in Q. congruence.
      - exfalso. destruct (xget n os) as [s |] eqn:QS; [| congruence]. specialize (RO n). rewrite QS in RO. destruct RO as (i & o & [I _] & QN & _). unfold u_objs in I. apply in_map_iff in I. destruct I as ([k o'] & Q1 & I). cbn [fst snd] in Q1. injection Q1 as <- <-.
        destruct (as_written_num o') as [A1 _]. rewrite A1 in QN. apply (place_has lay LW (k, o') I). cbn [snd]. rewrite QN. exact NQ. }
    exists p6. split; [reflexivity |]. split; [exact W6 |]. split.
    { rewrite (repair_log file (ord os) p5 tt p6 W5); [exact L5 | | exact R6]. eapply Permutation_NoDup; [symmetry; apply Permutation_map; apply P | exact ND]. }
    split; [congruence |]. split; [intros k v Q; rewrite T6; exact (T5 k v Q) |]. split; [exact TR |]. split; [| split; [exact X6 |]].
    - intros n e Q TY. destruct (IU n e Q TY) as (q & Iq & _ & ->). cbn. destruct (living_num lay q LW Iq) as [Aq _]. destruct q as [k o]. cbn [fst]. assert (I : In (k, as_written o) u_objs) by (unfold u_objs; apply in_map_iff; exists (k, o); auto). apply (LA _ _ I).
    - intros n (e & Q & TY). destruct (IU n e Q TY) as (q & Iq & Qn & _). eauto.
  Qed.
End Loading.
Lemma updates_loaded : forall E rs, good_updates rs -> forall fuel ord pw, (2 <= fuel)%nat -> (List.length rs <= fuel)%nat -> (forall m, Permutation (ord m) m) ->
  let file := w_updated rs in let lay := w_layout (zlen w_version) None rs in
  exists p, load fuel E ord file pw (new_parser file) = Ok (None, p) /\ reads file p /\ log (prd p) = [] /\ psh p = new_sechandler /\
    (forall k v, newest_key k (secs_to lay) = Some v -> entry (ptrailer p) k = Some v) /\
    (forall k v, entry (ptrailer p) k = Some v -> newest_key k (secs_to lay) = Some v \/ exists d, first_of rs d /\ entry d k = Some v) /\ offsets_ok (pxref p) /\
    (forall q, In q (living_at lay) -> xget (inum (snd q)) (pxref p) = Some (use_entry q)) /\
    (forall n, SpecOut.in_use p n -> exists q, In q (living_at lay) /\ inum (snd q) = n).
Proof.
  intros E rs GU fuel ord pw F FU P file lay. pose proof (good_lays rs GU) as LU. destruct (updates_first E rs LU fuel ord F FU P) as (p & L & W & LG & SH & T1 & T2 & R). fold file lay in L, W, T1, T2, R.
  exists p. split; [| auto 8]. rewrite load_parts. unfold bind. rewrite L.
  assert (NE : dget (lit "Encrypt") (ptrailer p) = None); [| rewrite NE; reflexivity].
  rewrite dget_entry. destruct (entry (ptrailer p) (lit "Encrypt")) as [v |] eqn:Q; [| reflexivity]. exfalso. destruct (T2 _ _ Q) as [K | (d & FO & K)]; [| rewrite (first_plain rs LU d FO) in K; discriminate K].
  assert (C : current_key (lit "Encrypt") rs None = Some v) by (rewrite <- (key_current (lit "Encrypt") ltac:(discriminate) rs (zlen w_version) None None); fold lay; rewrite K; reflexivity).
  rewrite (no_encrypt_key rs (gu_revisions _ GU)) in C. discriminate C.
Qed.
