(** WriteOutP.v -- reading a document that SpecWrite gives, and what Parse puts
    out for it (C90, C91). *)
From Verif Require Import Base BaseP Msg Reader ReaderP Num NumP Lexer Plain LexerP Obj ReadObj Bits Filters Env Getters Crypt GetObj GetObjP Regex Xref Load Extract Output Render Parse Errors
  SpecLex SpecLexP SpecObj SpecObjP SpecNumP SpecFilters FiltersP SpecRead SpecFetch SpecLook SpecStream SpecScan FetchP LookP RawP AlongP LoadInvP SpecOut SpecRecover OrderP RepairP CryptObjP DocP ScanP RecoverP ErrorsP SpecWrite WriteP WriteDocP WriteLoadP.
From Coq Require Import Strings.String Sorting.Permutation Sorting.Sorted.

(** ** When the entries in use are those of the objects of a list *)
Section Held.
  Variables (E : env) (file : bytes) (D : list iobj) (p1 : pst) (wr : iobj -> iobj).
  Hypothesis OF : offsets_ok (pxref p1).
  Hypothesis ND : NoDup (map inum D).
  Hypothesis WN : forall o, inum (wr o) = inum o.
  Hypothesis FD : forall o, In o D -> fetched E file p1 (inum o) (wr o) /\ SpecOut.in_use p1 (inum o).
  Hypothesis IU : forall n, SpecOut.in_use p1 n -> exists o, In o D /\ inum o = n.
  Lemma held_null : forall n, ~ In n (map inum D) -> fetched E file p1 n {| inum := n; igen := 0; ival := OKw (lit "null"); istream := None |}.
  Proof.
    intros n NI. exists 1%nat, p1. unfold GetObject. cbn [get_object]. destruct (xget n (pxref p1)) as [e |] eqn:X; [| reflexivity].
    destruct (x_type e =? XrefTypeIndirectObject) eqn:TY; [| reflexivity]. exfalso. apply Z.eqb_eq in TY. destruct (IU n) as (o & I & Q); [exists e; auto |]. apply NI. apply in_map_iff. exists o. auto.
  Qed.
  Lemma held_out : forall OD fuel S pw ops, order_ok OD -> s_input S = Some file -> load fuel E (o_objects OD) file pw (new_parser file) = Ok (None, p1) -> parse E OD fuel S pw = (ops, Ok PNone) ->
    exists L ts, Permutation L (map wr D) /\ Forall2 (written_object (e_fmt E)) L ts /\ content FRaw ops = List.concat (map (fun t => t ++ [x0a]) ts).
  Proof.
    intros OD fuel S pw ops OK IN L1 H. destruct (parse_raw _ _ _ _ _ _ OK H) as (file' & p' & IN' & L & objs & ts & NDo & IUo & FO & WR & CT).
    assert (file' = file) by congruence. subst file'. assert (p' = p1) by congruence. subst p'. clear L.
    assert (G : forall n o, In (n, o) objs -> exists x, In x D /\ inum x = n /\ o = wr x).
    { intros n o I. destruct (IU n) as (x & Ix & Q); [apply IUo; apply in_map_iff; exists (n, o); auto |]. exists x. split; [exact Ix |]. split; [exact Q |].
      rewrite Forall_forall in FO. destruct (FO _ I) as (_ & q & K & FE). cbn [fst snd] in FE. pose proof (proj1 (FD x Ix)) as FX. rewrite Q in FX.
      destruct K as (_ & KX & _ & KS). destruct (fetched_at E file p1 q n (wr x) (conj (eq_sym KX) (eq_sym KS)) (OF n) FX) as (f0 & GF).
      destruct (GF f0 (le_n _)) as (q' & Gq). eapply fetched_det; [exact FE | exists f0, q'; exact Gq]. }
    exists (map snd objs), ts. split; [| split; [| exact CT]].
    - apply NoDup_Permutation.
      + clear -NDo G WN. induction objs as [| [n o] objs IH]; [constructor |]. cbn [map fst snd] in *. inversion NDo as [| ? ? NI ND']; subst. constructor; [| apply IH; [exact ND' | intros; apply G; right; assumption]].
        intros I. apply in_map_iff in I. destruct I as ([n' o'] & Q & I). cbn [snd] in Q. subst o'. apply NI.
        destruct (G n o (or_introl eq_refl)) as (x & _ & <- & Qx). destruct (G n' o (or_intror I)) as (x' & _ & <- & Qx'). apply in_map_iff. exists (inum x', o). split; [| exact I].
        cbn [fst]. rewrite <- (WN x), <- (WN x'). congruence.
      + apply (NoDup_map_inv inum). rewrite map_map. erewrite map_ext; [exact ND |]. intros x. apply WN.
      + intros y. split; intros I.
        * apply in_map_iff in I. destruct I as ([n o] & Q & I). cbn [snd] in Q. subst o. destruct (G n y I) as (x & Ix & _ & ->). apply in_map. exact Ix.
        * apply in_map_iff in I. destruct I as (x & <- & Ix). assert (I : In (inum x) (map fst objs)) by (apply IUo; exact (proj2 (FD x Ix))).
          apply in_map_iff in I. destruct I as ([n o] & Q & I). cbn [fst] in Q. subst n. destruct (G _ _ I) as (x' & Ix' & Q & ->).
          assert (x' = x). { clear -ND Ix Ix' Q. induction D as [| d l IH]; [destruct Ix |]. cbn [map] in ND. inversion ND; subst.
            destruct Ix as [-> | Ix]; destruct Ix' as [-> | Ix']; auto; exfalso; apply H1; [rewrite <- Q | rewrite Q]; apply in_map; assumption. }
          subst x'. apply in_map_iff. exists (inum x, wr x). auto.
    - clear -WR. induction WR; cbn [map]; constructor; assumption.
  Qed.
End Held.

(** ** Every object is fetched *)
Lemma place_of : forall D o, In o D -> exists k, In (k, o) (w_places (zlen w_version) D).
Proof. intros D o I. apply in_split in I. destruct I as (D1 & D2 & ->). exists (zlen w_version + zlen (w_objects D1)). apply places_split. eauto. Qed.
Lemma document_read : forall E D tr, good_document D tr -> forall fuel ord pw, (2 <= fuel)%nat -> (forall m, Permutation (ord m) m) ->
  exists p, load fuel E ord (w_document D tr) pw (new_parser (w_document D tr)) = Ok (None, p) /\
    (forall o, In o D -> fetched E (w_document D tr) p (inum o) (as_written o)) /\
    (forall n, ~ In n (map inum D) -> fetched E (w_document D tr) p n {| inum := n; igen := 0; ival := OKw (lit "null"); istream := None |}) /\
    (forall k, entry (ptrailer p) k = entry tr k) /\ errors_txt p = [].
Proof.
  intros E D tr GD fuel ord pw F P. destruct (document_loaded E D tr GD fuel ord pw F P) as (p & L & W & LG & SH & TR & OF & XG & IU).
  exists p. split; [exact L |]. split; [| split; [| split; [exact TR | unfold errors_txt; rewrite LG; reflexivity]]].
  - intros o I. destruct (place_of D o I) as (k & K). pose proof (XG k o K) as X. destruct (as_written_num o) as [A1 A2]. rewrite <- A1 in X |- *.
    eapply fetch_object; [apply written_at; eassumption | exact W | exact SH | exact X | reflexivity | cbn; congruence | reflexivity].
  - exact (held_null E _ D p IU).
Qed.

(** ** No message for objects in good order *)
Section Silent.
  Variables (E : env) (OD : order) (fuel : nat) (file : bytes) (p1 : pst).
  Hypothesis OK : order_ok OD.
  Hypothesis GO : forall n e, xget n (pxref p1) = Some e -> x_type e = 1 -> forall p, kept file p1 p -> exists f o p', GetObject f E file n p = Ok (o, p') /\ log (prd p') = log (prd p).
  Definition hushed (p p' : pst) : Prop := kept file p1 p -> kept file p1 p' /\ log (prd p') = log (prd p).
  Lemma hushed_refl : forall p, hushed p p.
  Proof. intros p K. auto. Qed.
  Lemma hushed_trans : forall p q r, hushed p q -> hushed q r -> hushed p r.
  Proof. intros p q r A B K. destruct (A K) as [K1 L1]. destruct (B K1) as [K2 L2]. split; [exact K2 | congruence]. Qed.
  Lemma get_hushed : forall f n, goes hushed (get_object f E file n).
  Proof.
    intros f n p o p' H K. split; [eapply kept_trans; [exact K | eapply GetObject_kept; [exact (proj1 K) | exact H]] |].
    destruct f as [| f]; [discriminate |]. pose proof H as H0. cbn [get_object] in H0. destruct (xget n (pxref p)) as [e |] eqn:X; [| assert (p' = p) by congruence; subst; reflexivity].
    destruct (x_type e =? XrefTypeIndirectObject) eqn:TY; [| assert (p' = p) by congruence; subst; reflexivity]. clear H0. apply Z.eqb_eq in TY.
    pose proof K as (W & QX & QT & QS). rewrite QX in X. destruct (GO n e X TY p K) as (f' & o' & q & G & LG).
    apply (get_object_mono _ (S f + f')) in H; [| lia]. apply (get_object_mono _ (S f + f')) in G; [| lia]. assert (q = p') by congruence. subst q. exact LG.
  Qed.
  Lemma resolve_hushed : forall f n seen, goes hushed (resolve f E file n seen).
  Proof.
    induction f as [| f IH]; intros n seen; [intros p a p' H; discriminate |]. cbn [resolve]. destruct (zmem n seen); [apply ret_goes; exact hushed_refl |].
    apply bind_goes; [exact hushed_trans | apply get_hushed |]. intros o. destruct (ival o); try (apply ret_goes; exact hushed_refl). apply IH.
  Qed.
  Lemma Resolve_hushed : forall n, goes hushed (Resolve fuel E file n).
  Proof.
    intros n p o p' H K. unfold Resolve, restoring, bind, pseek, ret in H. destruct (resolve fuel E file n [] p) as [[a q]| |] eqn:Q; try discriminate.
    assert (X : p' = with_rd (seek file (pos (prd p)) (prd q)) q) by congruence. subst p'. destruct (resolve_hushed _ _ _ _ _ _ Q K) as [K1 L1].
    split; [| cbn [prd with_rd]; rewrite seek_log; exact L1]. destruct K1 as (W & R). split; [apply seek_wf; exact W | exact R].
  Qed.
  Lemma all_hushed : forall l w u p', reads file p1 -> extract_all E OD fuel file l p1 = (w, Ok (u, p')) -> log (prd p') = log (prd p1).
  Proof.
    intros l w u p' W H. apply (extract_all_goes hushed hushed_refl hushed_trans E OD fuel OK (Resolve fuel E file) Resolve_hushed file l eq_refl (get_hushed fuel) _ _ _ _ H).
    split; [exact W | auto].
  Qed.
End Silent.
Lemma plain_hushed : forall E file p1, psh p1 = new_sechandler ->
  (forall n e, xget n (pxref p1) = Some e -> x_type e = 1 -> exists o, readable_at E file (x_off e) o /\ inum o = n /\ igen o = x_gen e) ->
  forall n e, xget n (pxref p1) = Some e -> x_type e = 1 -> forall p, kept file p1 p -> exists f o p', GetObject f E file n p = Ok (o, p') /\ log (prd p') = log (prd p).
Proof.
  intros E file p1 SH GO n e X TY p (W & QX & QT & QS). destruct (GO n e X TY) as (o' & OA & <- & GN).
  destruct (fetch_readable E file (x_off e) o' p e OA W) as (f' & q & G & LG); [congruence | rewrite QX; exact X | reflexivity | congruence | exact TY |]. eauto.
Qed.
(** Without /Encrypt nothing is decrypted. *)
Lemma load_plain : forall E fuel ord file pw r p, (2 <= fuel)%nat -> (forall m, Permutation (ord m) m) ->
  load fuel E ord file pw (new_parser file) = Ok (r, p) -> entry (ptrailer p) (lit "Encrypt") = None -> reads file p /\ psh p = new_sechandler.
Proof.
  intros E fuel ord file pw r p F P H NE. unfold load in H. unfold bind at 1 in H.
  destruct (find_objects_records E file (new_parser file) fuel (open_wf file) eq_refl F) as (l & os & p1 & F1 & SC & RC & W1 & X1 & T1 & S1 & ND). rewrite F1 in H. unfold bind at 1 in H.
  destruct (pseek file (zlen file) p1) as [[u p2]| |] eqn:F2; try discriminate. unfold bind at 1 in H.
  destruct (holds_pseek file _ _ _ _ W1 F2) as [W2 S2].
  destruct (load_all fuel E file _ p2) as [[[] p3]| |] eqn:F3; try discriminate. unfold bind at 1 in H.
  destruct (holds_load_all file _ _ _ _ _ _ W2 F3) as [W3 S3].
  destruct (repair_any_order file (ord os) os p3 W3 ND (P os)) as (p4 & F4 & W4 & T4 & S4 & C4 & _). rewrite F4 in H.
  destruct (dget (lit "Encrypt") (ptrailer p4)) as [enc |] eqn:DE.
  - exfalso. unfold bind in H. destruct (exempt_encrypt enc p4) as [[u5 p5]| |] eqn:F5; try discriminate.
    destruct (exempt_same file enc p4 u5 p5 0 F5 W4) as [W5 _]. destruct (set_password_sparing _ _ _ _ _ _ _ W5 H) as (_ & _ & Tp).
    rewrite Tp, (proj1 (exempt_trailer _ _ _ _ F5)) in NE. rewrite dget_entry in DE. congruence.
  - assert (p = p4) by congruence. subst. split; [exact W4 | rewrite S4, S3, S2, S1; reflexivity].
Qed.
Lemma silent_errors : forall E OD fuel file pw w p, order_ok OD -> (2 <= fuel)%nat -> parse_body E OD fuel file pw (new_parser file) = (w, Ok (None, p)) ->
  entry (ptrailer p) (lit "Encrypt") = None ->
  (forall n e, xget n (pxref p) = Some e -> x_type e = 1 -> exists o, object_at E file (x_off e) o /\ inum o = n /\ igen o = x_gen e) ->
  exists p1, load fuel E (o_objects OD) file pw (new_parser file) = Ok (None, p1) /\ errors_txt p = errors_txt p1.
Proof.
  intros E OD fuel file pw w p OK F H NE GO0. assert (GO : forall n e, xget n (pxref p) = Some e -> x_type e = 1 -> exists o, readable_at E file (x_off e) o /\ inum o = n /\ igen o = x_gen e) by (intros n e X TY; destruct (GO0 n e X TY) as (o & OA & R); exists o; split; [apply object_readable; exact OA | exact R]). clear GO0. destruct (body_ok _ _ _ _ _ _ _ _ _ H) as (p1 & L & X & _). destruct (X eq_refl) as (u & Y). exists p1. split; [exact L |].
  destruct (tidy_load file fuel E (o_objects OD) pw _ _ _ (new_sound file) L) as [W1 _].
  destruct (extract_all_raw E OD file p1 OK _ _ _ _ _ _ (kept_refl' _ _ W1) Y) as ((_ & XQ & TQ & _) & _). rewrite XQ in GO. rewrite TQ in NE.
  destruct (load_plain E fuel (o_objects OD) file pw None p1 F (fun m => Permutation_sym (proj1 (proj2 OK) m)) L NE) as [_ SH].
  unfold errors_txt. rewrite (all_hushed E OD fuel file p1 OK (plain_hushed E file p1 SH GO) _ _ _ _ W1 Y). reflexivity.
Qed.

(** ** What Parse puts out for a written document *)
Lemma places_in : forall D off k o, In (k, o) (w_places off D) -> In o D.
Proof. induction D as [| x D IH]; intros off k o I; [destruct I |]. destruct I as [Q | I]; [left; congruence | right; eauto]. Qed.
Lemma document_errors : forall E D tr OD fuel pw w p, good_document D tr -> order_ok OD -> (2 <= fuel)%nat ->
  parse_body E OD fuel (w_document D tr) pw (new_parser (w_document D tr)) = (w, Ok (None, p)) -> errors_txt p = [].
Proof.
  intros E D tr OD fuel pw w p GD OK F H. destruct (body_ok _ _ _ _ _ _ _ _ _ H) as (p1 & L & X & _). destruct (X eq_refl) as (u & Y).
  destruct (document_loaded E D tr GD fuel (o_objects OD) pw F (fun m => Permutation_sym (proj1 (proj2 OK) m))) as (p' & L' & W & LG & SH & TR & OF & XG & IU).
  assert (p' = p1) by congruence. subst p'. clear L'. unfold errors_txt. rewrite (all_hushed E OD fuel (w_document D tr) p1 OK) with (l := o_xref OD (pxref p1)) (w := w) (u := u); [rewrite LG; reflexivity | | exact W | exact Y]. apply plain_hushed; [exact SH |].
  intros n e XE TY. destruct (IU n) as (o & I & <-); [exists e; auto |]. destruct (place_of D o I) as (k & K). rewrite (XG k o K) in XE. injection XE as <-.
  destruct (as_written_num o) as [A1 A2]. exists (as_written o). split; [apply object_readable; exact (written_at E D tr k o GD K) | split; [exact A1 | exact A2]].
Qed.
Lemma document_out : forall E D tr OD fuel S pw ops, good_document D tr -> order_ok OD -> (2 <= fuel)%nat ->
  s_input S = Some (w_document D tr) -> parse E OD fuel S pw = (ops, Ok PNone) ->
  exists L ts, Permutation L (map as_written D) /\ Forall2 (written_object (e_fmt E)) L ts /\
    content FRaw ops = List.concat (map (fun t => t ++ [x0a]) ts).
Proof.
  intros E D tr OD fuel S pw ops GD OK F IN H.
  destruct (document_loaded E D tr GD fuel (o_objects OD) pw F (fun m => Permutation_sym (proj1 (proj2 OK) m))) as (p1 & L & W & LG & SH & TR & OF & XG & IU).
  destruct (document_read E D tr GD fuel (o_objects OD) pw F (fun m => Permutation_sym (proj1 (proj2 OK) m))) as (p' & L' & FD & _). assert (p' = p1) by congruence. subst p'. clear L'.
  apply (held_out E (w_document D tr) D p1 as_written OF (ld_numbers _ _ (gd_lay _ _ GD)) (fun o => proj1 (as_written_num o))) with (OD := OD) (fuel := fuel) (S := S) (pw := pw); try assumption.
  intros o I. split; [exact (FD o I) |]. destruct (place_of D o I) as (k & K). exists (new_xentry k (igen o) 1). split; [exact (XG k o K) | reflexivity].
Qed.
