(** XSealP.v -- reading back an encrypted document with a cross-reference stream
    (C109). *)
From Verif Require Import Base BaseP Msg Reader ReaderP Num NumP Lexer Plain LexerP Obj ReadObj Bits Filters Env Getters Crypt GetObj GetObjP Regex Xref Security Load Extract Output Render Parse Errors
  SpecLex SpecLexP SpecObj SpecObjP SpecNumP SpecFilters FiltersP SpecRead SpecFetch SpecLook SpecStream SpecScan ReadP StreamObjP FetchP LookP RawP AlongP LoadInvP SpecOut SpecRecover OrderP RepairP CryptObjP DocP ScanP RecoverP ErrorsP
  SpecTotal TotalP SpecXref XrefP LoadMonoP SpecCrypt SpecSecurity SecurityP SpecCryptDoc CryptDocP SpecWrite SpecFollow WriteP WriteDocP WriteLoadP WriteOutP WriteRunP SpecSeal SealP SpecXWrite XWriteP XOutP XPutP SpecXSeal.
From Coq Require Import Strings.String Sorting.Permutation Sorting.Sorted.

(** Objects whose entries say that they are not encrypted. *)
Lemma clear_readable : forall E file i o p e, readable_at E file i o -> reads file p -> xget (inum o) (pxref p) = Some e ->
  x_off e = i -> x_gen e = igen o -> x_type e = 1 -> x_enc e = false -> exists f p', GetObject f E file (inum o) p = Ok (o, p') /\ log (prd p') = log (prd p).
Proof.
  intros E file i o p e (O1 & O2 & O3 & h & r & Z0 & H & BH) R X XO XG XT XE. subst i. pose proof (header_head _ _ _ H) as HH.
  destruct o as [n g v s]. cbn [igen] in XG. subst g. cbn [inum igen ival istream] in *.
  assert (DS : forall s, new_decryptor E (if x_enc e then sh_string (psh p) else CFNone) n (x_gen e) s = Ok s) by (intros x; rewrite XE; reflexivity).
  inversion BH as [g1 t v' g2 r1 G1 T G2 ET MF ER L Q1 Q2 Q3 | g1 t d g2 pre eol data eol' r1 fl pl out G1 T G2 NE ET EB NO EA L FO PO TY CR DC Q1 Q2]; subst.
  - destruct (CryptObjP.plain_object E file p n e h n (x_gen e) g1 t v g2 r1 (fun s => s)) with (fuel := 0%nat) as (p' & Q & LG); try assumption. rewrite map_strings_id in Q. exists 1%nat, p'. split; [exact Q | exact LG].
  - destruct (StreamObjP.stream_object E file p n e h n (x_gen e) g1 t d d g2 pre eol data eol' r1 (fun s => s) data fl pl CFNone fl pl s) as (f0 & F); try assumption; try reflexivity.
    { apply map_strings_id. }
    { rewrite XE. apply sc_plain. }
    destruct (F f0 (le_n _)) as (p' & Q & LG). exists f0, p'. split; [exact Q | exact LG].
Qed.
Lemma sealed_in : forall E key s o c file pre r, lay_object c -> sealed_object E key s o c -> file = (pre ++ [x0a]) ++ w_object c ++ r -> sealed_at E file key s (zlen (pre ++ [x0a])) o.
Proof.
  intros E key s o c file pre r Lo SO QD.
  destruct (sealed_nums _ _ _ _ _ SO) as [A1 A2]. pose proof (lo_number _ Lo) as N1. pose proof (lo_generation _ Lo) as N2. split.
  - apply zlen_nonneg.
  - lia.
  - lia.
  - intros b q d _ Z0 DD. rewrite QD in Z0. rewrite zdrop_before in Z0. injection Z0 as <- _. apply decdigit_spec in DD. destruct DD. discriminate.
  - exists (w_head c), (x0a :: w_value c ++ x0a :: lit "endobj" ++ x0a :: r). split; [| split].
    + rewrite QD, zdrop_app. unfold w_object. apps. reflexivity.
    + rewrite <- A1, <- A2. apply head_header. exact Lo.
    + apply sealed_text; assumption.
Qed.
Lemma clear_in : forall E o file pre r, lay_object o -> istream o = None -> file = (pre ++ [x0a]) ++ w_object o ++ r -> object_at E file (zlen (pre ++ [x0a])) o.
Proof.
  intros E o file pre r Lo NS QD. assert (Go : good_object o) by (split; [exact Lo | intros d N; rewrite NS in N; destruct (N eq_refl)]).
  assert (AW : as_written o = o) by (unfold as_written; rewrite NS; reflexivity). rewrite <- AW. eapply good_at; eassumption.
Qed.

Lemma nodup_both : forall (l m : list Z), NoDup (l ++ m) -> NoDup l /\ forall x, In x l -> In x m -> False.
Proof.
  induction l as [| a l IH]; intros m N; [split; [constructor | intros x []] |]. cbn [app] in N. inversion N as [| ? ? NI N']; subst. destruct (IH m N') as [A B]. split.
  - constructor; [| exact A]. intros I. apply NI. apply in_or_app. left. exact I.
  - intros x [-> | I] J; [apply NI; apply in_or_app; right; exact J | exact (B x I J)].
Qed.
(** A file in which the encrypted objects [C] are at the places [at_], with the
    objects [XS] that are in clear and known to be. *)
Section Sealed.
  Variables (E : env) (D C XS : list iobj) (tr : dict) (pr : params) (pw : bytes) (file : bytes) (at_ : list (Z * iobj)) (ord : xmap -> xmap) (F0 : nat) (q : pst) (enc : dict) (n0 : option Z) (s : scheme).
  Hypothesis M : forall x, List.length (e_md5 E x) = 16%nat.
  Hypothesis EE : encrypt_entry D enc (entry tr (lit "Encrypt")) n0.
  Hypothesis HD : handler [{| sc_entries := []; sc_trailer := tr |}] enc pr.
  Hypothesis UP : user_password E pr pw.
  Hypothesis SO : scheme_of enc pr s.
  Hypothesis NA : no_aes s.
  Hypothesis NDF : no_default enc s.
  Hypothesis FD : Forall2 (fun o c => n0 = Some (inum o) /\ c = o \/ n0 <> Some (inum o) /\ sealed_object E (file_key E pr pw (pr_n pr)) s o c) D C.
  Hypothesis NDC : NoDup (map inum (C ++ XS)).
  Hypothesis AT : forall c, In c C -> exists k, In (k, c) at_ /\ lay_object c /\ exists pre r, file = (pre ++ [x0a]) ++ w_object c ++ r /\ k = zlen (pre ++ [x0a]).
  Hypothesis L2 : forall fuel, (F0 <= fuel)%nat -> first_part fuel E ord file (new_parser file) = Ok (tt, q).
  Hypothesis W : reads file q.
  Hypothesis LG : log (prd q) = [].
  Hypothesis TR : forall k, entry (ptrailer q) k = entry tr k.
  Hypothesis OF : offsets_ok (pxref q).
  Hypothesis XG : forall k c, In c C -> In (k, c) at_ -> xget (inum c) (pxref q) = Some (new_xentry k (igen c) 1).
  Hypothesis IU : forall n, SpecOut.in_use q n -> exists c, In c (C ++ XS) /\ inum c = n.
  Hypothesis XC : forall o, In o XS -> exists k e, xget (inum o) (pxref q) = Some e /\ x_off e = k /\ x_gen e = igen o /\ x_type e = 1 /\ x_enc e = false /\ readable_at E file k o.
  Lemma same_nums : map inum D = map inum C.
  Proof. clear - FD. revert FD. generalize D C. intros l m F. induction F as [| a b l m H _ IH]; [reflexivity |]. cbn [map]. f_equal; [| exact IH]. destruct H as [[_ ->] | [_ H]]; [reflexivity |]. symmetry. apply (sealed_nums _ _ _ _ _ H). Qed.
  Lemma general_both : (exists f0, forall fuel, (f0 <= fuel)%nat -> exists p,
    load fuel E ord file pw (new_parser file) = Ok (None, p) /\ reads file p /\ offsets_ok (pxref p) /\
    (forall o, In o (D ++ XS) -> fetched E file p (inum o) o /\ SpecOut.in_use p (inum o)) /\
    (forall n, SpecOut.in_use p n -> exists o, In o (D ++ XS) /\ inum o = n) /\
    (forall k, entry (ptrailer p) k = entry tr k) /\ log (prd p) = [] /\
    (forall n e, xget n (pxref p) = Some e -> x_type e = 1 -> forall q, kept file p q -> exists f o q', GetObject f E file n q = Ok (o, q') /\ log (prd q') = log (prd q))) /\
    forall pw', ~ user_password E pr pw' -> exists f0, forall fuel, (f0 <= fuel)%nat -> exists p, load fuel E ord file pw' (new_parser file) = Ok (Some EncryptionPasswordError, p).
  Proof.
  destruct (forall2_in _ _ _ _ _ FD) as [FD1 FD2]. pose proof EE as EE'. rewrite <- (TR (lit "Encrypt")) in EE'.
  assert (X : exists x, entry (ptrailer q) (lit "Encrypt") = Some x /\ (forall m g, x = ORef m g -> n0 = Some m) /\ forall m, n0 = Some m -> exists g, x = ORef m g).
  { inversion EE' as [Q1 Q2 | o g I Io Is Q1 Q2]; eexists; (split; [reflexivity |]); split; [discriminate | discriminate | intros m g' Q; injection Q as <- _; reflexivity | intros m Q; injection Q as <-; eauto]. }
  destruct X as (x & EX & XN & XN2).
  destruct (exempt_encrypt x q) as [[u p5]| |] eqn:F5; try (unfold exempt_encrypt in F5; destruct x; try discriminate F5; destruct (xget n (pxref q)); discriminate F5).
  destruct (exempt_same file x q u p5 0 F5 W) as [W5 _]. destruct (exempt_trailer _ _ _ _ F5) as [T5 S5].
  assert (NUM : forall o c, In o D -> In c C -> (n0 = Some (inum o) /\ c = o \/ n0 <> Some (inum o) /\ sealed_object E (file_key E pr pw (pr_n pr)) s o c) -> inum c = inum o /\ igen c = igen o).
  { intros o c _ _ [[_ ->] | [_ H]]; [auto | eapply sealed_nums; exact H]. }
  assert (CL : forall o, In o D -> n0 = Some (inum o) -> exists k e5, object_at E file k o /\ xget (inum o) (pxref p5) = Some e5 /\ x_off e5 = k /\ x_gen e5 = igen o /\ x_type e5 = 1 /\ x_enc e5 = false).
  { intros o I N. destruct (FD1 o I) as (c & Ic & [[_ ->] | [NN _]]); [| destruct (NN N)]. destruct (AT o Ic) as (k & K & Lo & pre & r & QF & QK).
    assert (NS : istream o = None).
    { inversion EE' as [Q1 Q2 | o' g I' Io Is Q1 Q2]; [congruence |]. assert (inum o' = inum o) by congruence.
      assert (NDD : NoDup (map inum D)).
      { rewrite same_nums. rewrite map_app in NDC. exact (proj1 (nodup_both _ _ NDC)). }
      assert (o' = o); [| congruence]. clear - NDD I I' H. revert I I' NDD. generalize D. intros l0. induction l0 as [| d l IH]; intros; [destruct I |]. cbn [map] in NDD. inversion NDD; subst.
      destruct I as [-> | I]; destruct I' as [-> | I']; auto; exfalso; apply H2; [rewrite <- H | rewrite H]; apply in_map; assumption. }
    pose proof (XG k o Ic K) as X. destruct (XN2 _ N) as [g QX]. rewrite QX in F5. destruct (exempt_marks _ _ _ _ _ _ F5 X) as (e5 & Y & Y1 & Y2 & Y3 & Y4).
    exists k, e5. split; [rewrite QK; eapply clear_in; eassumption |]. split; [exact Y |]. rewrite Y1, Y2, Y3. auto. }
  assert (OO : offsets_ok (pxref p5)).
  { intros n e Q TY. destruct (exempt_same file x q u p5 n F5 W) as [_ SE]. rewrite Q in SE. destruct (xget n (pxref q)) as [e0 |] eqn:X0; [| destruct SE].
    destruct SE as (Y1 & Y2 & Y3 & _). specialize (OF n e0 X0). rewrite Y1. apply OF. congruence. }
  assert (ST : standard E file p5 (ptrailer p5) enc pr).
  { apply (handler_standard E file p5 [{| sc_entries := []; sc_trailer := tr |}] enc pr); [| | exact HD].
    - intros k o Q. rewrite T5, TR. cbn in Q. destruct (entry tr k); congruence.
    - rewrite T5, EX. rewrite EX in EE'. inversion EE' as [Q1 Q2 | o g I Io Is Q1 Q2]; [apply typed_direct; [reflexivity | discriminate] |].
      destruct (CL o I (eq_sym Q2)) as (k & e5 & OA & X5 & Y1 & Y2 & Y3 & Y4).
      assert (FE : fetched E file p5 (inum o) o) by (eapply fetch_clear; eassumption).
      destruct (resolve_first_value E file p5 (inum o) [] (inum o) o W5 OO (hop_here _ _ _ _) FE) as (f0 & RS); [rewrite Io; discriminate |].
      destruct (RS f0 (le_n _)) as (p6 & Q6). exists (ival o). split; [| exact Io]. apply v_ref. exists f0, p6. exact Q6. }
  assert (LO : forall fuel pw' x', (F0 <= fuel)%nat -> set_password fuel E file pw' p5 = Ok x' -> load fuel E ord file pw' (new_parser file) = Ok x').
  { intros fuel pw' x' F Q'. rewrite load_parts. unfold bind at 1. rewrite (L2 fuel F). rewrite dget_entry, EX. unfold bind. rewrite F5. exact Q'. }
  split.
  2: { intros pw' NP. destruct (password_rejected E file p5 pw' enc pr W5 OO M ST (user_password_full _ _ _ M UP) NP) as (f0 & REJ). exists (Nat.max F0 f0). intros fuel F. destruct (REJ fuel) as (p' & Q' & _); [lia |].
       exists p'. apply LO; [lia | exact Q']. }
  destruct (handler_filters E file p5 _ enc pr pw s HD SO NDF) as [CG HR].
  destruct (password_accepted E file p5 pw enc pr W5 OO M ST UP CG) as (h & f0 & IN & ACC).
  exists (Nat.max F0 f0). intros fuel F. destruct (ACC fuel) as (p' & Q' & W' & X' & T' & S'); [lia |]. exists p'. split.
  { apply LO; [lia | exact Q']. }
  split; [exact W' |]. split; [rewrite X'; exact OO |].
  assert (GS : forall o, In o D -> SpecOut.in_use p' (inum o) /\ forall q, kept file p' q -> exists f q', GetObject f E file (inum o) q = Ok (o, q') /\ log (prd q') = log (prd q)).
  { intros o I. destruct (FD1 o I) as (c & Ic & [[N ->] | [NN SE]]).
    - destruct (CL o I N) as (k & e5 & OA & X5 & Y1 & Y2 & Y3 & Y4). split; [exists e5; rewrite X'; auto |]. intros q2 (K1 & K2 & K3 & K4). eapply clear_silent; try eassumption. rewrite K2, X'. exact X5.
    - destruct (AT c Ic) as (k & K & Lo & pre & r & QF & QK). pose proof (XG k c Ic K) as X. destruct (sealed_nums _ _ _ _ _ SE) as [A1 A2]. rewrite A1, A2 in X.
      assert (X5 : xget (inum o) (pxref p') = Some (new_xentry k (igen o) 1)).
      { rewrite X'. eapply exempt_table; [exact F5 | | exact X]. intros g Q. apply NN. eapply XN. exact Q. }
      split; [exists (new_xentry k (igen o) 1); auto |]. intros q2 (K1 & K2 & K3 & K4).
      eapply (sealed_silent E file _ s k o q2); [exact M | exact NA | rewrite QK; eapply sealed_in; eassumption | exact K1 | rewrite K4, S'; exact (HR h IN) | rewrite K2; exact X5 | reflexivity | reflexivity | reflexivity | reflexivity]. }
  assert (GX : forall o, In o XS -> SpecOut.in_use p' (inum o) /\ forall q, kept file p' q -> exists f q', GetObject f E file (inum o) q = Ok (o, q') /\ log (prd q') = log (prd q)).
  { intros o I. destruct (XC o I) as (k & e & X & Y1 & Y2 & Y3 & Y4 & RA).
    assert (X5 : xget (inum o) (pxref p') = Some e).
    { rewrite X'. eapply exempt_table; [exact F5 | | exact X]. intros g Q. pose proof (XN _ _ Q) as N. inversion EE as [Q1 Q2 | o' g' I' Io Is Q1 Q2]; [congruence |].
      assert (H : inum o' = inum o) by congruence. rewrite map_app in NDC. apply (proj2 (nodup_both _ _ NDC) (inum o)); [rewrite <- same_nums, <- H; apply in_map; exact I' | apply in_map; exact I]. }
    split; [exists e; auto |]. intros q2 (K1 & K2 & K3 & K4). eapply clear_readable; try eassumption. rewrite K2. exact X5. }
  assert (GA : forall o, In o (D ++ XS) -> SpecOut.in_use p' (inum o) /\ forall q, kept file p' q -> exists f q', GetObject f E file (inum o) q = Ok (o, q') /\ log (prd q') = log (prd q)).
  { intros o I. apply in_app_or in I. destruct I as [I | I]; [exact (GS o I) | exact (GX o I)]. }
  assert (IUp : forall n, SpecOut.in_use p' n -> exists o, In o (D ++ XS) /\ inum o = n).
  { intros n (e & Q & TY). rewrite X' in Q. destruct (exempt_same file x q u p5 n F5 W) as [_ SE]. rewrite Q in SE. destruct (xget n (pxref q)) as [e0 |] eqn:X0; [| destruct SE].
    destruct SE as (Y1 & Y2 & Y3 & _). destruct (IU n) as (c & Ic & <-); [exists e0; split; [exact X0 | congruence] |]. apply in_app_or in Ic. destruct Ic as [Ic | Ic]; [| exists c; split; [apply in_or_app; right; exact Ic | reflexivity]].
    destruct (FD2 c Ic) as (o & Io & H). exists o. split; [apply in_or_app; left; exact Io |]. symmetry. apply (NUM o c Io Ic H). }
  split; [| split; [exact IUp | split; [| split]]].
  - intros o I. destruct (GA o I) as [U G]. split; [| exact U]. destruct (G p' (kept_refl' _ _ W')) as (f & q' & Q & _). exists f, q'. exact Q.
  - intros k. rewrite T', T5. apply TR.
  - assert (LP : log (prd p5) = []). { rewrite <- LG. unfold exempt_encrypt in F5. destruct x; try congruence. destruct (xget n (pxref q)); try congruence. match type of F5 with Ok (_, ?z) = _ => assert (p5 = z) by congruence end. subst p5. reflexivity. }
    assert (QD : exists q1, d_dict (Resolve fuel E file) (ptrailer p5) (lit "Encrypt") p5 = Ok ((enc, true), q1) /\ log (prd q1) = []).
    { unfold d_dict, d_object, bind. rewrite dget_entry, T5, EX. rewrite EX in EE'. inversion EE' as [Q1 Q2 | o g I Io Is Q1 Q2]; [eexists; split; [reflexivity | exact LP] |].
      destruct (Resolve fuel E file (inum o) p5) as [[o1 q1]| |] eqn:RE.
      - unfold Resolve, restoring, bind, pseek, ret in RE. destruct fuel as [| f]; [discriminate RE |]. cbn [resolve zmem existsb] in RE. unfold bind in RE.
        destruct (get_object f E file (inum o) p5) as [[o2 q2]| |] eqn:G; try discriminate.
        destruct (CL o I (eq_sym Q2)) as (k & e5 & OA & X5 & Y1 & Y2 & Y3 & Y4). destruct (clear_silent E file k o p5 e5 OA W5 X5 Y1 Y2 Y3 Y4) as (f2 & q3 & G2 & L3).
        apply (get_object_mono _ (f + f2)) in G; [| lia]. apply (get_object_mono _ (f + f2)) in G2; [| lia]. assert (o2 = o /\ q2 = q3) as [-> ->] by (split; congruence).
        rewrite Io in RE. unfold ret in RE. assert (o1 = o) by congruence. subst o1. match type of RE with Ok (_, ?z) = _ => assert (q1 = z) by congruence end. subst q1.
        unfold ret. rewrite Io. eexists. split; [reflexivity |]. cbn [prd with_rd]. rewrite seek_log, L3. exact LP.
      - exfalso. unfold set_password, init_security, d_dict, d_object in Q'. unfold bind at 1 2 3 in Q'. rewrite dget_entry, T5, EX, <- Q1 in Q'. unfold bind in Q'. rewrite RE in Q'. discriminate Q'.
      - exfalso. unfold set_password, init_security, d_dict, d_object in Q'. unfold bind at 1 2 3 in Q'. rewrite dget_entry, T5, EX, <- Q1 in Q'. unfold bind in Q'. rewrite RE in Q'. discriminate Q'. }
    destruct QD as (q1 & QD & LQ). unfold set_password in Q'.
    rewrite (init_silent (Resolve fuel E file) E pw (ptrailer p5) [{| sc_entries := []; sc_trailer := ptrailer p5 |}] enc pr s p5 q1 None p'); [exact LQ | | exact QD | | exact SO | exact Q'].
    + intros k. cbn. destruct (entry (ptrailer p5) k); reflexivity.
    + destruct HD as [A1 A2 A3 A4 A5 A6 A7 A8 (ids & A9)]. split; try assumption. exists ids. cbn in A9 |- *. rewrite T5, TR. exact A9.
  - intros n e Q TY q2 K. destruct (IUp n) as (o & I & <-); [exists e; auto |]. destruct (proj2 (GA o I) q2 K) as (f & q' & G & LGq). eauto.
Qed.
End Sealed.

Section XSealed.
  Variables (E : env) (D C : list iobj) (xs : iobj) (d : dict) (data : bytes) (pr : params) (pw : bytes).
  Hypothesis M : forall x, List.length (e_md5 E x) = 16%nat.
  Hypothesis SX : sealed_xdocument E D C xs d data pr pw.
  Let file := w_xdocument C xs.
  Let D' := D ++ [x_read xs data].
  Definition xsealed_state (p : pst) : Prop := reads file p /\ offsets_ok (pxref p) /\
    (forall o, In o D' -> fetched E file p (inum o) o /\ SpecOut.in_use p (inum o)) /\
    (forall n, SpecOut.in_use p n -> exists o, In o D' /\ inum o = n) /\
    (forall k, entry (ptrailer p) k = entry d k) /\ log (prd p) = [] /\
    (forall n e, xget n (pxref p) = Some e -> x_type e = 1 -> forall q, kept file p q -> exists f o q', GetObject f E file n q = Ok (o, q') /\ log (prd q') = log (prd q)).
  Lemma xsealed_both : forall ord, (forall m, Permutation (ord m) m) ->
    (exists f0, forall fuel, (f0 <= fuel)%nat -> exists p, load fuel E ord file pw (new_parser file) = Ok (None, p) /\ xsealed_state p) /\
    forall pw', ~ user_password E pr pw' -> exists f0, forall fuel, (f0 <= fuel)%nat -> exists p, load fuel E ord file pw' (new_parser file) = Ok (Some EncryptionPasswordError, p).
  Proof.
    intros ord P. destruct SX as [LX (enc & n0 & s & EE & HD & UP & SO & NA & NDF & FD)].
    destruct (x_first E C xs d data LX) as (F0 & H). destruct (H F0 ord (le_n _) P) as (q & FP & W & LG & SH & TR & OF & XG & IU). fold file in FP, W.
    assert (IX : In (zlen (w_body C), xs) (w_places (zlen w_version) (C ++ [xs]))) by (rewrite (x_places C xs); apply in_or_app; right; left; reflexivity).
    apply (general_both E D C [x_read xs data] d pr pw file (w_places (zlen w_version) (C ++ [xs])) ord F0 q enc n0 s); try assumption.
    - pose proof (lx_numbers _ _ _ _ _ LX) as ND. rewrite map_app in *. exact ND.
    - intros c I. destruct (place_of (C ++ [xs]) c) as (k & K); [apply in_or_app; left; exact I |]. exists k. split; [exact K |]. split; [exact (lx_objects _ _ _ _ _ LX c I) |].
      destruct (x_split C xs k c K) as (pre & r & QF & QK & _). exists pre, r. auto.
    - intros fuel L. eapply first_more; eassumption.
    - intros k c I K. rewrite (XG k c K). unfold x_entry. destruct (Z.eqb_spec (inum c) (inum xs)) as [Q | _]; [| reflexivity]. exfalso.
      pose proof (lx_numbers _ _ _ _ _ LX) as ND. rewrite map_app in ND. apply (proj2 (nodup_both _ _ ND) (inum c)); [apply in_map; exact I | left; symmetry; exact Q].
    - intros n U. destruct (IU n U) as (c & I & Q). apply in_app_or in I. destruct I as [I | [<- | []]]; [exists c; split; [apply in_or_app; left; exact I | exact Q] | exists (x_read xs data); split; [apply in_or_app; right; left; reflexivity | exact Q]].
    - intros o [<- | []]. exists (zlen (w_body C)), (x_entry xs (zlen (w_body C)) xs). split; [exact (XG _ _ IX) |]. unfold x_entry. rewrite Z.eqb_refl. cbn.
      split; [reflexivity |]. split; [reflexivity |]. split; [reflexivity |]. split; [reflexivity |]. exact (x_readable E C xs d data LX).
  Qed.
  Lemma xsealed_loads : forall ord, (forall m, Permutation (ord m) m) -> exists f0, forall fuel, (f0 <= fuel)%nat -> exists p, load fuel E ord file pw (new_parser file) = Ok (None, p) /\ xsealed_state p.
  Proof. intros ord P. exact (proj1 (xsealed_both ord P)). Qed.
  Lemma xsealed_after : forall ord fuel p, (forall m, Permutation (ord m) m) -> load fuel E ord file pw (new_parser file) = Ok (None, p) -> xsealed_state p.
  Proof.
    intros ord fuel p P L. destruct (xsealed_loads ord P) as (f0 & H). destruct (H f0 (le_n _)) as (p' & L' & S1). pose proof (load_det _ _ _ _ _ _ _ _ _ L L') as Q. assert (p' = p) by congruence. subst p'. exact S1.
  Qed.
  Lemma xsealed_numbers : NoDup (map inum D').
  Proof.
    destruct SX as [LX (enc & n0 & s & _ & _ & _ & _ & _ & _ & FD)]. pose proof (lx_numbers _ _ _ _ _ LX) as ND. unfold D'. rewrite map_app in *. rewrite (same_nums E D C pr pw n0 s FD). exact ND.
  Qed.
  Lemma xsealed_errors : forall OD fuel w p, order_ok OD -> parse_body E OD fuel file pw (new_parser file) = (w, Ok (None, p)) -> errors_txt p = [].
  Proof.
    intros OD fuel w p OK H. destruct (body_ok _ _ _ _ _ _ _ _ _ H) as (p1 & L & X & _). destruct (X eq_refl) as (u & Y).
    destruct (xsealed_after _ _ _ (fun m => Permutation_sym (proj1 (proj2 OK) m)) L) as (W & OF & FD & IU & TR & LG & GS).
    unfold errors_txt. rewrite (all_hushed E OD fuel file p1 OK GS) with (l := o_xref OD (pxref p1)) (w := w) (u := u); [rewrite LG; reflexivity | exact W | exact Y].
  Qed.
End XSealed.
Lemma xsealed_read : forall E D C xs d data pr pw, (forall x, List.length (e_md5 E x) = 16%nat) -> sealed_xdocument E D C xs d data pr pw ->
  forall ord, (forall m, Permutation (ord m) m) -> exists f0, forall fuel, (f0 <= fuel)%nat -> exists p,
    load fuel E ord (w_xdocument C xs) pw (new_parser (w_xdocument C xs)) = Ok (None, p) /\
    (forall o, In o D -> fetched E (w_xdocument C xs) p (inum o) o) /\ fetched E (w_xdocument C xs) p (inum xs) (x_read xs data) /\
    (forall n, ~ In n (map inum (D ++ [xs])) -> fetched E (w_xdocument C xs) p n {| inum := n; igen := 0; ival := OKw (lit "null"); istream := None |}) /\
    (forall k, entry (ptrailer p) k = entry d k) /\ errors_txt p = [].
Proof.
  intros E D C xs d data pr pw M SX ord P. destruct (xsealed_loads E D C xs d data pr pw M SX ord P) as (f0 & H). exists f0. intros fuel F. destruct (H fuel F) as (p & L & W & OF & FD & IU & TR & LG & _).
  exists p. split; [exact L |]. split; [intros o I; exact (proj1 (FD o (in_or_app _ _ _ (or_introl I)))) |]. split; [refine (proj1 (FD (x_read xs data) _)); apply in_or_app; right; left; reflexivity |].
  split; [| split; [exact TR | unfold errors_txt; rewrite LG; reflexivity]]. intros n NI. apply (held_null E _ (D ++ [x_read xs data]) p IU). rewrite map_app in *. exact NI.
Qed.
Lemma xsealed_locked : forall E D C xs d data pr pw pw', (forall x, List.length (e_md5 E x) = 16%nat) -> sealed_xdocument E D C xs d data pr pw -> ~ user_password E pr pw' ->
  forall ord, (forall m, Permutation (ord m) m) -> exists f0, forall fuel, (f0 <= fuel)%nat -> exists p,
    load fuel E ord (w_xdocument C xs) pw' (new_parser (w_xdocument C xs)) = Ok (Some EncryptionPasswordError, p).
Proof. intros E D C xs d data pr pw pw' M SX NP ord P. exact (proj2 (xsealed_both E D C xs d data pr pw M SX ord P) pw' NP). Qed.

(** A sealed document can also be written with a cross-reference stream. *)
Lemma xsealed_written : forall E D C tr pr pw n, sealed_document E D C tr pr pw -> lay_trailer C n tr ->
  exists d, sealed_xdocument E D C (w_xstream C n tr) d (w_xdata C n) pr pw /\ (forall k, In k (map fst tr) -> entry d k = entry tr k).
Proof.
  intros E D C tr pr pw n [_ (enc & n0 & s & EE & HD & R)] LT. destruct (xlaid E C n tr LT) as (d & LX & T1 & T2). exists d. split; [| exact T1].
  assert (T : forall k, entry tr k <> None -> entry d k = entry tr k).
  { intros k N. apply T1. destruct (in_dec (list_eq_dec Byte.byte_eq_dec) k (map fst tr)) as [I | I]; [exact I |]. destruct (N (no_key tr k I)). }
  split; [exact LX |]. exists enc, n0, s. split; [| split; [| exact R]].
  - rewrite T; [exact EE |]. inversion EE; discriminate.
  - destruct HD as [A1 A2 A3 A4 A5 A6 A7 A8 (ids & A9)]. split; try assumption. exists ids. cbn in A9 |- *. rewrite T; [exact A9 |]. intros Q. rewrite Q in A9. discriminate A9.
Qed.
