(** SealP.v -- reading back an encrypted document (C97, C98). *)
From Verif Require Import Base BaseP Msg Reader ReaderP Num NumP Lexer Plain LexerP Obj ReadObj Bits Filters Env Getters Crypt GetObj GetObjP Regex Xref Security Load Extract Output Render Parse Errors
  SpecLex SpecLexP SpecObj SpecObjP SpecNumP SpecFilters FiltersP SpecRead SpecFetch SpecLook SpecStream SpecScan FetchP LookP RawP AlongP LoadInvP SpecOut SpecRecover OrderP RepairP CryptObjP DocP ScanP RecoverP ErrorsP
  SpecTotal TotalP SpecXref XrefP LoadMonoP SpecCrypt SpecSecurity SecurityP SpecCryptDoc CryptDocP SpecWrite SpecFollow WriteP WriteDocP WriteLoadP WriteOutP WriteRunP SpecSeal.
From Coq Require Import Strings.String Sorting.Permutation Sorting.Sorted.

Lemma sealed_nums : forall E key s o c, sealed_object E key s o c -> inum c = inum o /\ igen c = igen o.
Proof. intros E key s o c H. destruct H; split; reflexivity. Qed.
Lemma as_raw : forall n g v data, raw data = true -> as_written {| inum := n; igen := g; ival := v; istream := Some data |} = {| inum := n; igen := g; ival := v; istream := Some data |}.
Proof. intros n g v data R. unfold as_written. cbn [istream]. rewrite R. reflexivity. Qed.
Lemma sealed_text : forall E key s o c r, lay_object c -> sealed_object E key s o c ->
  sealed_behind E (hidden E key (inum o) (igen o)) s (w_head c) (x0a :: w_value c ++ x0a :: lit "endobj" ++ x0a :: r) (ival o) (istream o).
Proof.
  intros E key s o c r Lo H. pose proof (head_len c Lo) as HL. destruct H as [n g v c SE | n g d c fl pl m fl' pl' plain data out SE FO PO TY SM DC HI RW]; cbn [inum igen ival istream] in *.
  - unfold w_value. cbn [istream ival]. match goal with |- sealed_behind _ _ _ ?h (x0a :: w_obj ?c ++ _) _ _ => change (x0a :: w_obj c ++ x0a :: lit "endobj" ++ x0a :: r) with ([x0a] ++ w_obj c ++ [x0a] ++ lit "endobj" ++ (x0a :: r)) end.
    pose proof (lo_value _ Lo) as V. cbn [ival] in V. apply sb_plain with (c := c).
    + apply gap_ws; [exact lf_ws | constructor].
    + exact SE.
    + apply w_obj_text, V.
    + apply gap_ws; [exact lf_ws | constructor].
    + apply ws_ends, lf_ws.
    + apply (endobj_follows c (x0a :: r) V).
    + apply ws_ends, lf_ws.
    + rewrite zlen_app. change (zlen [x0a]) with 1. unfold bufsize. lia.
  - destruct (stream_text _ data Lo eq_refl) as (c' & QW & SP). rewrite (as_raw _ _ _ _ RW) in QW. cbn [ival] in QW. injection QW as <-.
    destruct (SP (x0a :: lit "endobj" ++ x0a :: r)) as [P1 P2 P3 P4 P5]. rewrite P1. unfold w_data in *. rewrite RW in *.
    eapply sb_stream with (plain := plain) (c := c); try eassumption.
    + apply gap_ws; [exact lf_ws | constructor].
    + apply gap_ws; [exact lf_ws | constructor].
    + intros b [].
    + apply ws_ends, lf_ws.
    + apply eb_lf.
Qed.
Lemma sealed_placed : forall E key s C tr k o c, lay_document C tr -> In (k, c) (w_places (zlen w_version) C) -> sealed_object E key s o c -> sealed_at E (w_document C tr) key s k o.
Proof.
  intros E key s C tr k o c LD I SO. apply places_split in I. destruct I as (D1 & D2 & Q & ->). destruct (document_at C tr D1 c D2 Q) as [r QD].
  assert (Lo : lay_object c) by (apply (ld_objects _ _ LD); rewrite Q; apply in_or_app; right; left; reflexivity).
  destruct (sealed_nums _ _ _ _ _ SO) as [A1 A2]. rewrite <- zlen_app. pose proof (lo_number _ Lo) as N1. pose proof (lo_generation _ Lo) as N2. split.
  - apply zlen_nonneg.
  - lia.
  - lia.
  - intros b q d _ Z0 DD. destruct (body_last D1) as [x QX]. rewrite QD, QX in Z0. rewrite zdrop_before in Z0. injection Z0 as <- _. apply decdigit_spec in DD. destruct DD. discriminate.
  - exists (w_head c), (x0a :: w_value c ++ x0a :: lit "endobj" ++ x0a :: r). split; [| split].
    + rewrite QD, zdrop_app. unfold w_object. apps. reflexivity.
    + rewrite <- A1, <- A2. apply head_header. exact Lo.
    + apply sealed_text; assumption.
Qed.
(** The encryption dictionary's object is in clear. *)
Lemma clear_placed : forall E C tr k o, lay_document C tr -> In (k, o) (w_places (zlen w_version) C) -> istream o = None -> object_at E (w_document C tr) k o.
Proof.
  intros E C tr k o LD I NS. apply places_split in I. destruct I as (D1 & D2 & Q & ->). destruct (document_at C tr D1 o D2 Q) as [r QD].
  assert (Lo : lay_object o) by (apply (ld_objects _ _ LD); rewrite Q; apply in_or_app; right; left; reflexivity).
  assert (Go : good_object o) by (split; [exact Lo | intros d N; rewrite NS in N; destruct (N eq_refl)]).
  assert (AW : as_written o = o) by (unfold as_written; rewrite NS; reflexivity).
  rewrite <- zlen_app. pose proof (lo_number _ Lo) as N1. pose proof (lo_generation _ Lo) as N2. split.
  - apply zlen_nonneg.
  - lia.
  - lia.
  - intros b q d _ Z0 DD. destruct (body_last D1) as [x QX]. rewrite QD, QX in Z0. rewrite zdrop_before in Z0. injection Z0 as <- _. apply decdigit_spec in DD. destruct DD. discriminate.
  - exists (w_head o), (x0a :: w_value o ++ x0a :: lit "endobj" ++ x0a :: r). split; [| split].
    + rewrite QD, zdrop_app. unfold w_object. apps. reflexivity.
    + apply head_header. exact Lo.
    + pose proof (written_behind E o r Go) as B. rewrite AW in B. exact B.
  - intros d QV. apply (lay_type o d Lo). rewrite AW. exact QV.
Qed.

(** ** No message while the password is checked *)
Definition nonref (x : option obj) : Prop := forall n g, x <> Some (ORef n g).
Section Checked.
  Variable rs : Z -> M iobj.
  Lemma direct_object : forall d k q, nonref (entry d k) -> exists x, d_object rs d k q = Ok (x, q).
  Proof. intros d k q N. unfold d_object. rewrite dget_entry. destruct (entry d k) as [[| | | | n g | |] |]; try (eexists; reflexivity). destruct (N n g eq_refl). Qed.
  Ltac dd := intros d k q N; unfold d_name, d_int, d_string, d_bool, bind; destruct (direct_object d k q N) as (x & ->); eexists; reflexivity.
  Lemma direct_name : forall d k q, nonref (entry d k) -> exists x, d_name rs d k q = Ok (x, q). Proof. dd. Qed.
  Lemma direct_int : forall d k q, nonref (entry d k) -> exists x, d_int rs d k q = Ok (x, q). Proof. dd. Qed.
  Lemma direct_string : forall d k q, nonref (entry d k) -> exists x, d_string rs d k q = Ok (x, q). Proof. dd. Qed.
  Lemma direct_bool : forall d k q, nonref (entry d k) -> exists x, d_bool rs d k q = Ok (x, q). Proof. dd. Qed.
  Lemma integer_read : forall d k n q, integer (entry d k) n -> d_int rs d k q = Ok ((n, true), q).
  Proof. intros d k n q (v & Q & <-). unfold d_int, d_object, bind. rewrite dget_entry, Q. reflexivity. Qed.
  Lemma integer_nonref : forall x n, integer x n -> nonref x.
  Proof. intros x n (v & -> & _) m g Q. discriminate Q. Qed.
  Lemma load_cf_still : forall E ep pw l cf fs q a q', (forall k fd, In (k, ODict fd) cf -> nonref (entry fd (lit "CFM")) /\ nonref (entry fd (lit "Length"))) ->
    load_cf E rs ep pw l cf fs q = Ok (a, q') -> q' = q.
  Proof.
    intros E ep pw l cf. induction cf as [| [k o] cf IH]; intros fs q a q' N H; [cbn [load_cf] in H; unfold ret in H; congruence |]. cbn [load_cf] in H.
    assert (N' : forall k fd, In (k, ODict fd) cf -> nonref (entry fd (lit "CFM")) /\ nonref (entry fd (lit "Length"))) by (intros; apply (N k0); right; assumption).
    destruct o as [| | | | | | cfd]; try (eapply IH; eassumption). destruct (N k cfd (or_introl eq_refl)) as [N1 N2].
    unfold bind at 1 in H. destruct (direct_name cfd _ q N1) as ([m ok] & Q1). rewrite Q1 in H. unfold bind at 1 in H.
    destruct ok.
    - unfold bind at 1 in H. destruct (direct_int cfd _ q N2) as ([l' ok'] & Q2). rewrite Q2 in H.
      set (l2 := if ok' then l' else l) in *. cbv zeta in H. destruct (bseq m (lit "None")); [unfold ret at 1 in H; eapply IH; eassumption |].
      unfold bind, lift in H. destruct (bseq m (lit "V2")); [destruct (compute_key E ep pw l2); try discriminate; unfold ret at 1 in H; eapply IH; eassumption |].
      destruct (bseq m (lit "AESV2")); [destruct (compute_key E ep pw l2); try discriminate; unfold ret at 1 in H; eapply IH; eassumption |]. unfold ret at 1 in H. eapply IH; eassumption.
    - unfold ret at 1 in H. eapply IH; eassumption.
  Qed.
  Lemma override_still : forall d k fs c q a q', nonref (entry d k) -> override rs d k fs c q = Ok (a, q') -> q' = q.
  Proof. intros d k fs c q a q' N H. unfold override, bind in H. destruct (direct_name d k q N) as ([m ok] & Q). rewrite Q in H. unfold ret in H. congruence. Qed.
  Lemma kind_nonref : forall enc n key d m, kind_method enc n key d m -> nonref (entry enc key).
  Proof. intros enc n key d m [(k & -> & _) | [-> _]] x g Q; discriminate Q. Qed.
  Lemma init_silent : forall E pw tr secs enc pr s p q1 r p', (forall k, newest_key k secs = entry tr k) -> d_dict rs tr (lit "Encrypt") p = Ok ((enc, true), q1) -> handler secs enc pr -> scheme_of enc pr s ->
    init_security E rs pw tr p = Ok (r, p') -> log (prd p') = log (prd q1).
  Proof.
    intros E pw tr secs enc pr s p q1 r p' SE QE [A1 A2 A3 A4 A5 A6 A7 A8 (ids & A9)] SC H. rewrite SE in A9.
    unfold init_security in H. unfold bind at 1 in H. rewrite QE in H. cbn [negb] in H.
    assert (N : forall k o, entry enc k = Some o -> (forall n g, o <> ORef n g) -> nonref (entry enc k)) by (intros k o -> K n g Q; injection Q as Q; exact (K n g Q)).
    unfold bind at 1 in H. destruct (direct_name enc (lit "Filter") q1) as ([fl b] & Q1); [eapply N; [exact A1 | discriminate] |]. rewrite Q1 in H. clear Q1 b. destruct (negb (bseq fl (lit "Standard"))); [unfold ret in H; congruence |].
    unfold bind at 1 in H. rewrite (integer_read _ _ _ _ A2) in H. destruct (negb _); [unfold ret in H; congruence |].
    unfold bind at 1 in H. rewrite (integer_read _ _ _ _ A3) in H. destruct (orb _ _); [unfold ret in H; congruence |].
    unfold bind at 1 in H. assert (QL : exists l, (if pr_v pr =? 1 then ret (40, true) else d_int rs enc (lit "Length")) q1 = Ok (l, q1)).
    { destruct (pr_v pr =? 1) eqn:V1; [eexists; reflexivity |]. apply direct_int. apply Z.eqb_neq in V1. destruct A4 as [(V & _) | (_ & l & [I | [I _]] & _)]; [congruence | eapply integer_nonref; exact I | rewrite I; discriminate]. }
    destruct QL as (l & QL). rewrite QL in H. clear QL. set (len := key_length _ l) in *. cbv zeta in H. clearbody len. clear l.
    unfold bind at 1 in H. destruct (direct_string enc (lit "O") q1) as ([ov b] & Q1); [eapply N; [exact A5 | discriminate] |]. rewrite Q1 in H. clear Q1. destruct (negb b); [unfold ret in H; congruence |]. clear b.
    unfold bind at 1 in H. destruct (direct_string enc (lit "U") q1) as ([uv b] & Q1); [eapply N; [exact A6 | discriminate] |]. rewrite Q1 in H. clear Q1. destruct (negb b); [unfold ret in H; congruence |]. clear b.
    unfold bind at 1 in H. rewrite (integer_read _ _ _ _ A7) in H. cbn [negb] in H.
    unfold bind at 1 in H. destruct (direct_bool enc (lit "EncryptMetadata") q1) as ([em b] & Q1); [destruct A8 as [[-> _] | [[-> _] | [-> _]]]; discriminate |]. rewrite Q1 in H. clear Q1.
    unfold bind at 1 in H. assert (QI : d_array rs tr (lit "ID") q1 = Ok ((OStr (pr_id pr) :: ids, true), q1)) by (unfold d_array, d_object, bind; rewrite dget_entry, A9; reflexivity). rewrite QI in H. clear QI. cbn [negb] in H.
    unfold bind at 1 in H. assert (QI : a_string rs (OStr (pr_id pr) :: ids) 0 q1 = Ok ((pr_id pr, true), q1)) by reflexivity. rewrite QI in H. clear QI. cbn [negb] in H.
    set (ep := {| ep_r := pr_r pr |}) in *. clearbody ep. cbv zeta in H. unfold bind at 1, lift at 1 in H. destruct (compute_key E ep pw len) as [key | |]; try discriminate.
    unfold bind at 1, lift at 1 in H. destruct (check_key E ep uv key) as [good | |]; try discriminate. destruct (negb good); [unfold ret in H; congruence |]. unfold bind at 1 in H.
    destruct (pr_r pr =? 4) eqn:R4; [| unfold ret at 1 in H; match type of H with Ok (_, ?q) = _ => assert (p' = q) by congruence end; subst p'; reflexivity].
    apply Z.eqb_eq in R4. assert (V4 : pr_v pr = 4 /\ exists cf, crypt_filters enc cf /\ filters_well cf).
    { destruct A4 as [(_ & [R | R] & _) | ([[_ R] | (V & _ & CF)] & _)]; [lia | lia | lia | auto]. }
    destruct V4 as (V4 & cf & CF & _ & GOOD). unfold scheme_of in SC. rewrite V4 in SC. change (4 =? 4) with true in SC. cbv iota zeta in SC. destruct SC as (K1 & K2 & K3 & _).
    unfold bind at 1 in H. assert (QC : exists b, d_dict rs enc (lit "CF") q1 = Ok ((cf, b), q1)).
    { unfold d_dict, d_object, bind. rewrite dget_entry. destruct CF as [-> | [-> ->]]; eexists; reflexivity. }
    destruct QC as (b' & QC). rewrite QC in H. clear QC. unfold bind at 1 in H. destruct (load_cf E rs ep pw len cf _ q1) as [[fs q2]| |] eqn:LC; try discriminate.
    apply load_cf_still in LC; [| intros k fd I; destruct (GOOD k _ I) as (fd' & m & Q & ME & LN); injection Q as <-; split; [rewrite ME; discriminate | destruct LN as [(n & LN & _) | ->]; [eapply integer_nonref; exact LN | discriminate]]]. subst q2.
    unfold bind at 1 in H. destruct (override rs enc (lit "StmF") fs (CFRC4 key) q1) as [[c1 q2]| |] eqn:O1; try discriminate. apply override_still in O1; [| eapply kind_nonref; exact K2]. subst q2.
    unfold bind at 1 in H. destruct (override rs enc (lit "StrF") fs (CFRC4 key) q1) as [[c2 q2]| |] eqn:O2; try discriminate. apply override_still in O2; [| eapply kind_nonref; exact K1]. subst q2.
    unfold bind at 1 in H. destruct (override rs enc (lit "EEF") fs (CFRC4 key) q1) as [[c3 q2]| |] eqn:O3; try discriminate. apply override_still in O3; [| eapply kind_nonref; exact K3]. subst q2.
    unfold ret at 1 in H. match type of H with Ok (_, ?q) = _ => assert (p' = q) by congruence end. subst p'. reflexivity.
  Qed.
End Checked.

(** ** Loading *)
Lemma forall2_in : forall A B (R : A -> B -> Prop) l m, Forall2 R l m -> (forall x, In x l -> exists y, In y m /\ R x y) /\ (forall y, In y m -> exists x, In x l /\ R x y).
Proof.
  intros A B R l m H. induction H as [| x y l m H _ [IH1 IH2]]; [split; intros ? [] |]. split.
  - intros z [<- | I]; [exists y; split; [left; reflexivity | exact H] |]. destruct (IH1 z I) as (w & Iw & Rw). exists w. split; [right; exact Iw | exact Rw].
  - intros z [<- | I]; [exists x; split; [left; reflexivity | exact H] |]. destruct (IH2 z I) as (w & Iw & Rw). exists w. split; [right; exact Iw | exact Rw].
Qed.
Lemma sealed_both : forall E D C tr pr pw, (forall x, List.length (e_md5 E x) = 16%nat) -> sealed_document E D C tr pr pw ->
  forall ord, (forall m, Permutation (ord m) m) -> (exists f0, forall fuel, (f0 <= fuel)%nat -> exists p,
    load fuel E ord (w_document C tr) pw (new_parser (w_document C tr)) = Ok (None, p) /\ reads (w_document C tr) p /\ offsets_ok (pxref p) /\
    (forall o, In o D -> fetched E (w_document C tr) p (inum o) o /\ SpecOut.in_use p (inum o)) /\
    (forall n, SpecOut.in_use p n -> exists o, In o D /\ inum o = n) /\
    (forall k, entry (ptrailer p) k = entry tr k) /\ log (prd p) = [] /\
    (forall n e, xget n (pxref p) = Some e -> x_type e = 1 -> forall q, kept (w_document C tr) p q -> exists f o q', GetObject f E (w_document C tr) n q = Ok (o, q') /\ log (prd q') = log (prd q))) /\
    forall pw', ~ user_password E pr pw' -> exists f0, forall fuel, (f0 <= fuel)%nat -> exists p, load fuel E ord (w_document C tr) pw' (new_parser (w_document C tr)) = Ok (Some EncryptionPasswordError, p).
Proof.
  intros E D C tr pr pw M [LD (enc & n0 & s & EE & HD & UP & SO & NA & NDF & FD)] ord P. set (file := w_document C tr).
  destruct (document_before E C tr LD 2 ord (le_n _) P) as (q & W & LG & SH & TR & OF & XG & IU & L2). fold file in W.
  destruct (forall2_in _ _ _ _ _ FD) as [FD1 FD2]. rewrite <- (TR (lit "Encrypt")) in EE.
  assert (X : exists x, entry (ptrailer q) (lit "Encrypt") = Some x /\ (forall m g, x = ORef m g -> n0 = Some m) /\ forall m, n0 = Some m -> exists g, x = ORef m g).
  { inversion EE as [Q1 Q2 | o g I Io Is Q1 Q2]; eexists; (split; [reflexivity |]); split; [discriminate | discriminate | intros m g' Q; injection Q as <- _; reflexivity | intros m Q; injection Q as <-; eauto]. }
  destruct X as (x & EX & XN & XN2).
  destruct (exempt_encrypt x q) as [[u p5]| |] eqn:F5; try (unfold exempt_encrypt in F5; destruct x; try discriminate F5; destruct (xget n (pxref q)); discriminate F5).
  destruct (exempt_same file x q u p5 0 F5 W) as [W5 _]. destruct (exempt_trailer _ _ _ _ F5) as [T5 S5].
  assert (NUM : forall o c, In o D -> In c C -> (n0 = Some (inum o) /\ c = o \/ n0 <> Some (inum o) /\ sealed_object E (file_key E pr pw (pr_n pr)) s o c) -> inum c = inum o /\ igen c = igen o).
  { intros o c _ _ [[_ ->] | [_ H]]; [auto | eapply sealed_nums; exact H]. }
  assert (CL : forall o, In o D -> n0 = Some (inum o) -> exists k e5, object_at E file k o /\ xget (inum o) (pxref p5) = Some e5 /\ x_off e5 = k /\ x_gen e5 = igen o /\ x_type e5 = 1 /\ x_enc e5 = false).
  { intros o I N. destruct (FD1 o I) as (c & Ic & [[_ ->] | [NN _]]); [| destruct (NN N)]. destruct (place_of C o Ic) as (k & K).
    assert (NS : istream o = None).
    { inversion EE as [Q1 Q2 | o' g I' Io Is Q1 Q2]; [congruence |]. assert (inum o' = inum o) by congruence.
      assert (NDD : NoDup (map inum D)).
      { rewrite <- (Forall2_length FD) || idtac. clear - LD FD. pose proof (ld_numbers _ _ LD) as ND. replace (map inum D) with (map inum C); [exact ND |].
        clear ND LD. induction FD as [| a b l m H _ IH]; [reflexivity |]. cbn [map]. f_equal; [| exact IH]. destruct H as [[_ ->] | [_ H]]; [reflexivity |]. apply (sealed_nums _ _ _ _ _ H). }
      assert (o' = o); [| congruence]. clear - NDD I I' H. induction D as [| d l IH]; [destruct I |]. cbn [map] in NDD. inversion NDD; subst.
      destruct I as [-> | I]; destruct I' as [-> | I']; auto; exfalso; apply H2; [rewrite <- H | rewrite H]; apply in_map; assumption. }
    pose proof (XG k o K) as X. destruct (XN2 _ N) as [g QX]. rewrite QX in F5. destruct (exempt_marks _ _ _ _ _ _ F5 X) as (e5 & Y & Y1 & Y2 & Y3 & Y4).
    exists k, e5. split; [apply clear_placed; assumption |]. split; [exact Y |]. rewrite Y1, Y2, Y3. auto. }
  assert (OO : offsets_ok (pxref p5)).
  { intros n e Q TY. destruct (exempt_same file x q u p5 n F5 W) as [_ SE]. rewrite Q in SE. destruct (xget n (pxref q)) as [e0 |] eqn:X0; [| destruct SE].
    destruct SE as (Y1 & Y2 & Y3 & _). specialize (OF n e0 X0). rewrite Y1. apply OF. congruence. }
  assert (ST : standard E file p5 (ptrailer p5) enc pr).
  { apply (handler_standard E file p5 [{| sc_entries := []; sc_trailer := tr |}] enc pr); [| | exact HD].
    - intros k o Q. rewrite T5, TR. cbn in Q. destruct (entry tr k); congruence.
    - rewrite T5, EX. rewrite EX in EE. inversion EE as [Q1 Q2 | o g I Io Is Q1 Q2]; [apply typed_direct; [reflexivity | discriminate] |].
      destruct (CL o I (eq_sym Q2)) as (k & e5 & OA & X5 & Y1 & Y2 & Y3 & Y4).
      assert (FE : fetched E file p5 (inum o) o) by (eapply fetch_clear; eassumption).
      destruct (resolve_first_value E file p5 (inum o) [] (inum o) o W5 OO (hop_here _ _ _ _) FE) as (f0 & RS); [rewrite Io; discriminate |].
      destruct (RS f0 (le_n _)) as (p6 & Q6). exists (ival o). split; [| exact Io]. apply v_ref. exists f0, p6. exact Q6. }
  assert (LO : forall fuel pw' x', (2 <= fuel)%nat -> set_password fuel E file pw' p5 = Ok x' -> load fuel E ord file pw' (new_parser file) = Ok x').
  { intros fuel pw' x' F Q'. rewrite load_parts. unfold bind at 1. unfold file at 1. rewrite (first_more 2 fuel) with (x := (tt, q)); [| lia | exact L2]. rewrite dget_entry, EX. unfold bind. rewrite F5. exact Q'. }
  split.
  2: { intros pw' NP. destruct (password_rejected E file p5 pw' enc pr W5 OO M ST (user_password_full _ _ _ M UP) NP) as (f0 & REJ). exists (Nat.max 2 f0). intros fuel F. destruct (REJ fuel) as (p' & Q' & _); [lia |].
       exists p'. apply LO; [lia | exact Q']. }
  destruct (handler_filters E file p5 _ enc pr pw s HD SO NDF) as [CG HR].
  destruct (password_accepted E file p5 pw enc pr W5 OO M ST UP CG) as (h & f0 & IN & ACC).
  exists (Nat.max 2 f0). intros fuel F. destruct (ACC fuel) as (p' & Q' & W' & X' & T' & S'); [lia |]. exists p'. split.
  { apply LO; [lia | exact Q']. }
  split; [exact W' |]. split; [rewrite X'; exact OO |].
  assert (GS : forall o, In o D -> SpecOut.in_use p' (inum o) /\ forall q, kept file p' q -> exists f q', GetObject f E file (inum o) q = Ok (o, q') /\ log (prd q') = log (prd q)).
  { intros o I. destruct (FD1 o I) as (c & Ic & [[N ->] | [NN SE]]).
    - destruct (CL o I N) as (k & e5 & OA & X5 & Y1 & Y2 & Y3 & Y4). split; [exists e5; rewrite X'; auto |]. intros q2 (K1 & K2 & K3 & K4). eapply clear_silent; try eassumption. rewrite K2, X'. exact X5.
    - destruct (place_of C c Ic) as (k & K). pose proof (XG k c K) as X. destruct (sealed_nums _ _ _ _ _ SE) as [A1 A2]. rewrite A1, A2 in X.
      assert (X5 : xget (inum o) (pxref p') = Some (new_xentry k (igen o) 1)).
      { rewrite X'. eapply exempt_table; [exact F5 | | exact X]. intros g Q. apply NN. eapply XN. exact Q. }
      split; [exists (new_xentry k (igen o) 1); auto |]. intros q2 (K1 & K2 & K3 & K4).
      eapply (sealed_silent E file _ s k o q2); [exact M | exact NA | eapply sealed_placed; eassumption | exact K1 | rewrite K4, S'; exact (HR h IN) | rewrite K2; exact X5 | reflexivity | reflexivity | reflexivity | reflexivity]. }
  assert (IUp : forall n, SpecOut.in_use p' n -> exists o, In o D /\ inum o = n).
  { intros n (e & Q & TY). rewrite X' in Q. destruct (exempt_same file x q u p5 n F5 W) as [_ SE]. rewrite Q in SE. destruct (xget n (pxref q)) as [e0 |] eqn:X0; [| destruct SE].
    destruct SE as (Y1 & Y2 & Y3 & _). destruct (IU n) as (c & Ic & <-); [exists e0; split; [exact X0 | congruence] |]. destruct (FD2 c Ic) as (o & Io & H). exists o. split; [exact Io |].
    symmetry. apply (NUM o c Io Ic H). }
  split; [| split; [exact IUp | split; [| split]]].
  - intros o I. destruct (GS o I) as [U G]. split; [| exact U]. destruct (G p' (kept_refl' _ _ W')) as (f & q' & Q & _). exists f, q'. exact Q.
  - intros k. rewrite T', T5. apply TR.
  - assert (LP : log (prd p5) = []). { rewrite <- LG. unfold exempt_encrypt in F5. destruct x; try congruence. destruct (xget n (pxref q)); try congruence. match type of F5 with Ok (_, ?z) = _ => assert (p5 = z) by congruence end. subst p5. reflexivity. }
    assert (QD : exists q1, d_dict (Resolve fuel E file) (ptrailer p5) (lit "Encrypt") p5 = Ok ((enc, true), q1) /\ log (prd q1) = []).
    { unfold d_dict, d_object, bind. rewrite dget_entry, T5, EX. rewrite EX in EE. inversion EE as [Q1 Q2 | o g I Io Is Q1 Q2]; [eexists; split; [reflexivity | exact LP] |].
      destruct (Resolve fuel E file (inum o) p5) as [[o1 q1]| |] eqn:RE.
      - unfold Resolve, restoring, bind, pseek, ret in RE. destruct fuel as [| f]; [discriminate RE |]. cbn [resolve zmem existsb] in RE. unfold bind in RE.
        destruct (get_object f E file (inum o) p5) as [[o2 q2]| |] eqn:G; try discriminate.
        destruct (CL o I (eq_sym Q2)) as (k & e5 & OA & X5 & Y1 & Y2 & Y3 & Y4). destruct (clear_silent E file k o p5 e5 OA W5 X5 Y1 Y2 Y3 Y4) as (f2 & q3 & G2 & L3).
        apply (get_object_mono _ (f + f2)) in G; [| lia]. apply (get_object_mono _ (f + f2)) in G2; [| lia]. assert (o2 = o /\ q2 = q3) as [-> ->] by (split; congruence).
        rewrite Io in RE. unfold ret in RE. assert (o1 = o) by congruence. subst o1. match type of RE with Ok (_, ?z) = _ => assert (q1 = z) by congruence end. subst q1.
        unfold ret. rewrite Io. eexists. split; [reflexivity |]. cbn [prd with_rd]. rewrite seek_log, L3. exact LP.
      - exfalso. unfold set_password, init_security, d_dict, d_object in Q'. unfold bind at 1 2 3 in Q'. rewrite dget_entry, T5, EX, <- Q1 in Q'. unfold bind in Q'. rewrite RE in Q'. discriminate Q'.
      - exfalso. unfold set_password, init_security, d_dict, d_object in Q'. unfold bind at 1 2 3 in Q'. rewrite dget_entry, T5, EX, <- Q1 in Q'. unfold bind in Q'. rewrite RE in Q'. discriminate Q'. }
    destruct QD as (q1 & QD & LQ). unfold set_password in Q'.
    rewrite (init_silent (Resolve fuel E file) E pw (ptrailer p5) [{| sc_entries := []; sc_trailer := ptrailer p5 |}] enc pr s p5 q1 None p'); [exact LQ | | exact QD | | exact SO | exact Q'].
    + intros k. cbn. destruct (entry (ptrailer p5) k); reflexivity.
    + destruct HD as [A1 A2 A3 A4 A5 A6 A7 A8 (ids & A9)]. split; try assumption. exists ids. cbn in A9 |- *. rewrite T5, TR. exact A9.
  - intros n e Q TY q2 K. destruct (IUp n) as (o & I & <-); [exists e; auto |]. destruct (proj2 (GS o I) q2 K) as (f & q' & G & LGq). eauto.
Qed.
Lemma sealed_loaded : forall E D C tr pr pw, (forall x, List.length (e_md5 E x) = 16%nat) -> sealed_document E D C tr pr pw ->
  forall ord, (forall m, Permutation (ord m) m) -> exists f0, forall fuel, (f0 <= fuel)%nat -> exists p,
    load fuel E ord (w_document C tr) pw (new_parser (w_document C tr)) = Ok (None, p) /\ reads (w_document C tr) p /\ offsets_ok (pxref p) /\
    (forall o, In o D -> fetched E (w_document C tr) p (inum o) o /\ SpecOut.in_use p (inum o)) /\
    (forall n, SpecOut.in_use p n -> exists o, In o D /\ inum o = n) /\
    (forall k, entry (ptrailer p) k = entry tr k) /\ log (prd p) = [] /\
    (forall n e, xget n (pxref p) = Some e -> x_type e = 1 -> forall q, kept (w_document C tr) p q -> exists f o q', GetObject f E (w_document C tr) n q = Ok (o, q') /\ log (prd q') = log (prd q)).
Proof. intros E D C tr pr pw M SD ord P. exact (proj1 (sealed_both E D C tr pr pw M SD ord P)). Qed.
Lemma sealed_locked : forall E D C tr pr pw pw', (forall x, List.length (e_md5 E x) = 16%nat) -> sealed_document E D C tr pr pw -> ~ user_password E pr pw' ->
  forall ord, (forall m, Permutation (ord m) m) -> exists f0, forall fuel, (f0 <= fuel)%nat -> exists p,
    load fuel E ord (w_document C tr) pw' (new_parser (w_document C tr)) = Ok (Some EncryptionPasswordError, p).
Proof. intros E D C tr pr pw pw' M SD NP ord P. exact (proj2 (sealed_both E D C tr pr pw M SD ord P) pw' NP). Qed.
Lemma sealed_numbers : forall E D C tr pr pw, sealed_document E D C tr pr pw -> NoDup (map inum D).
Proof.
  intros E D C tr pr pw [LD (enc & n0 & s & _ & _ & _ & _ & _ & _ & FD)]. pose proof (ld_numbers _ _ LD) as ND. replace (map inum D) with (map inum C); [exact ND |].
  clear ND LD. induction FD as [| a b l m H _ IH]; [reflexivity |]. cbn [map]. f_equal; [| exact IH]. destruct H as [[_ ->] | [_ H]]; [reflexivity |]. apply (sealed_nums _ _ _ _ _ H).
Qed.

(** ** What Load and Parse make of an encrypted document *)
Lemma sealed_read : forall E D C tr pr pw, (forall x, List.length (e_md5 E x) = 16%nat) -> sealed_document E D C tr pr pw ->
  forall ord, (forall m, Permutation (ord m) m) -> exists f0, forall fuel, (f0 <= fuel)%nat -> exists p,
    load fuel E ord (w_document C tr) pw (new_parser (w_document C tr)) = Ok (None, p) /\
    (forall o, In o D -> fetched E (w_document C tr) p (inum o) o) /\
    (forall n, ~ In n (map inum D) -> fetched E (w_document C tr) p n {| inum := n; igen := 0; ival := OKw (lit "null"); istream := None |}) /\
    (forall k, entry (ptrailer p) k = entry tr k) /\ errors_txt p = [].
Proof.
  intros E D C tr pr pw M SD ord P. destruct (sealed_loaded E D C tr pr pw M SD ord P) as (f0 & H). exists f0. intros fuel F. destruct (H fuel F) as (p & L & W & OF & FD & IU & TR & LG & _).
  exists p. split; [exact L |]. split; [intros o I; exact (proj1 (FD o I)) |]. split; [exact (held_null E _ D p IU) |]. split; [exact TR |]. unfold errors_txt. rewrite LG. reflexivity.
Qed.
(** All that Load returns is the state of [sealed_loaded]. *)
Lemma sealed_state : forall E D C tr pr pw, (forall x, List.length (e_md5 E x) = 16%nat) -> sealed_document E D C tr pr pw -> forall ord fuel p, (forall m, Permutation (ord m) m) ->
  load fuel E ord (w_document C tr) pw (new_parser (w_document C tr)) = Ok (None, p) -> offsets_ok (pxref p) /\ reads (w_document C tr) p /\
    (forall o, In o D -> fetched E (w_document C tr) p (inum o) o /\ SpecOut.in_use p (inum o)) /\
    (forall n, SpecOut.in_use p n -> exists o, In o D /\ inum o = n) /\ log (prd p) = [] /\
    (forall n e, xget n (pxref p) = Some e -> x_type e = 1 -> forall q, kept (w_document C tr) p q -> exists f o q', GetObject f E (w_document C tr) n q = Ok (o, q') /\ log (prd q') = log (prd q)).
Proof.
  intros E D C tr pr pw M SD ord fuel p P L. destruct (sealed_loaded E D C tr pr pw M SD ord P) as (f0 & H). destruct (H f0 (le_n _)) as (p' & L' & W & OF & FD & IU & TR & LG & GS).
  pose proof (load_det _ _ _ _ _ _ _ _ _ L L') as Q. assert (p' = p) by congruence. subst p'. auto 10.
Qed.
Lemma sealed_out : forall E D C tr pr OD fuel S pw ops, (forall x, List.length (e_md5 E x) = 16%nat) -> sealed_document E D C tr pr pw -> order_ok OD ->
  s_input S = Some (w_document C tr) -> parse E OD fuel S pw = (ops, Ok PNone) ->
  exists L ts, Permutation L D /\ Forall2 (written_object (e_fmt E)) L ts /\ content FRaw ops = List.concat (map (fun t => t ++ [x0a]) ts).
Proof.
  intros E D C tr pr OD fuel S pw ops M SD OK IN H. destruct (parse_raw _ _ _ _ _ _ OK H) as (file & p & IN' & L & _). assert (file = w_document C tr) by congruence. subst file.
  destruct (sealed_state E D C tr pr pw M SD _ _ _ (fun m => Permutation_sym (proj1 (proj2 OK) m)) L) as (OF & W & FD & IU & _).
  destruct (held_out E (w_document C tr) D p (fun o => o) OF (sealed_numbers _ _ _ _ _ _ SD) (fun o => eq_refl) FD IU OD fuel S pw ops OK IN L H) as (l & ts & PE & WR & CT).
  exists l, ts. rewrite map_id in PE. auto.
Qed.
Lemma sealed_errors : forall E D C tr pr OD fuel pw w p, (forall x, List.length (e_md5 E x) = 16%nat) -> sealed_document E D C tr pr pw -> order_ok OD ->
  parse_body E OD fuel (w_document C tr) pw (new_parser (w_document C tr)) = (w, Ok (None, p)) -> errors_txt p = [].
Proof.
  intros E D C tr pr OD fuel pw w p M SD OK H. destruct (body_ok _ _ _ _ _ _ _ _ _ H) as (p1 & L & X & _). destruct (X eq_refl) as (u & Y).
  destruct (sealed_state E D C tr pr pw M SD _ _ _ (fun m => Permutation_sym (proj1 (proj2 OK) m)) L) as (OF & W & FD & IU & LG & GS).
  unfold errors_txt. rewrite (all_hushed E OD fuel (w_document C tr) p1 OK GS) with (l := o_xref OD (pxref p1)) (w := w) (u := u); [rewrite LG; reflexivity | exact W | exact Y].
Qed.
Lemma sealed_return : forall E D C tr pr OD S pw, (forall x, List.length (e_md5 E x) = 16%nat) -> sealed_document E D C tr pr pw -> direct_kids D -> moderate_maps D -> order_ok OD -> e_verbose E <> None ->
  s_input S = Some (w_document C tr) -> (forall f, s_create S f = true) ->
  exists F, forall fuel, (F <= fuel)%nat -> exists ops, parse E OD fuel S pw = (ops, Ok PNone).
Proof.
  intros E D C tr pr OD S pw M SD DK MM OK V IN CR. destruct (sealed_loaded E D C tr pr pw M SD (o_objects OD) (fun m => Permutation_sym (proj1 (proj2 OK) m))) as (f0 & H).
  destruct (H f0 (le_n _)) as (p & L & W & OF & FD0 & IU & TR & LG & GS). pose proof (fun o I => proj1 (FD0 o I)) as FD. pose proof (held_null E (w_document C tr) D p IU) as FN.
  apply (parse_returns E OD S pw (w_document C tr) p f0); try assumption.
  - intros n. destruct (found_all E (w_document C tr) p D W OF (fun o => o) (fun o => or_introl eq_refl) FD FN n) as (o & T & _). eauto.
  - apply (follow_names E (w_document C tr) p D W OF (fun o => o) (fun o => or_introl eq_refl) FD FN DK).
  - apply (follow_maps E (w_document C tr) p D W OF (fun o => o) (fun o => or_introl eq_refl) FD FN MM).
Qed.
