(** CryptDocP.v -- encrypted documents. *)
From Verif Require Import Base BaseP Msg Reader ReaderP Num Lexer LexerP Obj ReadObj Env Getters Crypt Stream GetObj GetObjP Regex Xref Security Load SpecLex SpecLexP SpecObj SpecObjP
  RelP SpecRead SpecFetch SpecLook LookP SecurityP SpecStream StreamObjP SpecScan RegexP ScanP SpecXref XrefP SpecCrypt CryptP SpecSecurity CryptObjP LoadInvP ReadP RepairP FetchP SpecOut
  LoadMonoP SpecRecover RecoverP DocP SpecCryptDoc.
From Coq Require Import Strings.String Sorting.Permutation Sorting.Sorted.

Fixpoint sealed_opened (R : bytes -> bytes -> Prop) (f : bytes -> bytes) (RF : forall s c, R s c -> f c = s) o c (H : sealed R o c) {struct H} : map_strings f c = o.
Proof.
  destruct H as [s c H | l c H | d c H | q | n | k | n g]; try reflexivity; cbn [map_strings].
  - f_equal. apply RF. exact H.
  - f_equal. induction H as [| x y l c H _ IH]; [reflexivity |]. cbn [map]. f_equal; [apply (sealed_opened R f RF x y H) | exact IH].
  - f_equal. induction H as [| x y l c [H1 H2] _ IH]; [reflexivity |]. cbn [map]. rewrite (sealed_opened R f RF _ _ H2), <- H1. destruct x. cbn [fst snd]. f_equal. exact IH.
Qed.

(** The handler has the filters of the scheme. *)
Definition filter_for (key : bytes) (m : method) : cfilter := match m with Clear => CFNone | Rc4 => CFRC4 key | Aes => CFAES key end.
Definition agrees (key : bytes) (s : scheme) (h : sechandler) : Prop :=
  sh_string h = filter_for key (for_strings s) /\ sh_stream h = filter_for key (for_streams s) /\ sh_file h = filter_for key (for_files s) /\
  (forall k m, by_name s k m -> In (k, filter_for key m) (sh_filters h)) /\ NoDup (map fst (sh_filters h)).
Lemma shown : forall E key n g m plain data, (forall x, List.length (e_md5 E x) = 16%nat) -> m <> Aes -> hidden E key n g m plain data -> new_decryptor E (filter_for key m) n g data = Ok plain.
Proof. intros E key n g [| |] plain data M N H; [cbn in *; subst; reflexivity | apply rc4_decryptor; assumption | destruct (N eq_refl)]. Qed.
Lemma shown_some : forall E key n g m data, (forall x, List.length (e_md5 E x) = 16%nat) -> m <> Aes -> exists y, new_decryptor E (filter_for key m) n g data = Ok y.
Proof. intros E key n g [| |] data M N; [eexists; reflexivity | destruct (rc4_keeps_length E key n g data M) as (y & Q & _); eexists; exact Q | destruct (N eq_refl)]. Qed.
Lemma key_of_entry : forall k d, key_of k d (entry d k).
Proof.
  intros k d. induction d as [| [j y] d IH]; [intros [] |]. cbn [entry]. destruct (list_eq_dec Byte.byte_eq_dec k j) as [<- | NK]; [exists [], d; split; [reflexivity | intros []] |].
  destruct (entry d k) as [x |]; cbn [key_of] in *.
  - destruct IH as (d1 & d2 & -> & NI). exists ((j, y) :: d1), d2. split; [reflexivity |]. intros [Q | Q]; [apply NK; symmetry; exact Q | exact (NI Q)].
  - intros [Q | Q]; [apply NK; symmetry; exact Q | exact (IH Q)].
Qed.
Lemma default_for : forall h d, (forall x, key_of (lit "Type") d (Some x) -> direct x) ->
  (key_of (lit "Type") d (Some (OName (lit "EmbeddedFile"))) -> default_crypt h d (sh_file h)) /\
  (~ key_of (lit "Type") d (Some (OName (lit "EmbeddedFile"))) -> default_crypt h d (sh_stream h)) /\ exists c, default_crypt h d c.
Proof.
  intros h d TY. assert (A : ~ key_of (lit "Type") d (Some (OName (lit "EmbeddedFile"))) -> default_crypt h d (sh_stream h)).
  { intros N. apply (df_stream h d (entry d (lit "Type"))); [apply key_of_entry | intros o Q; apply TY; rewrite <- Q; apply key_of_entry | intros Q; apply N; rewrite <- Q; apply key_of_entry]. }
  split; [apply df_file |]. split; [exact A |].
  assert (C : entry d (lit "Type") = Some (OName (lit "EmbeddedFile")) \/ entry d (lit "Type") <> Some (OName (lit "EmbeddedFile"))).
  { destruct (entry d (lit "Type")) as [[| | w | | | |] |]; try (right; discriminate). destruct (list_eq_dec Byte.byte_eq_dec w (lit "EmbeddedFile")) as [-> | N]; [left; reflexivity | right; intros Q; injection Q as Q; exact (N Q)]. }
  destruct C as [C | C]; eexists; [apply df_file; rewrite <- C; apply key_of_entry |].
  apply (df_stream h d (entry d (lit "Type"))); [apply key_of_entry | intros o Q; apply TY; rewrite <- Q; apply key_of_entry | exact C].
Qed.
Lemma sealed_silent : forall E file key s i o p e, (forall x, List.length (e_md5 E x) = 16%nat) -> no_aes s -> sealed_at E file key s i o -> reads file p -> agrees key s (psh p) ->
  xget (inum o) (pxref p) = Some e -> x_off e = i -> x_gen e = igen o -> x_type e = 1 -> x_enc e = true ->
  exists f p', GetObject f E file (inum o) p = Ok (o, p') /\ log (prd p') = log (prd p).
Proof.
  intros E file key sc i o p e M (NS & NT & NF & NN) [O1 O2 O3 _ (h & r & Z0 & H & BH)] R (H1 & H2 & H3 & H4 & H5) X XO XG XT XE. subst i. pose proof (header_head _ _ _ H) as HH.
  destruct o as [n g v s]. cbn [igen] in XG. subst g. cbn [inum igen ival istream] in *.
  set (fs := fun s => match new_decryptor E (filter_for key (for_strings sc)) n (x_gen e) s with Ok y => y | _ => [] end).
  assert (DS : forall s, new_decryptor E (if x_enc e then sh_string (psh p) else CFNone) n (x_gen e) s = Ok (fs s)).
  { intros x. rewrite XE, H1. unfold fs. destruct (shown_some E key n (x_gen e) _ x M NS) as (y & ->). reflexivity. }
  assert (RF : forall s c, hidden E key n (x_gen e) (for_strings sc) s c -> fs c = s).
  { intros a b Q. unfold fs. rewrite (shown _ _ _ _ _ _ _ M NS Q). reflexivity. }
  inversion BH as [g1 t o c g2 r1 G1 SE T G2 ET MF ER L Q1 Q2 Q3 | g1 t d c g2 pre eol plain data eol' r1 fl pl m fl' pl' out G1 SE T G2 NE ET FO PO TY SM RD DC EB NO EA L Q1 Q2]; subst.
  - destruct (plain_object E file p n e h n (x_gen e) g1 t c g2 r1 fs) with (fuel := 0%nat) as (p' & Q & LG); try assumption.
    rewrite (sealed_opened _ _ RF _ _ SE) in Q. exists 1%nat, p'. split; [exact Q | exact LG].
  - assert (NM : m <> Aes /\ stream_crypt (psh p) d true fl pl (filter_for key m) fl' pl').
    { destruct (default_for (psh p) d TY) as (D1 & D2 & c0 & D3). inversion SM as [fl0 pl0 NC K | fl0 pl0 NC K | fl0 pl0 k m0 CN BN]; subst.
      - split; [exact NT |]. apply sc_default; [rewrite <- H2; apply D2; exact K | exact NC].
      - split; [exact NF |]. apply sc_default; [rewrite <- H3; apply D1; exact K | exact NC].
      - split; [intros ->; exact (NN _ BN) |]. eapply sc_crypt; [exact D3 | exact CN | left; apply H4; exact BN | exact H5]. }
    destruct NM as [NM SC].
    destruct (stream_object E file p n e h n (x_gen e) g1 t c d g2 pre eol data eol' r1 fs plain fl pl (filter_for key m) fl' pl' s) as (f0 & F); try assumption.
    { apply (sealed_opened _ _ RF _ _ SE). }
    { rewrite XE. exact SC. }
    { apply shown; assumption. }
    destruct (F f0 (le_n _)) as (p' & Q & LG). exists f0, p'. split; [exact Q | exact LG].
Qed.
Lemma fetch_sealed : forall E file key s i o p e, (forall x, List.length (e_md5 E x) = 16%nat) -> no_aes s -> sealed_at E file key s i o -> reads file p -> agrees key s (psh p) ->
  xget (inum o) (pxref p) = Some e -> x_off e = i -> x_gen e = igen o -> x_type e = 1 -> x_enc e = true -> fetched E file p (inum o) o.
Proof. intros E file key s i o p e A B C R AG X X1 X2 X3 X4. destruct (sealed_silent E file key s i o p e A B C R AG X X1 X2 X3 X4) as (f & p' & Q & _). exists f, p'. exact Q. Qed.
Lemma sealed_header_at : forall E file key s i o, sealed_at E file key s i o -> header_at file i (inum o).
Proof. intros E file key s i o [A B _ C (h & r & Z0 & H & _)]. split; [exact A |]. split; [exact B |]. split; [exact C |]. exists h, (igen o), r. split; assumption. Qed.

(** ** The handler *)
Lemma typed_direct : forall A E file p (is : obj -> A -> Prop) x a, is x a -> (forall n g, x <> ORef n g) -> typed E file p is (Some x) a.
Proof. intros A E file p is x a H D. exists x. split; [apply v_direct; exact D | exact H]. Qed.
Lemma typed_integer : forall E file p x n, integer x n -> typed E file p is_int x n.
Proof. intros E file p x n (q & -> & <-). apply typed_direct; [exists q; split; reflexivity | discriminate]. Qed.
Lemma handler_standard : forall E file p secs enc pr, (forall k o, newest_key k secs = Some o -> entry (ptrailer p) k = Some o) ->
  typed E file p is_dict (entry (ptrailer p) (lit "Encrypt")) enc -> handler secs enc pr -> standard E file p (ptrailer p) enc pr.
Proof.
  intros E file p secs enc pr TR TE [A1 A2 A3 A4 A5 A6 A7 A8 (ids & A9)]. split; [exact TE |]. split; [rewrite A1; apply typed_direct; [reflexivity | discriminate] |].
  split; [apply typed_integer; exact A2 |]. split; [intuition |]. split; [apply typed_integer; exact A3 |]. split; [intuition lia |]. split.
  { destruct A4 as [(V & _ & N) | (VR & l & I & B & N)].
    - exists 40. split; [left; auto |]. rewrite N. reflexivity.
    - exists l. split; [right; split; [intuition lia |] |].
      + destruct I as [I | [I ->]]; [left; apply typed_integer; exact I |]. right. split; [| reflexivity]. left. rewrite I. constructor.
      + assert (l / 8 = Z.of_nat (pr_n pr)) by (rewrite N, Z.mul_comm; apply Z.div_mul; lia). lia. }
  split; [rewrite A5; apply typed_direct; [reflexivity | discriminate] |]. split; [rewrite A6; apply typed_direct; [reflexivity | discriminate] |]. split; [apply typed_integer; exact A7 |]. split.
  { destruct A8 as [[-> ->] | [[-> ->] | [-> ->]]]; [right; split; [left; constructor | reflexivity] | left; apply typed_direct; [reflexivity | discriminate] | left; apply typed_direct; [reflexivity | discriminate]]. }
  exists (OStr (pr_id pr) :: ids). split; [rewrite (TR _ _ A9); apply typed_direct; [reflexivity | discriminate] | apply typed_direct; [reflexivity | discriminate]].
Qed.

(** The crypt filters are those of the scheme. *)
Lemma filters_unique : forall enc cf cf', crypt_filters enc cf -> crypt_filters enc cf' -> cf = cf'.
Proof. intros enc cf cf' [H | [H ->]] [H' | [H' ->]]; congruence. Qed.
Lemma filters_typed : forall E file p enc cf, crypt_filters enc cf -> typed_or E file p is_dict (entry enc (lit "CF")) [] cf.
Proof. intros E file p enc cf [H | [H ->]]; rewrite H; [left; apply typed_direct; [reflexivity | discriminate] | right; split; [left; constructor | reflexivity]]. Qed.
Lemma filters_typed_only : forall E file p enc cf cf', crypt_filters enc cf -> typed_or E file p is_dict (entry enc (lit "CF")) [] cf' -> cf' = cf.
Proof.
  intros E file p enc cf cf' [H | [H ->]] T; rewrite H in T.
  - assert (TC : typed E file p is_dict (Some (ODict cf)) cf) by (apply typed_direct; [reflexivity | discriminate]).
    destruct T as [T | [T _]]; [eapply typed_det; [apply is_dict_fun | exact T | exact TC] | exfalso; eapply typed_untyped; [exact TC | exact T]].
  - destruct T as [(v & V & _) | [_ ->]]; [inversion V | reflexivity].
Qed.
Lemma filter_defined : forall E file p pr pw enc n k m cf, n = Z.of_nat (pr_n pr) -> (pr_n pr <= 16)%nat -> crypt_filters enc cf -> filter_named enc n k m ->
  named E file p pr pw cf k (filter_for (file_key E pr pw (pr_n pr)) m).
Proof.
  intros E file p pr pw enc n k m cf -> NB CF (cf' & CF' & H). rewrite (filters_unique _ _ _ CF' CF) in H. destruct H as [(fd & I & ME & LN) | (-> & NI & ->)].
  - left. exists (ODict fd). split; [exact I |]. assert (TM : typed E file p is_name (entry fd (lit "CFM")) (match m with Clear => lit "None" | Rc4 => lit "V2" | Aes => lit "AESV2" end)).
    { destruct m; rewrite ME; (apply typed_direct; [reflexivity | discriminate]). }
    assert (TL : typed_or E file p is_int (entry fd (lit "Length")) (Z.of_nat (pr_n pr)) (Z.of_nat (pr_n pr))).
    { destruct LN as [LN | ->]; [left; apply typed_integer; exact LN | right; split; [left; constructor | reflexivity]]. }
    eapply cf_method; [exact TM | exact TL |]. destruct m; cbn [filter_for].
    + left. split; reflexivity.
    + right. left. split; [reflexivity |]. split; [lia |]. rewrite Nat2Z.id. reflexivity.
    + right. right. left. split; [reflexivity |]. split; [lia |]. rewrite Nat2Z.id. reflexivity.
  - right. split; [reflexivity |]. split; [reflexivity |]. intros o I. exfalso. apply NI. apply (in_map fst) in I. exact I.
Qed.
Lemma cf_defines_det : forall E file p pr pw o c c', cf_defines E file p pr pw o c -> cf_defines E file p pr pw o c' -> c = c'.
Proof.
  intros E file p pr pw o c c' H H'.
  inversion H as [o1 N | d U | d m l c1 TM TL CC]; subst; inversion H' as [o1' N' | d' U' | d' m' l' c1' TM' TL' CC']; subst; try reflexivity;
    try (exfalso; match goal with K : forall d, ?x <> ODict d |- _ => exact (K _ eq_refl) end); try (exfalso; eapply typed_untyped; eassumption).
  assert (m' = m) by (eapply typed_det; [apply is_name_fun | exact TM' | exact TM]). subst m'.
  assert (l' = l).
  { destruct TL as [TL | [TL ->]], TL' as [TL' | [TL' ->]]; [eapply typed_det; [apply is_int_fun | exact TL' | exact TL] | exfalso; eapply typed_untyped; [exact TL | exact TL'] | exfalso; eapply typed_untyped; [exact TL' | exact TL] | reflexivity]. }
  subst l'. destruct CC as [(-> & ->) | [(-> & _ & ->) | [(-> & _ & ->) | (N1 & N2 & N3 & ->)]]];
    destruct CC' as [(Q & ->) | [(Q & _ & ->) | [(Q & _ & ->) | (N1' & N2' & N3' & ->)]]]; try reflexivity; try discriminate Q; congruence.
Qed.
Lemma named_det : forall E file p pr pw cf k c c', NoDup (map fst cf) -> named E file p pr pw cf k c -> named E file p pr pw cf k c' -> c = c'.
Proof.
  intros E file p pr pw cf k c c' ND [(o & I & D) | (K & C & D)] [(o' & I' & D') | (K' & C' & D')]; [| | | congruence].
  - assert (o' = o).
    { clear - ND I I'. induction cf as [| [j y] cf IH]; [destruct I |]. cbn [map fst] in ND. inversion ND; subst. destruct I as [Q | I], I' as [Q' | I'].
      - congruence.
      - injection Q as -> ->. destruct H1. apply (in_map fst) in I'. exact I'.
      - injection Q' as -> ->. destruct H1. apply (in_map fst) in I. exact I.
      - apply IH; assumption. }
    subst o'. pose proof (cf_defines_det _ _ _ _ _ _ _ _ D D') as Q. congruence.
  - pose proof (cf_defines_det _ _ _ _ _ _ _ _ D (D' _ I)) as Q. discriminate Q.
  - pose proof (cf_defines_det _ _ _ _ _ _ _ _ D' (D _ I')) as Q. discriminate Q.
Qed.
Lemma handler_filters : forall E file p secs enc pr pw s, handler secs enc pr -> scheme_of enc pr s -> no_default enc s ->
  cf_good E file p pr pw enc /\ forall h, installed E file p pr pw enc h -> agrees (file_key E pr pw (pr_n pr)) s h.
Proof.
  intros E file p secs enc pr pw s [_ _ _ A4 _ _ _ _ _] SC (ND1 & ND2 & ND3).
  assert (C : pr_v pr <> 4 /\ pr_r pr <> 4 \/ pr_v pr = 4 /\ pr_r pr = 4 /\ (exists cf, crypt_filters enc cf /\ filters_well cf) /\ (pr_n pr <= 16)%nat).
  { destruct A4 as [(V & [R | R] & _) | ([[V R] | (V & R & O)] & l & _ & B & N)]; [left; lia | left; lia | left; lia | right]. split; [exact V |]. split; [exact R |]. split; [exact O | lia]. }
  unfold scheme_of in SC. destruct C as [[V R] | (V & R & (cf & CF & ND & GOOD) & NB)].
  - apply Z.eqb_neq in V. rewrite V in SC. destruct SC as (S1 & S2 & S3 & S4). split; [intros Q; destruct (R Q) |].
    intros h IN. unfold installed in IN. apply Z.eqb_neq in R. rewrite R in IN. subst h. unfold agrees. rewrite S1, S2, S3. cbn. split; [reflexivity |]. split; [reflexivity |]. split; [reflexivity |]. split.
    + intros k m B. destruct (S4 k m B) as [-> ->]. left. reflexivity.
    + constructor; [intros [] | constructor].
  - rewrite V in SC. change (4 =? 4) with true in SC. cbv iota zeta in SC. destruct SC as (S1 & S2 & S3 & S4).
    assert (VAL : forall key d m, kind_method enc (Z.of_nat (pr_n pr)) key d m -> exists x, value E file p (entry enc key) x).
    { intros key d m [(k & -> & _) | [-> _]]; eexists; first [apply v_direct; discriminate | apply v_none]. }
    split.
    + intros _. exists cf. split; [apply filters_typed; exact CF |]. split; [exact ND |]. split.
      * intros k o I. destruct (GOOD k o I) as (fd & m & -> & ME & LN).
        assert (TM : typed E file p is_name (entry fd (lit "CFM")) m) by (rewrite ME; apply typed_direct; [reflexivity | discriminate]).
        assert (TL : exists l, typed_or E file p is_int (entry fd (lit "Length")) (Z.of_nat (pr_n pr)) l /\ 0 <= l <= 16).
        { destruct LN as [(l & LN & B) | ->]; [exists l; split; [left; apply typed_integer; exact LN | exact B] | eexists; split; [right; split; [left; constructor | reflexivity] | lia]]. }
        destruct TL as (l & TL & B). destruct (list_eq_dec Byte.byte_eq_dec m (lit "None")) as [-> | N1]; [eexists; eapply cf_method; [exact TM | exact TL | left; split; reflexivity] |].
        destruct (list_eq_dec Byte.byte_eq_dec m (lit "V2")) as [-> | N2]; [eexists; eapply cf_method; [exact TM | exact TL | right; left; split; [reflexivity | split; [exact B | reflexivity]]] |].
        destruct (list_eq_dec Byte.byte_eq_dec m (lit "AESV2")) as [-> | N3]; [eexists; eapply cf_method; [exact TM | exact TL | right; right; left; split; [reflexivity | split; [exact B | reflexivity]]] |].
        eexists. eapply cf_method; [exact TM | exact TL | right; right; right; repeat split; assumption].
      * intros k [<- | [<- | [<- | []]]]; eapply VAL; eassumption.
    + intros h IN. unfold installed in IN. rewrite R in IN. change (4 =? 4) with true in IN. cbv iota in IN. destruct IN as (cf' & TC & SF & NF & H1 & H2 & H3).
      rewrite (filters_typed_only _ _ _ _ _ _ CF TC) in *. clear cf' TC.
      assert (NM : forall k m, filter_named enc (Z.of_nat (pr_n pr)) k m -> named E file p pr pw cf k (filter_for (file_key E pr pw (pr_n pr)) m)).
      { intros k m F. eapply filter_defined; [reflexivity | exact NB | exact CF | exact F]. }
      assert (CH : forall key d m c, kind_method enc (Z.of_nat (pr_n pr)) key d m -> (entry enc key = None -> m = Rc4) -> chosen E file p pr pw enc cf key c -> c = filter_for (file_key E pr pw (pr_n pr)) m).
      { intros key d m c [(k & EK & F) | [EK _]] DF [(n & TN & H) | [U ->]].
        - assert (n = k) by (rewrite EK in TN; destruct TN as (v & V' & Q); inversion V'; subst; unfold is_name in Q; congruence). subst n.
          destruct H as [H | [H _]]; [eapply named_det; [exact ND | exact H | apply NM; exact F] | destruct (H _ (NM _ _ F))].
        - exfalso. eapply typed_untyped; [| exact U]. rewrite EK. apply typed_direct; [reflexivity | discriminate].
        - exfalso. rewrite EK in TN. destruct TN as (v & V' & _). inversion V'.
        - rewrite (DF EK). reflexivity. }
      split; [eapply CH; [exact S1 | exact ND1 | exact H2] |]. split; [eapply CH; [exact S2 | exact ND2 | exact H1] |]. split; [eapply CH; [exact S3 | exact ND3 | exact H3] |].
      split; [| exact NF]. intros k m B. apply SF. apply NM. apply S4. exact B.
Qed.

Lemma exempt_table : forall enc p u p', exempt_encrypt enc p = Ok (u, p') -> forall m e, (forall g, enc <> ORef m g) -> xget m (pxref p) = Some e -> xget m (pxref p') = Some e.
Proof.
  intros enc p u p' F m e N X. unfold exempt_encrypt in F. destruct enc; try (assert (p' = p) by congruence; subst; exact X).
  destruct (xget n (pxref p)) as [e0 |]; [| assert (p' = p) by congruence; subst; exact X]. match type of F with Ok (_, ?q) = _ => assert (p' = q) by congruence end. subst.
  cbn [with_xref pxref]. rewrite xget_xset_other; [exact X |]. intros Q. subst. apply (N g). reflexivity.
Qed.
Lemma exempt_marks : forall m g p u p' e, exempt_encrypt (ORef m g) p = Ok (u, p') -> xget m (pxref p) = Some e ->
  exists e', xget m (pxref p') = Some e' /\ x_off e' = x_off e /\ x_gen e' = x_gen e /\ x_type e' = x_type e /\ x_enc e' = false.
Proof.
  intros m g p u p' e F X. unfold exempt_encrypt in F. rewrite X in F. match type of F with Ok (_, ?q) = _ => assert (p' = q) by congruence end. subst.
  cbn [with_xref pxref]. eexists. split; [unfold xget, xset; apply (mget_mset_same Z.eqb Zeqb_ok) | repeat split].
Qed.
(** Objects whose entries say that they are not encrypted. *)
Lemma clear_silent : forall E file i o p e, object_at E file i o -> reads file p -> xget (inum o) (pxref p) = Some e ->
  x_off e = i -> x_gen e = igen o -> x_type e = 1 -> x_enc e = false -> exists f p', GetObject f E file (inum o) p = Ok (o, p') /\ log (prd p') = log (prd p).
Proof.
  intros E file i o p e [O1 O2 O3 _ (h & r & Z0 & H & BH) _] R X XO XG XT XE. subst i. pose proof (header_head _ _ _ H) as HH.
  destruct o as [n g v s]. cbn [igen] in XG. subst g. cbn [inum igen ival istream] in *.
  assert (DS : forall s, new_decryptor E (if x_enc e then sh_string (psh p) else CFNone) n (x_gen e) s = Ok s) by (intros x; rewrite XE; reflexivity).
  inversion BH as [g1 t v' g2 r1 G1 T G2 ET MF ER L Q1 Q2 Q3 | g1 t d g2 pre eol data eol' r1 fl pl out G1 T G2 NE ET EB NO EA L FO PO TY CR DC Q1 Q2]; subst.
  - destruct (plain_object E file p n e h n (x_gen e) g1 t v g2 r1 (fun s => s)) with (fuel := 0%nat) as (p' & Q & LG); try assumption. rewrite map_strings_id in Q. exists 1%nat, p'. split; [exact Q | exact LG].
  - destruct (stream_object E file p n e h n (x_gen e) g1 t d d g2 pre eol data eol' r1 (fun s => s) data fl pl CFNone fl pl s) as (f0 & F); try assumption; try reflexivity.
    { apply map_strings_id. }
    { rewrite XE. apply sc_plain. }
    destruct (F f0 (le_n _)) as (p' & Q & LG). exists f0, p'. split; [exact Q | exact LG].
Qed.
Lemma fetch_clear : forall E file i o p e, object_at E file i o -> reads file p -> xget (inum o) (pxref p) = Some e ->
  x_off e = i -> x_gen e = igen o -> x_type e = 1 -> x_enc e = false -> fetched E file p (inum o) o.
Proof. intros E file i o p e OA R X X1 X2 X3 X4. destruct (clear_silent E file i o p e OA R X X1 X2 X3 X4) as (f & p' & Q & _). exists f, p'. exact Q. Qed.
Lemma decrypted : forall E fuel ord file pw r p off secs is enc pr n0 s, (2 <= fuel)%nat -> (forall m, Permutation (ord m) m) -> (forall x, List.length (e_md5 E x) = 16%nat) ->
  load fuel E ord file pw (new_parser file) = Ok (r, p) -> offsets_ok (pxref p) -> 
  last_start (last256 file) off -> off < 2 ^ 63 -> chain E file off [] secs ->
  only_at file is -> (forall k, In k is -> exists n, header_at file k n) ->
  encryption E file is secs enc n0 -> handler secs enc pr -> user_password E pr pw -> scheme_of enc pr s -> no_aes s -> no_default enc s ->
  r = None /\ (forall i o e, sealed_at E file (file_key E pr pw (pr_n pr)) s i o -> placed file is secs i (inum o) (igen o) e -> x_enc e = true -> n0 <> Some (inum o) -> fetched E file p (inum o) o) /\
  (forall i o e, object_at E file i o -> placed file is secs i (inum o) (igen o) e -> x_enc e = false \/ n0 = Some (inum o) -> fetched E file p (inum o) o).
Proof.
  intros E fuel ord file pw r p off secs is enc pr n0 s F P M H OO LS LO CH ON HA EN HD UP SO NA NDF.
  destruct (load_before E fuel ord file pw r p off secs F P H LS LO CH) as (q & l & os & W & SH & TR & SC & RC & TB & SP).
  assert (X : exists x, entry (ptrailer q) (lit "Encrypt") = Some x /\ (forall m g, x = ORef m g -> n0 = Some m)).
  { destruct EN as [EN | i o e g EN _ _ _]; (eexists; split; [apply TR; exact EN |]); [discriminate | intros m g' Q; injection Q as <- _; reflexivity]. }
  destruct X as (x & EX & XN). rewrite <- dget_entry in EX. rewrite EX in SP. unfold bind in SP. destruct (exempt_encrypt x q) as [[u p5]| |] eqn:F5; try discriminate.
  destruct (exempt_same file x q u p5 0 F5 W) as [W5 _]. destruct (exempt_trailer _ _ _ _ F5) as [T5 S5]. destruct (set_password_sparing _ _ _ _ _ _ _ W5 SP) as (_ & Xp & Tp). rewrite Xp in OO.
  assert (ST : standard E file p5 (ptrailer p5) enc pr).
  { apply (handler_standard E file p5 secs enc pr); [intros k o Q; rewrite T5; apply TR; exact Q | | exact HD]. rewrite T5. destruct EN as [EN | i o e g EN OA PL IV].
    - rewrite (TR _ _ EN). apply typed_direct; [reflexivity | discriminate].
    - rewrite (TR _ _ EN). destruct (position _ _ _ _ _ _ _ _ _ _ ON HA SC RC TB (object_header_at _ _ _ _ OA) PL) as (e' & X & X1 & X2 & X3 & _).
      destruct (exempt_same file x q u p5 (inum o) F5 W) as [_ SE]. rewrite X in SE. destruct (xget (inum o) (pxref p5)) as [e5 |] eqn:X5; [| destruct SE]. destruct SE as (Y1 & Y2 & Y3 & _).
      assert (FE : fetched E file p5 (inum o) o) by (eapply fetch_object; [exact OA | exact W5 | rewrite S5; exact SH | exact X5 | congruence | congruence | congruence]).
      destruct (resolve_first_value E file p5 (inum o) [] (inum o) o W5 OO (hop_here _ _ _ _) FE) as (f0 & RS); [rewrite IV; discriminate |].
      destruct (RS f0 (le_n _)) as (p6 & Q6). exists (ival o). split; [| exact IV]. apply v_ref. exists f0, p6. exact Q6. }
  destruct (handler_filters E file p5 secs enc pr pw s HD SO NDF) as [CG HR].
  destruct (password_accepted E file p5 pw enc pr W5 OO M ST UP CG) as (h & f0 & IN & ACC).
  destruct (ACC (Nat.max f0 fuel) (Nat.le_max_l _ _)) as (p' & Q' & W' & X' & T' & S').
  assert (QE : set_password (Nat.max f0 fuel) E file pw p5 = Ok (r, p)).
  { unfold set_password in *. destruct (init_security_mono fuel (Nat.max f0 fuel) (Nat.le_max_r _ _) E file pw (ptrailer p5) p5) as [Q | Q]; congruence. }
  assert (r = None /\ p = p') as [-> ->] by (split; congruence). split; [reflexivity |]. split.
  2: { intros i o e OA PL XC. destruct (position _ _ _ _ _ _ _ _ _ _ ON HA SC RC TB (object_header_at _ _ _ _ OA) PL) as (e' & X & X1 & X2 & X3 & X4).
    assert (D : (exists g, x = ORef (inum o) g) \/ forall g, x <> ORef (inum o) g).
    { destruct x; try (right; discriminate). destruct (Z.eq_dec n (inum o)) as [-> | N]; [left; eexists; reflexivity | right; congruence]. }
    destruct D as [(g & ->) | D].
    - destruct (exempt_marks _ _ _ _ _ _ F5 X) as (e5 & Y & Y1 & Y2 & Y3 & Y4). eapply (fetch_clear E file i o p' e5); [exact OA | exact W' | rewrite X'; exact Y | congruence | congruence | congruence | exact Y4].
    - destruct XC as [XC | XC].
      + eapply (fetch_clear E file i o p' e'); [exact OA | exact W' | rewrite X'; eapply exempt_table; [exact F5 | exact D | exact X] | exact X1 | exact X2 | exact X3 | congruence].
      + exfalso. destruct EN as [EN | i' o' e0 g EN _ _ _]; [discriminate |]. injection XC as XC. apply TR in EN. rewrite dget_entry in EX. apply (D g). congruence. }
  intros i o e SA PL XE ND. destruct (position _ _ _ _ _ _ _ _ _ _ ON HA SC RC TB (sealed_header_at _ _ _ _ _ _ SA) PL) as (e' & X & X1 & X2 & X3 & X4).
  eapply (fetch_sealed E file _ s i o p' e'); [exact M | exact NA | exact SA | exact W' | rewrite S'; exact (HR h IN) | | exact X1 | exact X2 | exact X3 | congruence].
  rewrite X'. eapply exempt_table; [exact F5 | | exact X]. intros g Q. apply ND. eapply XN. exact Q.
Qed.
