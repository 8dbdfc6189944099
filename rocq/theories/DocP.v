(** DocP.v -- documents with cross-reference sections. *)
From Verif Require Import Base BaseP Msg Reader ReaderP Num Lexer LexerP Obj ReadObj Env Getters Crypt GetObj GetObjP Regex Xref Security Load SpecLex SpecLexP SpecObj SpecObjP
  RelP SpecRead SpecFetch SpecLook LookP SecurityP SpecStream SpecScan RegexP ScanP SpecXref XrefP CryptObjP LoadInvP ReadP RepairP FetchP SpecOut LoadMonoP SpecRecover RecoverP.
From Coq Require Import Strings.String Sorting.Permutation Sorting.Sorted.

(** ** Sections leave the security handler alone *)
Definition holds {A} (file : bytes) (m : M A) : Prop := forall p a p', reads file p -> m p = Ok (a, p') -> reads file p' /\ psh p' = psh p.
Section Holds.
  Variable file : bytes.
  Lemma holds_same : forall A (m : M A), safe file m -> (forall p a p', m p = Ok (a, p') -> psh p' = psh p) -> holds file m.
  Proof. intros A m S X p a p' W R. split; [eapply S; eassumption | eapply X; exact R]. Qed.
  Lemma holds_still : forall A (m : M A), still file m -> holds file m.
  Proof. intros A m H p a p' W R. destruct (H _ _ _ W R) as (X & _ & _ & _ & _ & Y). auto. Qed.
  Lemma holds_bind : forall A B (m : M A) (k : A -> M B), holds file m -> (forall a, holds file (k a)) -> holds file (bind m k).
  Proof.
    intros A B m k Hm Hk p b p' W H. unfold bind in H. destruct (m p) as [[a p1]| |] eqn:X; try discriminate.
    destruct (Hm _ _ _ W X) as [W1 Q1]. destruct (Hk a _ _ _ W1 H) as [W2 Q2]. split; [exact W2 | congruence].
  Qed.
  Lemma holds_ret : forall A (x : A), holds file (ret x).
  Proof. intros A x p a p' W H. unfold ret in H. assert (p' = p) by congruence. subst. auto. Qed.
  Lemma holds_pseek : forall off, holds file (pseek file off).
  Proof. intros off. apply holds_same; [apply safe_pseek |]. intros p a p' H. unfold pseek in H. assert (p' = with_rd (seek file off (prd p)) p) by congruence. subst. reflexivity. Qed.
  Lemma holds_onrd : forall A (f : rd -> A * rd), rel1 (keeps file) f -> holds file (onrd f).
  Proof.
    intros A f Hf. apply holds_same; [apply safe_onrd; exact Hf |]. intros p a p' H. unfold onrd in H.
    destruct (f (prd p)) as [b s]. assert (p' = with_rd s p) by congruence. subst. reflexivity.
  Qed.
  Lemma holds_onrdr : forall A (f : rd -> res (A * rd)), relr (keeps file) f -> holds file (onrdr f).
  Proof.
    intros A f Hf. apply holds_same; [apply safe_onrdr; exact Hf |]. intros p a p' H. unfold onrdr in H.
    destruct (f (prd p)) as [[b s]| |]; try discriminate. assert (p' = with_rd s p) by congruence. subst. reflexivity.
  Qed.
  Lemma holds_get_object : forall fuel E n, holds file (get_object fuel E file n).
  Proof. intros fuel E n p a p' W H. split; [eapply safe_get_object; eassumption |]. destruct (get_object_keeps _ _ _ _ _ _ _ W H) as [_ [_ _ X]]. symmetry. exact X. Qed.
  Lemma holds_put : forall n e, holds file (put_xref n e).
  Proof. intros n e p a p' W X. unfold put_xref in X. assert (p' = with_xref (xset n e (pxref p)) p) by congruence. subst. split; [exact W | reflexivity]. Qed.
  Lemma holds_merge_trailer : forall t, holds file (merge_trailer t).
  Proof. intros t p a p' W X. unfold merge_trailer in X. assert (p' = with_trailer (mmerge bseq (ptrailer p) t) p) by congruence. subst. split; [exact W | reflexivity]. Qed.
  Lemma holds_merge_xrefs : forall x, holds file (merge_xrefs x).
  Proof. intros t p a p' W X. unfold merge_xrefs in X. assert (p' = with_xref (mmerge Z.eqb (pxref p) t) p) by congruence. subst. split; [exact W | reflexivity]. Qed.

  Section Rs.
    Variable rs : Z -> M iobj.
    Hypothesis H : forall n, still file (rs n).
    Lemma holds_sections : forall k fuel i index w0 w1 w2 data, holds file (stream_sections k fuel rs i index w0 w1 w2 data).
    Proof.
      intros k. induction k as [| k IH]; intros fuel i index w0 w1 w2 data; cbn [stream_sections]; [apply holds_ret |].
      destruct (i <? _); [| apply holds_ret]. apply holds_bind; [apply holds_still, a_int_still; exact H |]. intros [st ok]. destruct ok; [| apply holds_ret].
      apply holds_bind; [apply holds_still, a_int_still; exact H |]. intros [len ok]. destruct ok; [| apply holds_ret].
      intros p a p' W X. destruct (stream_entries fuel 0 len st w0 w1 w2 data (pxref p)) as [[[x d] [|]]| |] eqn:Q; try discriminate.
      - apply (IH _ _ _ _ _ _ _ (with_xref x p) _ _ W X).
      - assert (p' = with_xref x p) by congruence. subst. split; [exact W | reflexivity].
    Qed.
    Lemma holds_stream_entries : forall fuel xoff o t, holds file (load_stream_entries fuel rs xoff o t).
    Proof.
      intros fuel xoff o t. unfold load_stream_entries.
      apply holds_bind; [apply holds_merge_trailer |]. intros _.
      apply holds_bind; [apply holds_still, d_array_still; exact H |]. intros [index ok].
      apply holds_bind.
      { destruct ok; [apply holds_ret |]. apply holds_bind; [apply holds_still, d_number_still; exact H |]. intros [size ok]. apply holds_ret. }
      intros [ix |]; [| apply holds_ret].
      apply holds_bind; [apply holds_still, d_array_still; exact H |]. intros [w ok1]. destruct ok1; [| apply holds_ret].
      apply holds_bind; [apply holds_still, a_int_still; exact H |]. intros [w0 ok0]. destruct ok0; [| apply holds_ret].
      apply holds_bind; [apply holds_still, a_int_still; exact H |]. intros [w1 ok1]. destruct ok1; [| apply holds_ret].
      apply holds_bind; [apply holds_still, a_int_still; exact H |]. intros [w2 ok2]. destruct ok2; [| apply holds_ret].
      apply holds_bind; [apply holds_sections |]. intros [|]; [apply holds_put | apply holds_ret].
    Qed.
  End Rs.

  Let KR := keeps_respects file.
  Lemma holds_load_xref : forall fuel E offset seen, holds file (load_xref fuel E file offset seen).
  Proof.
    intros fuel E. induction fuel as [| f IH]; intros offset seen; [intros p a p' W X; discriminate |]. cbn [load_xref].
    destruct (zmem offset seen); [apply holds_ret |]. cbv zeta.
    apply holds_bind; [apply holds_pseek |]. intros _.
    apply holds_bind; [apply holds_onrd, (read_keyword_rel file); exact KR |]. intros kw.
    destruct (bseq kw (lit "xref")).
    - apply holds_bind; [apply holds_onrd, (read_xref_table_rel file); exact KR |]. intros x.
      apply holds_bind; [apply holds_onrd, (read_keyword_rel file); exact KR |]. intros _.
      apply holds_bind; [apply holds_onrdr, (ReadDictionary_rel file); exact KR |]. intros t.
      apply holds_bind; [apply holds_still, d_int_still, Resolve_still |]. intros [prev ok].
      apply holds_bind; [destruct ok; [apply IH | apply holds_ret] |]. intros _.
      apply holds_bind; [apply holds_merge_trailer |]. intros _. apply holds_merge_xrefs.
    - apply holds_bind; [apply holds_pseek |]. intros _.
      apply holds_bind; [apply holds_onrd, (read_object_header_rel file); exact KR |]. intros [[n g] ok]. destruct ok; [| apply holds_ret].
      apply holds_bind; [apply holds_put |]. intros _.
      intros p a p' W X. revert a p' X.
      assert (G : forall xoff, holds file (bind (get_object f E file n) (fun o => match ival o with
        | ODict t => bind (d_int (Resolve f E file) t (lit "Prev")) (fun '(prev, ok) =>
            bind (if ok : bool then load_xref f E file prev (offset :: seen) else ret tt) (fun _ => load_stream_entries f (Resolve f E file) xoff o t))
        | _ => ret tt end))).
      { intros xoff. apply holds_bind; [apply holds_get_object |]. intros o. destruct (ival o); try apply holds_ret.
        apply holds_bind; [apply holds_still, d_int_still, Resolve_still |]. intros [prev ok].
        apply holds_bind; [destruct ok; [apply IH | apply holds_ret] |]. intros _. apply holds_stream_entries, Resolve_still. }
      intros a p' X. eapply (G (pos (prd p))); [exact W | exact X].
  Qed.
  Lemma holds_load_all : forall fuel E offs, holds file (load_all fuel E file offs).
  Proof.
    intros fuel E offs. induction offs as [| o offs IH]; cbn [load_all]; [apply holds_ret |].
    apply holds_bind; [apply holds_load_xref |]. intros _. exact IH.
  Qed.
End Holds.

Lemma load_all_app : forall fuel E file a b p, load_all fuel E file (a ++ b) p = bind (load_all fuel E file a) (fun _ => load_all fuel E file b) p.
Proof.
  intros fuel E file a b. induction a as [| o a IH]; intros p; [reflexivity |]. cbn [app load_all]. unfold bind in *. destruct (load_xref fuel E file o [] p) as [[u p1]| |]; [apply IH | reflexivity | reflexivity].
Qed.

(** Where the table has an object in the end. *)
Definition table_of (secs : list section) (os x : xmap) : Prop := forall n e, newest n secs = Some e -> match xget n os with
  | None => xget n x = Some e
  | Some s => exists e', xget n x = Some e' /\ same_apart_from_offset e e' /\ (x_off e' = x_off e \/ x_off e' = x_off s)
  end.
Lemma position : forall file is l os x secs i n g e, only_at file is -> (forall k, In k is -> exists n, header_at file k n) -> scan obj_marker file 0 l -> records file l os ->
  table_of secs os x -> header_at file i n -> placed file is secs i n g e ->
  exists e', xget n x = Some e' /\ x_off e' = i /\ x_gen e' = g /\ x_type e' = 1 /\ x_enc e' = x_enc e.
Proof.
  intros file is l os x secs i n g e ON HA SC RC TB HD (I & LAST & Ne & T & O & G). pose proof (scan_headers file is l HA ON SC) as SO.
  specialize (TB _ _ Ne). specialize (RC n). destruct (xget n os) as [s |].
  - destruct TB as (e' & X & (SG & ST & SE & _) & OO). exists e'. split; [exact X |]. split; [| split; [congruence | split; [congruence | exact SE]]]. destruct OO as [OO | OO]; [congruence |]. rewrite OO.
    destruct RC as (l1 & k & j & l2 & QL & ME & LS2). rewrite (me_off _ _ _ _ ME).
    assert (Ik : In k is) by (apply SO; rewrite QL, map_app; apply in_or_app; right; left; reflexivity).
    (* the last marker for the number is at i *)
    assert (KN : header_at file k n).
    { destruct (HA k Ik) as (n' & B1 & B2 & B3 & h & g' & r & Z0 & Hd). destruct (me_num _ _ _ _ ME) as (m & NA & Q).
      pose proof (number_at_det _ _ _ _ NA (header_number_at _ _ _ _ _ _ Z0 Hd)) as QQ. rewrite (wrap_small n') in QQ by exact B2. assert (QN : n' = n) by congruence. clear QQ. rewrite QN in B2, Hd. split; [exact B1 |]. split; [exact B2 |]. split; [exact B3 |]. exists h, g', r. auto. }
    pose proof (LAST k Ik KN) as LE. destruct (Z.eq_dec k i) as [E1 | NEq]; [exact E1 |]. exfalso.
    assert (I2 : In i (map fst l)) by (apply SO; exact I). apply in_map_iff in I2. destruct I2 as ([i2 j2] & Q & I2). cbn in Q. subst i2.
    destruct (scan_sorted _ _ _ _ marker_len SC) as [SS _]. rewrite QL in I2, SS. destruct HD as (B1 & B2 & B3 & h & g' & r & Z0 & Hd).
    apply in_app_or in I2. destruct I2 as [I2 | [I2 | I2]].
    + rewrite map_app in SS. cbn [map fst] in SS. assert (i < k); [| lia]. clear - SS I2. induction l1 as [| [a b] l1 IH]; [destruct I2 |]. cbn [map app fst] in SS. inversion SS as [| x y S1 F1]; subst.
      destruct I2 as [I2 | I2]; [| exact (IH I2 S1)]. assert (a = i) by congruence. subst a. rewrite Forall_forall in F1. apply F1. apply in_or_app. right. left. reflexivity.
    + congruence.
    + apply (LS2 i j2 n I2); [eapply header_number_at; [exact Z0 | exact Hd] |]. apply wrap_small. exact B2.
  - exists e. repeat split; assumption.
Qed.

(** The table before encryption is looked at: what the newest sections have, at
    offsets from them or from the scan. *)
Lemma load_before : forall E fuel ord file pw r p off secs, (2 <= fuel)%nat -> (forall m, Permutation (ord m) m) ->
  load fuel E ord file pw (new_parser file) = Ok (r, p) -> last_start (last256 file) off -> off < 2 ^ 63 -> chain E file off [] secs ->
  exists q l os, reads file q /\ psh q = new_sechandler /\ (forall k o, newest_key k secs = Some o -> entry (ptrailer q) k = Some o) /\
    scan obj_marker file 0 l /\ records file l os /\ table_of secs os (pxref q) /\
    match dget (lit "Encrypt") (ptrailer q) with
    | Some encrypt => bind (exempt_encrypt encrypt) (fun _ => set_password fuel E file pw) q = Ok (r, p)
    | None => r = None /\ p = q
    end.
Proof.
  intros E fuel ord file pw r p off secs F P H LS LO CH. unfold load in H. unfold bind at 1 in H.
  destruct (find_objects_records E file (new_parser file) fuel (open_wf file) eq_refl F) as (l & os & p1 & F1 & SC & RC & W1 & X1 & T1 & S1 & ND). rewrite F1 in H. unfold bind at 1 in H.
  destruct (pseek file (zlen file) p1) as [[u p2]| |] eqn:F2; try discriminate. unfold bind at 1 in H.
  destruct (holds_pseek file _ _ _ _ W1 F2) as [W2 S2].
  destruct (load_all fuel E file _ p2) as [[[] p3]| |] eqn:F3; try discriminate. unfold bind at 1 in H.
  destruct (holds_load_all file _ _ _ _ _ _ W2 F3) as [W3 S3].
  destruct (repair_any_order file (ord os) os p3 W3 ND (P os)) as (p4 & F4 & W4 & T4 & S4 & C4 & _). rewrite F4 in H.
  assert (XQ : (forall n e, newest n secs = Some e -> xget n (pxref p3) = Some e) /\ (forall k o, newest_key k secs = Some o -> entry (ptrailer p3) k = Some o)).
  { unfold xref_offsets in F3. assert (SO : start_xref_offset file = Some off) by (apply start_offset; auto). rewrite SO, load_all_app in F3. unfold bind in F3.
    destruct (load_all fuel E file (sortZ _) p2) as [[u' q]| |] eqn:F5; try discriminate. destruct (holds_load_all file _ _ _ _ _ _ W2 F5) as [W5 S5].
    cbn [load_all] in F3. unfold bind in F3. destruct (load_xref fuel E file off [] q) as [[u6 q6]| |] eqn:F6; try discriminate. assert (q6 = p3) by (unfold ret in F3; congruence). subst q6.
    destruct (chain_loaded E file (psh q) off [] secs CH) as (F0 & CL). destruct (CL (Nat.max F0 fuel) q (Nat.le_max_l _ _) W5 eq_refl) as (q7 & F7 & _ & _ & XG & TG).
    destruct (load_xref_mono fuel (Nat.max F0 fuel) (Nat.le_max_r _ _) E file off [] q) as [Q | Q]; [congruence |]. assert (q7 = p3) by congruence. subst q7.
    split; [intros n e Ne; rewrite XG, Ne; reflexivity | intros k o Ke; rewrite TG, Ke; reflexivity]. }
  destruct XQ as [XQ TQ]. exists p4, l, os. split; [exact W4 |]. split; [rewrite S4, S3, S2, S1; reflexivity |].
  split; [intros k o Ke; rewrite T4; apply TQ; exact Ke |]. split; [exact SC |]. split; [exact RC |]. split.
  - intros n e Ne. specialize (C4 n). rewrite (XQ n e Ne) in C4. destruct (xget n os); exact C4.
  - destruct (dget (lit "Encrypt") (ptrailer p4)); [exact H | split; congruence].
Qed.
Lemma exempt_trailer : forall enc p u p', exempt_encrypt enc p = Ok (u, p') -> ptrailer p' = ptrailer p /\ psh p' = psh p.
Proof.
  intros enc p u p' F5. unfold exempt_encrypt in F5. destruct enc; try (assert (p' = p) by congruence; subst; split; reflexivity).
  destruct (xget n (pxref p)); [| assert (p' = p) by congruence; subst; split; reflexivity]. match type of F5 with Ok (_, ?q) = _ => assert (p' = q) by congruence end. subst. split; reflexivity.
Qed.

(** Objects are read as the newest sections say. *)
Lemma sections_read : forall E fuel ord file pw p off secs is, (2 <= fuel)%nat -> (forall m, Permutation (ord m) m) ->
  load fuel E ord file pw (new_parser file) = Ok (None, p) -> entry (ptrailer p) (lit "Encrypt") = None ->
  last_start (last256 file) off -> off < 2 ^ 63 -> chain E file off [] secs ->
  only_at file is -> (forall k, In k is -> exists n, header_at file k n) ->
  (forall i o e, object_at E file i o -> placed file is secs i (inum o) (igen o) e -> fetched E file p (inum o) o) /\
  (forall n e, newest n secs = Some e -> x_type e <> 1 -> fetched E file p n {| inum := n; igen := 0; ival := OKw (lit "null"); istream := None |}) /\
  (forall k o, newest_key k secs = Some o -> entry (ptrailer p) k = Some o).
Proof.
  intros E fuel ord file pw p off secs is F P H NE LS LO CH ON HA.
  destruct (load_before E fuel ord file pw None p off secs F P H LS LO CH) as (q & l & os & W & SH & TR & SC & RC & TB & EN).
  assert (Q : p = q).
  { destruct (dget (lit "Encrypt") (ptrailer q)) as [enc |] eqn:DE; [| apply EN]. exfalso. unfold bind in EN.
    destruct (exempt_encrypt enc q) as [[u5 p5]| |] eqn:F5; try discriminate.
    destruct (exempt_same file enc q u5 p5 0 F5 W) as [W5 _]. destruct (set_password_sparing _ _ _ _ _ _ _ W5 EN) as (_ & _ & Tp).
    rewrite Tp, (proj1 (exempt_trailer _ _ _ _ F5)) in NE. rewrite dget_entry in DE. congruence. }
  subst q. split; [| split; [| exact TR]].
  - intros i o e OA PL. destruct (position _ _ _ _ _ _ _ _ _ _ ON HA SC RC TB (object_header_at _ _ _ _ OA) PL) as (e' & X & X1 & X2 & X3 & _). eapply fetch_object; eassumption.
  - intros n e Ne T. specialize (TB _ _ Ne). assert (X : exists e', xget n (pxref p) = Some e' /\ x_type e' <> 1).
    { destruct (xget n os) as [s |]; [destruct TB as (e' & X & (_ & ST & _) & _); exists e'; split; [exact X | congruence] | exists e; auto]. }
    destruct X as (e' & X & XT). exists 1%nat, p. apply (get_object_absent 0). congruence.
Qed.
