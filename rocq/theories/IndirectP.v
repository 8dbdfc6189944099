(** IndirectP.v -- streams whose dictionary has references (C123). *)
From Verif Require Import Base BaseP Msg Reader ReaderP Num Lexer Obj ReadObj Bits Filters Env Getters Crypt Stream GetObj
  Plain LexerP ReadObjP SpecLex SpecLexP SpecObj SpecRead ReadP RelP GetObjP SpecFetch FetchP TermP SpecLook LookP SpecStream StreamP StreamObjP SpecIndirect.
From Coq Require Import Strings.String.
Local Open Scope m_scope.

(** ** The reader starts afresh behind a reference *)
Section Fresh.
  Variable file : bytes.
  Definition fresh (z : Z) (p : pst) : Prop := near file z (prd p).
  Definition freshens {A} (m : M A) : Prop := forall p a p', reads file p -> m p = Ok (a, p') -> p' = p \/ fresh (pos (prd p)) p'.
  Definition refreshes {A} (m : M A) : Prop := forall p a p', reads file p -> m p = Ok (a, p') -> fresh (pos (prd p)) p'.

  Lemma refreshes_freshens : forall A (m : M A), refreshes m -> freshens m.
  Proof. intros A m H p a p' W Q. right. exact (H p a p' W Q). Qed.
  Lemma ret_freshens : forall A (a : A), freshens (ret a).
  Proof. intros A a p b p' W H. left. unfold ret in H. congruence. Qed.
  Lemma bind_freshens : forall A B (m : M A) (k : A -> M B), still file m -> freshens m -> (forall a, freshens (k a)) -> freshens (bind m k).
  Proof.
    intros A B m k S H K p b p' W Q. unfold bind in Q. destruct (m p) as [[a p1] | |] eqn:R; try discriminate. pose proof (S _ _ _ W R) as (W1 & P1 & _).
    destruct (K a p1 b p' W1 Q) as [-> | N]; [exact (H p a p1 W R) |]. right. rewrite P1 in N. exact N.
  Qed.
  Lemma bind_refreshes : forall A B (m : M A) (k : A -> M B), still file m -> refreshes m -> (forall a, freshens (k a)) -> refreshes (bind m k).
  Proof.
    intros A B m k S H K p b p' W Q. unfold bind in Q. destruct (m p) as [[a p1] | |] eqn:R; try discriminate. pose proof (S _ _ _ W R) as (W1 & P1 & _).
    destruct (K a p1 b p' W1 Q) as [-> | N]; [exact (H p a p1 W R) |]. rewrite P1 in N. exact N.
  Qed.
  Lemma restoring_refreshes : forall m, refreshes (restoring file m).
  Proof.
    intros m p o p' W H. unfold restoring, bind in H. destruct (m p) as [[o1 p1] | |]; try discriminate. unfold pseek, ret in H. cbn in H.
    injection H as _ <-. unfold fresh. cbn [prd with_rd]. apply near_seek. apply (wf_pos file). exact W.
  Qed.
  Variable rs : Z -> M iobj.
  Hypothesis RS : forall n, still file (rs n).
  Hypothesis RR : forall n, refreshes (rs n).
  Lemma d_object_freshens : forall d k, freshens (d_object rs d k).
  Proof.
    intros d k. unfold d_object. destruct (dget k d) as [[] |]; try apply ret_freshens.
    apply bind_freshens; [apply RS | apply refreshes_freshens, RR | intros; apply ret_freshens].
  Qed.
  Lemma a_object_freshens : forall d k, freshens (a_object rs d k).
  Proof.
    intros d k. unfold a_object. destruct (zget d k) as [[] |]; try apply ret_freshens.
    apply bind_freshens; [apply RS | apply refreshes_freshens, RR | intros; apply ret_freshens].
  Qed.
  Lemma d_object_refreshes : forall d k, refers d k -> refreshes (d_object rs d k).
  Proof.
    intros d k (n & g & H). unfold d_object. rewrite dget_entry, H.
    apply bind_refreshes; [apply RS | apply RR | intros; apply ret_freshens].
  Qed.
  Ltac stl := first [apply d_object_still; exact RS | apply a_object_still; exact RS | apply bind_still; [| intros; apply ret_still]; first [apply d_object_still; exact RS | apply a_object_still; exact RS]].
  Lemma d_array_freshens : forall d k, freshens (d_array rs d k).
  Proof. intros d k. unfold d_array. apply bind_freshens; [stl | apply d_object_freshens | intros; apply ret_freshens]. Qed.
  Lemma d_name_freshens : forall d k, freshens (d_name rs d k).
  Proof. intros d k. unfold d_name. apply bind_freshens; [stl | apply d_object_freshens | intros; apply ret_freshens]. Qed.
  Lemma d_dict_freshens : forall d k, freshens (d_dict rs d k).
  Proof. intros d k. unfold d_dict. apply bind_freshens; [stl | apply d_object_freshens | intros; apply ret_freshens]. Qed.
  Lemma a_name_freshens : forall d k, freshens (a_name rs d k).
  Proof. intros d k. unfold a_name. apply bind_freshens; [stl | apply a_object_freshens | intros; apply ret_freshens]. Qed.
  Lemma a_dict_freshens : forall d k, freshens (a_dict rs d k).
  Proof. intros d k. unfold a_dict. apply bind_freshens; [stl | apply a_object_freshens | intros; apply ret_freshens]. Qed.
  Lemma d_array_refreshes : forall d k, refers d k -> refreshes (d_array rs d k).
  Proof. intros d k H. unfold d_array. apply bind_refreshes; [stl | apply d_object_refreshes; exact H | intros; apply ret_freshens]. Qed.
  Lemma d_array_still : forall d k, still file (d_array rs d k). Proof. intros. unfold d_array. stl. Qed.
  Lemma d_name_still : forall d k, still file (d_name rs d k). Proof. intros. unfold d_name. stl. Qed.
  Lemma d_dict_still : forall d k, still file (d_dict rs d k). Proof. intros. unfold d_dict. stl. Qed.
  Lemma a_name_still : forall d k, still file (a_name rs d k). Proof. intros. unfold a_name. stl. Qed.
  Lemma a_dict_still : forall d k, still file (a_dict rs d k). Proof. intros. unfold a_dict. stl. Qed.

  Lemma filter_list_fresh : forall d, still file (filter_list rs d) /\ freshens (filter_list rs d) /\ (refers d (lit "Filter") -> refreshes (filter_list rs d)).
  Proof.
    intros d. unfold filter_list. assert (K : forall x : list obj * bool, freshens (let '(l, ok) := x in if ok : bool then ret l else '(n, ok) <- d_name rs d (lit "Filter") ;; ret (if ok : bool then [OName n] else []))).
    { intros [l []]; [apply ret_freshens |]. apply bind_freshens; [apply d_name_still | apply d_name_freshens | intros []; apply ret_freshens]. }
    split; [| split].
    - apply bind_still; [apply d_array_still |]. intros [l []]; [apply ret_still |]. apply bind_still; [apply d_name_still | intros []; apply ret_still].
    - apply bind_freshens; [apply d_array_still | apply d_array_freshens | exact K].
    - intros H. apply bind_refreshes; [apply d_array_still | apply d_array_refreshes; exact H | exact K].
  Qed.
  Lemma parms_list_fresh : forall d, still file (parms_list rs d) /\ freshens (parms_list rs d) /\ (refers d (lit "DecodeParms") -> refreshes (parms_list rs d)).
  Proof.
    intros d. unfold parms_list. assert (K : forall x : list obj * bool, freshens (let '(l, ok) := x in if ok : bool then ret l else '(n, ok) <- d_dict rs d (lit "DecodeParms") ;; ret (if ok : bool then [ODict n] else []))).
    { intros [l []]; [apply ret_freshens |]. apply bind_freshens; [apply d_dict_still | apply d_dict_freshens | intros []; apply ret_freshens]. }
    split; [| split].
    - apply bind_still; [apply d_array_still |]. intros [l []]; [apply ret_still |]. apply bind_still; [apply d_dict_still | intros []; apply ret_still].
    - apply bind_freshens; [apply d_array_still | apply d_array_freshens | exact K].
    - intros H. apply bind_refreshes; [apply d_array_still | apply d_array_refreshes; exact H | exact K].
  Qed.
  Lemma choose_crypt_fresh : forall enc d fl pl, still file (choose_crypt rs enc d fl pl) /\ freshens (choose_crypt rs enc d fl pl).
  Proof.
    intros enc d fl pl. unfold choose_crypt. destruct enc; [| split; [apply ret_still | apply ret_freshens]].
    assert (K : forall h, still file (
      '(t, ok) <- d_name rs d (lit "Type") ;;
      let cf := if ok && bseq t (lit "EmbeddedFile") then sh_file h else sh_stream h in
      match fl with
      | [] => ret (cf, (fl, pl))
      | _ :: fl' =>
          '(f, _) <- a_name rs fl 0 ;;
          if bseq f (lit "Crypt") then
            '(dp, _) <- a_dict rs pl 0 ;;
            '(name, ok) <- d_name rs dp (lit "Name") ;;
            let name := if ok : bool then name else lit "Identity" in
            let cf := match mget bseq name (sh_filters h) with Some c => c | None => cf end in
            ret (cf, (fl', tl pl))
          else ret (cf, (fl, pl))
      end) /\ freshens (
      '(t, ok) <- d_name rs d (lit "Type") ;;
      let cf := if ok && bseq t (lit "EmbeddedFile") then sh_file h else sh_stream h in
      match fl with
      | [] => ret (cf, (fl, pl))
      | _ :: fl' =>
          '(f, _) <- a_name rs fl 0 ;;
          if bseq f (lit "Crypt") then
            '(dp, _) <- a_dict rs pl 0 ;;
            '(name, ok) <- d_name rs dp (lit "Name") ;;
            let name := if ok : bool then name else lit "Identity" in
            let cf := match mget bseq name (sh_filters h) with Some c => c | None => cf end in
            ret (cf, (fl', tl pl))
          else ret (cf, (fl, pl))
      end)).
    { intros h. split.
      - apply bind_still; [apply d_name_still |]. intros [t ok]. cbn zeta. destruct fl as [| f fl']; [apply ret_still |]. apply bind_still; [apply a_name_still |]. intros [g o]. destruct (bseq g (lit "Crypt")); [| apply ret_still].
        apply bind_still; [apply a_dict_still |]. intros [dp o2]. apply bind_still; [apply d_name_still |]. intros [nm o3]. apply ret_still.
      - apply bind_freshens; [apply d_name_still | apply d_name_freshens |]. intros [t ok]. cbn zeta. destruct fl as [| f fl']; [apply ret_freshens |]. apply bind_freshens; [apply a_name_still | apply a_name_freshens |]. intros [g o]. destruct (bseq g (lit "Crypt")); [| apply ret_freshens].
        apply bind_freshens; [apply a_dict_still | apply a_dict_freshens |]. intros [dp o2]. apply bind_freshens; [apply d_name_still | apply d_name_freshens |]. intros [nm o3]. apply ret_freshens. }
    split; intros p a p' W H; [exact (proj1 (K (psh p)) p a p' W H) | exact (proj2 (K (psh p)) p a p' W H)].
  Qed.
End Fresh.

(** ** What the lookups give *)
Section Gives.
  Variables (E : env) (file : bytes) (p : pst).
  Hypothesis W : reads file p.
  Hypothesis O : offsets_ok (pxref p).
  Notation rs := (fun f => Resolve f E file).

  Lemma d_typed_or_gives : forall A (is : obj -> A -> Prop) zero as_, classifies is zero as_ -> forall d k a, typed_or E file p is (entry d k) zero a ->
    exists ok, gives file p (fun f => x <- d_object (rs f) d k ;; ret (as_ x)) (a, ok) (kept file p).
  Proof.
    intros A is zero as_ C d k a [T | [T ->]]; [exists true; apply (d_typed_gives E file p W O is zero as_ C); exact T | exists false; apply (d_untyped_gives E file p W O is zero as_ C); exact T].
  Qed.
  Lemma a_typed_or_gives : forall A (is : obj -> A -> Prop) zero as_, classifies is zero as_ -> forall d k a, typed_or E file p is (element d k) zero a ->
    exists ok, gives file p (fun f => x <- a_object (rs f) d k ;; ret (as_ x)) (a, ok) (kept file p).
  Proof.
    intros A is zero as_ C d k a [T | [T ->]]; [exists true; apply (a_typed_gives E file p W O is zero as_ C); exact T | exists false; apply (a_untyped_gives E file p W O is zero as_ C); exact T].
  Qed.
  Lemma array_or_not : forall x v, value E file p x (Some v) -> (exists l, typed E file p is_array x l) \/ untyped E file p is_array x.
  Proof. intros x v V. destruct (is_array_dec v) as [[l H] | H]; [left; exists l, v; auto | right; right; exists v; auto]. Qed.
  Lemma name_no_array : forall x n, typed E file p is_name x n -> untyped E file p is_array x.
  Proof. intros x n (v & V & H). right. exists v. split; [exact V |]. intros a Q. unfold is_name, is_array in *. congruence. Qed.
  Lemma dict_no_array : forall x n, typed E file p is_dict x n -> untyped E file p is_array x.
  Proof. intros x n (v & V & H). right. exists v. split; [exact V |]. intros a Q. unfold is_dict, is_array in *. congruence. Qed.

  Lemma filters_give : forall d fl, filters_through E file p d fl -> gives file p (fun f => filter_list (rs f) d) fl (kept file p).
  Proof.
    intros d fl H. unfold filter_list. destruct H as [l T | n T | U1 U2].
    - eapply gives_bind; [apply (d_typed_gives E file p W O is_array [] as_array array_classifies); exact T |]. apply gives_ret.
    - eapply gives_bind; [apply (d_untyped_gives E file p W O is_array [] as_array array_classifies); apply (name_no_array _ n T) |].
      cbn beta iota. eapply gives_bind; [apply (d_typed_gives E file p W O is_name [] as_name name_classifies); exact T |]. apply gives_ret.
    - eapply gives_bind; [apply (d_untyped_gives E file p W O is_array [] as_array array_classifies); exact U1 |].
      cbn beta iota. eapply gives_bind; [apply (d_untyped_gives E file p W O is_name [] as_name name_classifies); exact U2 |]. apply gives_ret.
  Qed.
  Lemma parms_give : forall d pl, parms_through E file p d pl -> gives file p (fun f => parms_list (rs f) d) pl (kept file p).
  Proof.
    intros d fl H. unfold parms_list. destruct H as [l T | n T | U1 U2].
    - eapply gives_bind; [apply (d_typed_gives E file p W O is_array [] as_array array_classifies); exact T |]. apply gives_ret.
    - eapply gives_bind; [apply (d_untyped_gives E file p W O is_array [] as_array array_classifies); apply (dict_no_array _ n T) |].
      cbn beta iota. eapply gives_bind; [apply (d_typed_gives E file p W O is_dict [] as_dict dict_classifies); exact T |]. apply gives_ret.
    - eapply gives_bind; [apply (d_untyped_gives E file p W O is_array [] as_array array_classifies); exact U1 |].
      cbn beta iota. eapply gives_bind; [apply (d_untyped_gives E file p W O is_dict [] as_dict dict_classifies); exact U2 |]. apply gives_ret.
  Qed.
  Lemma decode_gives : forall fl pl x z, decoded_through E file p fl pl x z -> forall FL PL i, 0 <= i ->
    skipn (Z.to_nat i) FL = fl -> skipn (Z.to_nat i) PL = pl ->
    gives file p (fun f => decode_loop E (rs f) f (List.length fl) i FL PL x) z (kept file p).
  Proof.
    intros fl pl x z H. induction H as [pl x | f fl pl nm pm x y z N P St D IH]; intros FL PL i Hi SF SP; [apply gives_ret |].
    cbn [decode_loop List.length].
    assert (EF : element FL i = Some f) by (rewrite <- zget_element, zget_skipn, SF by lia; reflexivity).
    assert (EP : element PL i = hd_error pl) by (rewrite <- zget_element, zget_skipn, SP by lia; reflexivity).
    rewrite <- EF in N. rewrite <- EP in P.
    destruct (a_typed_or_gives _ _ _ _ name_classifies _ _ _ N) as (ok1 & G1). destruct (a_typed_or_gives _ _ _ _ dict_classifies _ _ _ P) as (ok2 & G2).
    eapply gives_bind; [exact G1 |]. cbn beta iota. eapply gives_bind; [exact G2 |]. cbn beta iota.
    eapply gives_bind.
    - destruct (decode_stream_spec _ _ _ _ _ St) as (f1 & R1). exists f1. intros g q L K. exists q. split; [apply R1; exact L | exact K].
    - apply IH; [lia | |].
      + replace (Z.to_nat (i + 1)) with (S (Z.to_nat i)) by lia. rewrite <- skipn_tl, SF. reflexivity.
      + replace (Z.to_nat (i + 1)) with (S (Z.to_nat i)) by lia. rewrite <- skipn_tl, SP. reflexivity.
  Qed.
  Lemma crypt_gives : forall d enc c fl pl x z, crypt_through E file p (psh p) d fl enc c -> decoded_through E file p fl pl x z ->
    gives file p (fun f => choose_crypt (rs f) enc d fl pl) (c, (fl, pl)) (kept file p).
  Proof.
    intros d enc c fl pl x z C D. unfold choose_crypt. destruct enc; [| inversion C; subst; apply gives_ret].
    assert (T : exists t ok, gives file p (fun f => d_name (rs f) d (lit "Type")) (t, ok) (kept file p) /\
      (if ok && bseq t (lit "EmbeddedFile") then sh_file (psh p) else sh_stream (psh p)) = c).
    { inversion C as [| T N | t T NE N]; subst.
      - exists (lit "EmbeddedFile"), true. split; [apply (d_typed_gives E file p W O is_name [] as_name name_classifies); exact T | reflexivity].
      - destruct (d_typed_or_gives _ _ _ _ name_classifies _ _ _ T) as (ok & G). exists t, ok. split; [exact G |].
        destruct (bseq t (lit "EmbeddedFile")) eqn:B; [apply bseq_eq in B; contradiction | rewrite andb_false_r; reflexivity]. }
    destruct T as (t & ok & GT & CQ).
    assert (N : forall f r, fl = f :: r -> ~ typed E file p is_name (Some f) (lit "Crypt")) by (inversion C; assumption).
    assert (G : gives file p (fun f => '(t, ok) <- d_name (rs f) d (lit "Type") ;;
      let cf := if ok && bseq t (lit "EmbeddedFile") then sh_file (psh p) else sh_stream (psh p) in
      match fl with
      | [] => ret (cf, (fl, pl))
      | _ :: fl' =>
          '(g, _) <- a_name (rs f) fl 0 ;;
          if bseq g (lit "Crypt") then
            '(dp, _) <- a_dict (rs f) pl 0 ;;
            '(name, ok) <- d_name (rs f) dp (lit "Name") ;;
            let name := if ok : bool then name else lit "Identity" in
            let cf := match mget bseq name (sh_filters (psh p)) with Some c => c | None => cf end in
            ret (cf, (fl', tl pl))
          else ret (cf, (fl, pl))
      end) (c, (fl, pl)) (kept file p)).
    { eapply gives_bind; [exact GT |]. cbn beta iota zeta. rewrite CQ. inversion D as [| f0 fl0 pl0 nm pm x0 y0 z0 TN TP St D']; subst; [apply gives_ret |].
      assert (NC : nm <> lit "Crypt").
      { intros ->. destruct TN as [TN | [_ Q]]; [exact (N _ _ eq_refl TN) | discriminate Q]. }
      change (Some f0) with (element (f0 :: fl0) 0) in TN. destruct (a_typed_or_gives _ _ _ _ name_classifies _ _ _ TN) as (ok1 & G1).
      eapply gives_bind; [exact G1 |]. cbn beta iota. destruct (bseq nm (lit "Crypt")) eqn:B; [apply bseq_eq in B; contradiction |]. apply gives_ret. }
    destruct G as (f0 & G). exists f0. intros f q L K. destruct (G f q L K) as (q' & Q & K'). exists q'. split; [| exact K']. rewrite <- Q.
    destruct K as (_ & _ & _ & ->). reflexivity.
  Qed.
End Gives.

(** ** GetObject on such a stream *)
Lemma indirect_stream : forall E file p n e head hn hg g1 t d v g2 eol data eol' r fs fd fl pl c out,
  reads file p -> offsets_ok (pxref p) -> xget n (pxref p) = Some e -> x_type e = 1 ->
  object_head head hn hg -> gap g1 -> obj_text t (ODict d) -> gap g2 ->
  eol_before eol (data ++ eol' ++ lit "endstream" ++ r) -> ~ occurs (lit "endstream") data -> eol_after data eol' ->
  zdrop (x_off e) file = head ++ g1 ++ t ++ g2 ++ lit "stream" ++ eol ++ data ++ eol' ++ lit "endstream" ++ r ->
  (forall s, new_decryptor E (if x_enc e then sh_string (psh p) else CFNone) n (x_gen e) s = Ok (fs s)) ->
  map_strings fs (ODict d) = ODict v -> refers v (lit "Filter") \/ refers v (lit "DecodeParms") ->
  filters_through E file p v fl -> parms_through E file p v pl -> crypt_through E file p (psh p) v fl (x_enc e) c ->
  new_decryptor E c n (x_gen e) data = Ok fd -> decoded_through E file p fl pl (Some fd) out ->
  fetched E file p n {| inum := n; igen := x_gen e; ival := ODict v; istream := out |}.
Proof.
  intros E file p n e head hn hg g1 t d v g2 eol data eol' r fs fd fl pl c out W OK X T H G1 OT G2 EB NO EA F DS MS RF FT PT CT DD DC.
  pose proof (OK n e X T) as OF.
  set (s := seek file (x_off e) (prd p)).
  assert (N : near file (x_off e) s) by (apply near_seek; exact OF).
  destruct (sk_nonneg file (x_off e) (prd p) OF) as (_ & Hr & Hp & Hl). fold s in Hr, Hp, Hl. rewrite F in Hr, Hp.
  set (tail := eol ++ data ++ eol' ++ lit "endstream" ++ r) in *.
  assert (ET : ends_token tail).
  { right. unfold tail. inversion EB; subst; do 2 eexists; (split; [reflexivity |]); left; unfold ws_byte; cbn [In]; tauto. }
  destruct (stream_object_state file (x_off e) s head hn hg g1 t d g2 tail _ fs N H G1 OT G2 ET DS Hr) as (s2 & s3 & R2 & R3 & N3 & (W3 & Hr3 & Hp3 & Hl3)).
  set (p3 := with_rd s3 p). assert (K3 : kept file p p3) by (split; [exact W3 | auto]).
  destruct (filters_give E file p W OK v fl FT) as (f1 & Q1). destruct (parms_give E file p W OK v pl PT) as (f2 & Q2).
  destruct (crypt_gives E file p W OK v (x_enc e) c fl pl _ _ CT DC) as (f3 & Q3).
  destruct (decode_gives E file p W OK fl pl _ _ DC fl pl 0 ltac:(lia) eq_refl eq_refl) as (f4 & Q4).
  set (f := (f1 + f2 + f3 + f4)%nat). set (rs := Resolve f E file).
  assert (RS : forall m, still file (rs m)) by (intros m q a q' Wq Q; exact (Resolve_stays f E file m q a q' Wq Q)).
  assert (RR : forall m, refreshes file (rs m)) by (intros m; apply restoring_refreshes).
  destruct (Q1 f p3) as (p4 & A4 & K4); [lia | exact K3 |]. destruct (Q2 f p4) as (p5 & A5 & K5); [lia | exact K4 |].
  destruct (Q3 f p5) as (p6 & A6 & K6); [lia | exact K5 |]. fold rs in A4, A5, A6.
  destruct (filter_list_fresh file rs RS RR v) as (S4 & F4 & R4). destruct (parms_list_fresh file rs RS RR v) as (S5 & F5 & R5).
  destruct (choose_crypt_fresh file rs RS RR (x_enc e) v fl pl) as (S6 & F6).
  assert (W3' : reads file p3) by exact W3.
  pose proof (S4 _ _ _ W3' A4) as (W4 & P4 & T4 & _). pose proof (S5 _ _ _ W4 A5) as (W5 & P5 & T5 & _). pose proof (S6 _ _ _ W5 A6) as (W6 & P6 & T6 & _).
  assert (N5 : fresh file (pos s3) p5).
  { change s3 with (prd p3). destruct RF as [RF | RF].
    - pose proof (R4 RF _ _ _ W3' A4) as N4. destruct (F5 _ _ _ W4 A5) as [-> | N5]; [exact N4 | rewrite P4 in N5; exact N5].
    - pose proof (R5 RF _ _ _ W4 A5) as N5. rewrite P4 in N5. exact N5. }
  assert (N6 : near file (pos s3) (prd p6)).
  { destruct (F6 _ _ _ W5 A6) as [-> | N6]; [exact N5 |]. rewrite P5, P4 in N6. exact N6. }
  assert (P6' : pos (prd p6) = pos s3) by (rewrite P6, P5, P4; reflexivity). assert (T6' : rest (prd p6) = tail) by (rewrite T6, T5, T4; exact Hr3).
  destruct (stream_data file (prd p6) [] eol data eol' r W6) as (s7 & R7 & (W7 & _)); try assumption.
  { intros b []. }
  { eapply near_buffered; [exact N6 |]. rewrite P6'. cbn [app]. assert (zlen eol <= 2) by (inversion EB; subst; vm_compute; discriminate). unfold bufsize. lia. }
  destruct (Q4 f (with_rd s7 p6)) as (p8 & A8 & K8); [lia | destruct K6 as (_ & X6 & Y6 & Z6); split; [exact W7 | auto] |]. fold rs in A8.
  exists (S f), p8. unfold GetObject. rewrite (get_object_in_use f E file n p e X T), get_in_use_eq. fold s. rewrite R2, MS, R3. cbn [fst snd].
  unfold object_end. rewrite bseq_refl. unfold bind at 1. change (fun r0 : Z => restoring file (resolve f E file r0 [])) with rs. fold p3. rewrite A4. unfold bind at 1. rewrite A5. unfold bind at 1. rewrite A6.
  unfold bind at 1, read_stream, onrd. unfold bind at 1. rewrite R7. unfold lift. unfold bind at 1. rewrite DD. rewrite A8. reflexivity.
Qed.
