(** FetchP.v -- proofs about GetObject, Resolve and the getters (C13-C17, C58). *)
From Verif Require Import Base BaseP Msg Reader ReaderP Num Lexer Obj ReadObj ReadObjP PObjP Bits Filters Env Getters Crypt Stream GetObj RelP GetObjP
  SpecRead SpecFetch TiffP.
From Coq Require Import Strings.String.
Local Open Scope m_scope.

(** ** C16 *)
Lemma get_object_absent : forall fuel E file n p,
  (forall e, xget n (pxref p) = Some e -> x_type e <> 1) ->
  GetObject (S fuel) E file n p = Ok ({| inum := n; igen := 0; ival := OKw (lit "null"); istream := None |}, p).
Proof.
  intros fuel E file n p H. unfold GetObject. cbn [get_object]. destruct (xget n (pxref p)) as [e|]; [|reflexivity].
  specialize (H e eq_refl). unfold XrefTypeIndirectObject. destruct (x_type e =? 1) eqn:T; [apply Z.eqb_eq in T; congruence|reflexivity].
Qed.

(** ** C58 *)

Lemma seek_seek : forall file off s, 0 <= off -> seek file off (seek file off s) = seek file off s.
Proof. intros file off s H. unfold seek. destruct (off <? 0) eqn:E; [apply Z.ltb_lt in E; lia|]. reflexivity. Qed.

Lemma get_in_use_seek : forall E rs f file n e p, 0 <= x_off e ->
  get_in_use E rs f file n e (with_rd (seek file (x_off e) (prd p)) p) = get_in_use E rs f file n e p.
Proof.
  intros E rs f file n e p H. unfold get_in_use.
  match goal with |- bind (pseek file (x_off e)) ?k _ = _ => set (K := k) end.
  unfold bind, pseek. cbn [prd with_rd]. rewrite (seek_seek file (x_off e) _ H). reflexivity.
Qed.

Lemma get_object_history : forall fuel E file n p q, alike p q -> entry_ok n p ->
  match get_object fuel E file n p, get_object fuel E file n q with
  | Ok (o1, p'), Ok (o2, q') => o1 = o2 /\ exists ms, log (prd p') = log (prd p) ++ ms /\ log (prd q') = log (prd q) ++ ms
  | Panic, Panic => True
  | OutOfFuel, OutOfFuel => True
  | _, _ => False
  end.
Proof.
  intros fuel E file n p q A O. destruct fuel as [|f]; [exact I|]. cbn [get_object]. rewrite <- (proj1 A).
  destruct (xget n (pxref p)) as [e|] eqn:X; [|split; auto; exists []; rewrite !app_nil_r; auto].
  destruct (x_type e =? XrefTypeIndirectObject) eqn:T; [|split; auto; exists []; rewrite !app_nil_r; auto].
  apply Z.eqb_eq in T. specialize (O e X T).
  set (rs := fun r => restoring file (resolve f E file r [])).
  set (R := same_but_log (log (prd p)) (log (prd q))).
  assert (HRs : forall m, relm R (rs m)).
  { intros m. apply (restoring_rel file); [apply same_respects|apply same_seek|]. apply get_resolve_rel; [apply same_respects|apply same_seek]. }
  rewrite <- (get_in_use_seek E rs f file n e p O). rewrite <- (get_in_use_seek E rs f file n e q O).
  pose proof (get_in_use_rel file R (same_respects _ _ _) (same_seek _ _ _) E rs HRs f n e
    (with_rd (seek file (x_off e) (prd p)) p) (with_rd (seek file (x_off e) (prd q)) q)) as G.
  assert (RPpq : RP R (with_rd (seek file (x_off e) (prd p)) p) (with_rd (seek file (x_off e) (prd q)) q)).
  { split; [apply seek_same; auto|exact A]. }
  specialize (G RPpq). unfold relmx in G.
  destruct (get_in_use _ _ _ _ _ _ _) as [[o1 p']| |], (get_in_use _ _ _ _ _ _ _) as [[o2 q']| |]; auto.
  destruct G as (-> & [(_ & _ & _ & _ & ms & L1 & L2) _] & _). split; auto. exists ms. auto.
Qed.

(** ** C13 *)
Lemma pwf_reads : forall file p, pwf file p <-> reads file p. Proof. reflexivity. Qed.

Lemma restoring_stays : forall file m p o p', relm (keeps file) m -> reads file p ->
  restoring file m p = Ok (o, p') -> stays file p p'.
Proof.
  intros file m p o p' Hm W H. unfold restoring, bind in H.
  destruct (m p) as [[o1 p1]| |] eqn:E; try discriminate. unfold pseek, ret in H.
  assert (p' = with_rd (seek file (pos (prd p)) (prd p1)) p1) by congruence. subst p'.
  destruct (relm_keeps file _ m p o1 p1 Hm W E) as [W1 [F1 F2 F3]].
  pose proof (St_intro _ _ W) as S0. pose proof (sk_St _ _ (prd p1) _ _ _ S0) as (S1 & S2 & S3 & S4).
  split; [exact S1|]. cbn [prd with_rd pxref ptrailer psh]. rewrite F1, F2, F3, S2. repeat split; auto.
  unfold seek. destruct W as [P _ _ _]. destruct (pos (prd p) <? 0) eqn:N; [apply Z.ltb_lt in N; lia|reflexivity].
Qed.

Lemma Resolve_stays : forall fuel E file n p o p', reads file p -> Resolve fuel E file n p = Ok (o, p') -> stays file p p'.
Proof.
  intros fuel E file n p o p' W H. eapply restoring_stays; eauto.
  apply get_resolve_rel; [apply keeps_respects|apply keeps_seek].
Qed.

Lemma stays_refl : forall file p, reads file p -> stays file p p.
Proof. intros file p H. split; [exact H|]. auto 6. Qed.
Lemma stays_trans : forall file p q r, stays file p q -> stays file q r -> stays file p r.
Proof. intros file p q r (A & B & C & D & F & G) (A' & B' & C' & D' & F' & G'). split; auto. repeat split; congruence. Qed.

Lemma ret_still : forall A file (a : A), still file (ret a).
Proof. intros A file a p b p' W H. unfold ret in H. assert (p' = p) by congruence. subst. apply stays_refl; auto. Qed.
Lemma bind_still : forall A B file (m : M A) (k : A -> M B), still file m -> (forall a, still file (k a)) -> still file (bind m k).
Proof.
  intros A B file m k Hm Hk p b p' W H. unfold bind in H. destruct (m p) as [[a p1]| |] eqn:E; try discriminate.
  pose proof (Hm _ _ _ W E) as S1. eapply stays_trans; eauto. eapply Hk; [|exact H]. apply S1.
Qed.
Lemma d_object_still : forall file rs d k, (forall n, still file (rs n)) -> still file (d_object rs d k).
Proof.
  intros. unfold d_object. destruct (dget k d) as [[]|]; try apply ret_still. apply bind_still; auto. intros; apply ret_still.
Qed.
Lemma a_object_still : forall file rs d k, (forall n, still file (rs n)) -> still file (a_object rs d k).
Proof.
  intros. unfold a_object. destruct (zget d k) as [[]|]; try apply ret_still. apply bind_still; auto. intros; apply ret_still.
Qed.

Lemma getters_stay : forall fuel E file, let rs := Resolve fuel E file in
  (forall d k, still file (d_object rs d k) /\ still file (d_array rs d k) /\ still file (d_bool rs d k) /\
     still file (d_dict rs d k) /\ still file (d_name rs d k) /\ still file (d_number rs d k) /\
     still file (d_int rs d k) /\ still file (d_string rs d k) /\ still file (d_stream rs d k)) /\
  (forall a i, still file (a_object rs a i) /\ still file (a_array rs a i) /\ still file (a_bool rs a i) /\
     still file (a_dict rs a i) /\ still file (a_name rs a i) /\ still file (a_number rs a i) /\
     still file (a_int rs a i) /\ still file (a_string rs a i) /\ still file (a_stream rs a i)).
Proof.
  intros fuel E file rs. assert (H : forall n, still file (rs n)) by (intros n p a p' W X; eapply Resolve_stays; eauto).
  split; intros x y;
    repeat match goal with |- _ /\ _ => split end;
    try (apply d_object_still; auto); try (apply a_object_still; auto);
    try (apply bind_still; [first [apply d_object_still|apply a_object_still]; auto|intros; apply ret_still]).
  - unfold d_stream. destruct (dget y x) as [[]|]; try apply ret_still. apply bind_still; auto. intros; apply ret_still.
  - unfold a_stream. destruct (zget x y) as [[]|]; try apply ret_still. apply bind_still; auto. intros; apply ret_still.
Qed.

(** ** C17 *)
Lemma dget_entry : forall k d, dget k d = entry d k.
Proof.
  intros k d. induction d as [|[k' v] d IH]; auto. unfold dget in *. cbn [mget entry].
  destruct (list_eq_dec Byte.byte_eq_dec k k') as [->|N].
  - rewrite bseq_refl. reflexivity.
  - apply bseq_neq in N. rewrite N. exact IH.
Qed.
Lemma zget_element : forall l i, zget l i = element l i.
Proof.
  intros l i. unfold zget, element. destruct (i <? 0) eqn:E.
  - apply Z.ltb_lt in E. destruct (0 <=? i) eqn:E2; [apply Z.leb_le in E2; lia|reflexivity].
  - apply Z.ltb_ge in E. destruct (0 <=? i) eqn:E2; [|apply Z.leb_gt in E2; lia]. simpl.
    destruct (i <? zlen l) eqn:E3; [reflexivity|]. apply Z.ltb_ge in E3. symmetry. apply nth_error_None. unfold zlen in E3. lia.
Qed.

(** the classification behind each getter *)
Definition classifies {A} (is : obj -> A -> Prop) (zero : A) (as_ : obj * bool -> A * bool) : Prop :=
  as_ (KEYWORD_NULL, false) = (zero, false) /\
  forall v, (forall a, is v a -> as_ (v, true) = (a, true)) /\ ((forall a, ~ is v a) -> as_ (v, true) = (zero, false)).

Lemma d_reports : forall A (is : obj -> A -> Prop) zero as_ rs d k, classifies is zero as_ ->
  reports is zero rs (entry d k) (x <- d_object rs d k ;; ret (as_ x)).
Proof.
  intros A is zero as_ rs d k [C0 C]. rewrite <- dget_entry. unfold d_object, reports. destruct (dget k d) as [x|].
  - intros p v p' L.
    assert (G : bind match x with ORef n _ => o <- rs n ;; ret (ival o, true) | _ => ret (x, true) end (fun x => ret (as_ x)) p = Ok (as_ (v, true), p')).
    { destruct x; simpl in L; try (destruct L as [-> ->]; reflexivity).
      destruct L as (o & L & ->). unfold bind. rewrite L. reflexivity. }
    assert (G2 : bind (match x with ORef n _ => o <- rs n ;; ret (ival o, true) | o => ret (o, true) end) (fun x => ret (as_ x)) p = Ok (as_ (v, true), p'))
      by (destruct x; exact G).
    rewrite G2. split; intros; f_equal; f_equal; apply C; auto.
  - intros p. unfold bind, ret. rewrite C0. reflexivity.
Qed.
Lemma a_reports : forall A (is : obj -> A -> Prop) zero as_ rs d k, classifies is zero as_ ->
  reports is zero rs (element d k) (x <- a_object rs d k ;; ret (as_ x)).
Proof.
  intros A is zero as_ rs d k [C0 C]. rewrite <- zget_element. unfold a_object, reports. destruct (zget d k) as [x|].
  - intros p v p' L.
    assert (G2 : bind (match x with ORef n _ => o <- rs n ;; ret (ival o, true) | o => ret (o, true) end) (fun x => ret (as_ x)) p = Ok (as_ (v, true), p')).
    { destruct x; simpl in L; try (destruct L as [-> ->]; reflexivity).
      destruct L as (o & L & ->). unfold bind. rewrite L. reflexivity. }
    rewrite G2. split; intros; f_equal; f_equal; apply C; auto.
  - intros p. unfold bind, ret. rewrite C0. reflexivity.
Qed.

Lemma array_classifies : classifies is_array [] as_array.
Proof. split; auto. intros v; split; intros a; [intros ->; auto|destruct v; auto]. exfalso; eapply a; reflexivity. Qed.
Lemma dict_classifies : classifies is_dict [] as_dict.
Proof. split; auto. intros v; split; intros a; [intros ->; auto|destruct v; auto]. exfalso; eapply a; reflexivity. Qed.
Lemma name_classifies : classifies is_name [] as_name.
Proof. split; auto. intros v; split; intros a; [intros ->; auto|destruct v; auto]. exfalso; eapply a; reflexivity. Qed.
Lemma string_classifies : classifies is_string [] as_string.
Proof. split; auto. intros v; split; intros a; [intros ->; auto|destruct v; auto]. exfalso; eapply a; reflexivity. Qed.
Lemma number_classifies : classifies is_number num_zero as_number.
Proof. split; auto. intros v; split; intros a; [intros ->; auto|destruct v; auto]. exfalso; eapply a; reflexivity. Qed.
Lemma int_classifies : classifies is_int 0 as_int.
Proof.
  split; auto. intros v; split; intros a.
  - intros (q & -> & ->). reflexivity.
  - destruct v; auto. exfalso; eapply a. eexists; split; reflexivity.
Qed.
Lemma bool_classifies : classifies is_bool false as_bool.
Proof.
  split; auto. intros v; split; intros a.
  - intros ->. destruct a; reflexivity.
  - destruct v as [| | |k| | |]; auto. cbn [as_bool]. destruct (bseq k (lit "true")) eqn:T.
    + apply bseq_eq in T. exfalso. apply (a true). unfold is_bool. congruence.
    + destruct (bseq k (lit "false")) eqn:F; auto. apply bseq_eq in F. exfalso. apply (a false). unfold is_bool. congruence.
Qed.
Lemma object_classifies : classifies is_object (OKw (lit "null")) (fun x => x).
Proof. split; auto. intros v; split; [intros a ->; auto|]. intros H. exfalso; eapply H; reflexivity. Qed.

Lemma bind_ret : forall A (m : M A) p, bind m (fun x => ret x) p = m p.
Proof. intros A m p. unfold bind, ret. destruct (m p) as [[]| |]; auto. Qed.
Lemma reports_ext : forall A (is : obj -> A -> Prop) zero rs x (m m' : M (A * bool)), (forall p, m p = m' p) ->
  reports is zero rs x m -> reports is zero rs x m'.
Proof.
  intros A is zero rs x m m' H. unfold reports. destruct x; intros K p; [intros v p' L|]; rewrite <- !H; auto.
Qed.

Lemma dictionary_getters : forall rs d k,
  reports is_object (OKw (lit "null")) rs (entry d k) (d_object rs d k) /\
  reports is_array [] rs (entry d k) (d_array rs d k) /\
  reports is_bool false rs (entry d k) (d_bool rs d k) /\
  reports is_dict [] rs (entry d k) (d_dict rs d k) /\
  reports is_name [] rs (entry d k) (d_name rs d k) /\
  reports is_number num_zero rs (entry d k) (d_number rs d k) /\
  reports is_int 0 rs (entry d k) (d_int rs d k) /\
  reports is_string [] rs (entry d k) (d_string rs d k) /\
  reports_stream rs (entry d k) (d_stream rs d k) /\
  (forall n g, d_reference d k = Some (n, g) <-> entry d k = Some (ORef n g)).
Proof.
  intros rs d k. split.
  { eapply reports_ext; [|apply (d_reports _ _ _ (fun x => x) rs d k object_classifies)]. intros p. apply bind_ret. }
  do 7 (split; [first [apply d_reports, array_classifies|apply d_reports, bool_classifies|apply d_reports, dict_classifies|
    apply d_reports, name_classifies|apply d_reports, number_classifies|apply d_reports, int_classifies|apply d_reports, string_classifies]|]).
  split.
  - rewrite <- dget_entry. unfold reports_stream, d_stream. destruct (dget k d) as [[]|]; try (intros p; reflexivity).
    intros p o p' H. unfold bind. rewrite H. reflexivity.
  - intros n g. rewrite <- dget_entry. unfold d_reference. destruct (dget k d) as [[]|]; split; intros H; try discriminate; congruence.
Qed.

Lemma array_getters : forall rs a i,
  reports is_object (OKw (lit "null")) rs (element a i) (a_object rs a i) /\
  reports is_array [] rs (element a i) (a_array rs a i) /\
  reports is_bool false rs (element a i) (a_bool rs a i) /\
  reports is_dict [] rs (element a i) (a_dict rs a i) /\
  reports is_name [] rs (element a i) (a_name rs a i) /\
  reports is_number num_zero rs (element a i) (a_number rs a i) /\
  reports is_int 0 rs (element a i) (a_int rs a i) /\
  reports is_string [] rs (element a i) (a_string rs a i) /\
  reports_stream rs (element a i) (a_stream rs a i).
Proof.
  intros rs d k. split.
  { eapply reports_ext; [|apply (a_reports _ _ _ (fun x => x) rs d k object_classifies)]. intros p. apply bind_ret. }
  do 7 (split; [first [apply a_reports, array_classifies|apply a_reports, bool_classifies|apply a_reports, dict_classifies|
    apply a_reports, name_classifies|apply a_reports, number_classifies|apply a_reports, int_classifies|apply a_reports, string_classifies]|]).
  rewrite <- zget_element. unfold reports_stream, a_stream. destruct (zget d k) as [[]|]; try (intros p; reflexivity).
  intros p o p' H. unfold bind. rewrite H. reflexivity.
Qed.

(** ** C14 *)
Lemma zmem_In : forall n l, zmem n l = true <-> In n l.
Proof.
  intros n l. unfold zmem. rewrite existsb_exists. split.
  - intros (x & I & E). apply Z.eqb_eq in E. subst; auto.
  - intros I. exists n. split; auto. apply Z.eqb_refl.
Qed.

Lemma fetched_at : forall E file p q n o, alike p q -> entry_ok n p -> fetched E file p n o ->
  exists f0, forall f, (f0 <= f)%nat -> exists q', get_object f E file n q = Ok (o, q').
Proof.
  intros E file p q n o A O (f0 & p' & H). exists f0. intros f L. apply (get_object_mono _ f) in H; auto.
  pose proof (get_object_history f E file n p q A O) as G. rewrite H in G.
  destruct (get_object f E file n q) as [[o2 q']| |]; try tauto. destruct G as [-> _]. eauto.
Qed.
Lemma fetched_det : forall E file p n o o', fetched E file p n o -> fetched E file p n o' -> o = o'.
Proof.
  intros E file p n o o' (f & p1 & H) (f' & p2 & H').
  apply (get_object_mono _ (f + f')) in H; [|lia]. apply (get_object_mono _ (f + f')) in H'; [|lia]. congruence.
Qed.

Section Resolve.
  Variables (E : env) (file : bytes) (p : pst).
  Hypothesis O : offsets_ok (pxref p).
  Lemma O_entry : forall n, entry_ok n p. Proof. intros n e. apply O. Qed.

  Lemma get_here : forall n o q, fetched E file p n o -> pwf file q -> alike p q ->
    exists f0, forall f, (f0 <= f)%nat -> exists q', get_object f E file n q = Ok (o, q') /\ pwf file q' /\ alike p q'.
  Proof.
    intros n o q F W A. destruct (fetched_at E file p q n o A (O_entry n) F) as (f0 & H). exists f0. intros f L.
    destruct (H f L) as (q' & G). exists q'. split; auto. destruct (get_object_keeps _ _ _ _ _ _ _ W G) as [W' F'].
    split; auto. destruct A as [A1 A2]. destruct F' as [B1 _ B2]. split; congruence.
  Qed.

  Lemma resolve_circle : forall n l m, hops E file p n l m -> forall seen q, pwf file q -> alike p q ->
    (In m l \/ In m seen) ->
    exists f0 k, forall f, (f0 <= f)%nat -> exists q', resolve f E file n seen q = Ok (new_iobj k, q').
  Proof.
    intros n l m H. induction H as [n|n o n' g l m F V H IH]; intros seen q W A I.
    - exists 1%nat, n. intros f L. destruct f as [|f]; [lia|]. cbn [resolve].
      destruct I as [[]|I]. apply zmem_In in I. rewrite I. eexists; reflexivity.
    - destruct (zmem n seen) eqn:Z.
      + exists 1%nat, n. intros f L. destruct f as [|f]; [lia|]. cbn [resolve]. rewrite Z. eexists; reflexivity.
      + destruct (get_here n o q F W A) as (f0 & G). destruct (G f0 (Nat.le_refl _)) as (q1 & G1 & W1 & A1).
        destruct (IH (n :: seen) q1 W1 A1) as (f1 & k & R).
        { destruct I as [[->|I]|I]; [right; left; auto|left; auto|right; right; auto]. }
        exists (S (f0 + f1)), k. intros f L. destruct f as [|f]; [lia|]. cbn [resolve]. rewrite Z.
        unfold bind. rewrite (get_object_mono f0 f E file n q (o, q1)) by (auto; lia). rewrite V. apply R. lia.
  Qed.

  Lemma resolve_value : forall n l m, hops E file p n l m -> forall o, fetched E file p m o -> (forall n' g, ival o <> ORef n' g) ->
    forall seen q, pwf file q -> alike p q -> NoDup (l ++ [m]) -> (forall x, In x (l ++ [m]) -> ~ In x seen) ->
    exists f0, forall f, (f0 <= f)%nat -> exists q', resolve f E file n seen q = Ok (o, q').
  Proof.
    intros n l m H. induction H as [n|n o' n' g l m F V H IH]; intros o F' V' seen q W A N I.
    - destruct (get_here n o q F' W A) as (f0 & G). exists (S f0). intros f L. destruct f as [|f]; [lia|]. cbn [resolve].
      destruct (zmem n seen) eqn:Z; [apply zmem_In in Z; exfalso; apply (I n); simpl; auto|].
      unfold bind. destruct (G f) as (q1 & G1 & _); [lia|]. rewrite G1. exists q1.
      destruct (ival o) eqn:IV; auto. exfalso. eapply V'; reflexivity.
    - destruct (zmem n seen) eqn:Z; [apply zmem_In in Z; exfalso; apply (I n); simpl; auto|].
      destruct (get_here n o' q F W A) as (f0 & G). destruct (G f0 (Nat.le_refl _)) as (q1 & G1 & W1 & A1).
      simpl in N. inversion N as [|? ? N1 N2]; subst.
      destruct (IH o F' V' (n :: seen) q1 W1 A1 N2) as (f1 & R).
      { intros x Hx [->|Hs]; [auto|]. apply (I x); simpl; auto. }
      exists (S (f0 + f1)). intros f L. destruct f as [|f]; [lia|]. cbn [resolve]. rewrite Z.
      unfold bind. rewrite (get_object_mono f0 f E file n q (o', q1)) by (auto; lia). rewrite V. apply R. lia.
  Qed.

  (** a chain that ends in a value is determined by its start, hence has no repetition *)
  Lemma hops_det : forall n l m, hops E file p n l m -> forall o, fetched E file p m o -> (forall n' g, ival o <> ORef n' g) ->
    forall l', hops E file p n l' m -> l' = l.
  Proof.
    intros n l m H. induction H as [n|n o' n' g l m F V H IH]; intros o F' V' l' H'.
    - inversion H' as [|? o2 n2 g2 l2 ? F2 V2 H2]; subst; auto. rewrite (fetched_det _ _ _ _ _ _ F2 F') in V2. exfalso; eapply V'; eauto.
    - inversion H' as [|? o2 n2 g2 l2 ? F2 V2 H2]; subst.
      + rewrite (fetched_det _ _ _ _ _ _ F F') in V. exfalso; eapply V'; eauto.
      + rewrite (fetched_det _ _ _ _ _ _ F2 F) in V2. assert (n2 = n') by congruence. subst n2. f_equal. eapply IH; eauto.
  Qed.
  Lemma hops_from : forall n l m, hops E file p n l m -> forall x, In x (l ++ [m]) ->
    exists l', hops E file p x l' m /\ (List.length l' <= List.length l)%nat.
  Proof.
    intros n l m H. induction H as [n|n o n' g l m F V H IH]; intros x I.
    - destruct I as [<-|[]]. exists []. split; [constructor|auto].
    - destruct I as [<-|I].
      + exists (n :: l). split; [econstructor; eauto|auto].
      + destruct (IH x I) as (l' & A & B). exists l'. split; auto. simpl. lia.
  Qed.
  Lemma hops_nodup : forall n l m, hops E file p n l m -> forall o, fetched E file p m o -> (forall n' g, ival o <> ORef n' g) ->
    NoDup (l ++ [m]).
  Proof.
    intros n l m H. induction H as [n|n o' n' g l m F V H IH]; intros o F' V'.
    - constructor; [intros []|constructor].
    - simpl. constructor; [|eapply IH; eauto]. intros I. destruct (hops_from _ _ _ H n I) as (l' & A & B).
      assert (K : hops E file p n (n :: l) m) by (econstructor; eauto).
      pose proof (hops_det _ _ _ K o F' V' _ A) as Eq. subst l'. simpl in B. lia.
  Qed.

  Lemma restoring_ok : forall m q o q', m q = Ok (o, q') -> exists q'', restoring file m q = Ok (o, q'').
  Proof. intros m q o q' H. unfold restoring, bind. rewrite H. eexists; reflexivity. Qed.
End Resolve.

Lemma resolve_null : forall E file p n l m, reads file p -> offsets_ok (pxref p) -> hops E file p n l m -> In m l ->
  exists f0 k, forall fuel, (f0 <= fuel)%nat -> exists p',
    Resolve fuel E file n p = Ok ({| inum := k; igen := 0; ival := OKw (lit "null"); istream := None |}, p').
Proof.
  intros E file p n l m W O H I.
  destruct (resolve_circle E file p O n l m H [] p W (conj eq_refl eq_refl) (or_introl I)) as (f0 & k & R).
  exists f0, k. intros fuel L. destruct (R fuel L) as (q' & Q). eapply restoring_ok in Q. exact Q.
Qed.
Lemma resolve_first_value : forall E file p n l m o, reads file p -> offsets_ok (pxref p) -> hops E file p n l m ->
  fetched E file p m o -> (forall n' g, ival o <> ORef n' g) ->
  exists f0, forall fuel, (f0 <= fuel)%nat -> exists p', Resolve fuel E file n p = Ok (o, p').
Proof.
  intros E file p n l m o W O H F V.
  destruct (resolve_value E file p O n l m H o F V [] p W (conj eq_refl eq_refl)) as (f0 & R).
  { eapply hops_nodup; eauto. } { intros x _ []. }
  exists f0. intros fuel L. destruct (R fuel L) as (q' & Q). eapply restoring_ok in Q. exact Q.
Qed.

(** ** GetObject behind the object's value *)
Definition object_end (E : env) (rs : Z -> M iobj) (f : nat) (n : Z) (e : xentry) (v : obj) (kw : bytes) : M iobj :=
  if bseq kw (lit "stream") then
    let d := match v with ODict d => d | _ => [] end in
    fl <- filter_list rs d ;;
    pl <- parms_list rs d ;;
    '(cf, (fl, pl)) <- choose_crypt rs (x_enc e) d fl pl ;;
    st <- read_stream E rs f (new_decryptor E cf n (x_gen e)) fl pl ;;
    ret {| inum := n; igen := x_gen e; ival := v; istream := st |}
  else ret {| inum := n; igen := x_gen e; ival := v; istream := None |}.

Lemma get_in_use_eq : forall E rs f file n e p,
  get_in_use E rs f file n e p =
  match ReadObject file (new_decryptor E (if x_enc e then sh_string (psh p) else CFNone) n (x_gen e))
          (snd (read_object_header (seek file (x_off e) (prd p)))) with
  | Ok ((v, er), s2) => object_end E rs f n e v (fst (read_keyword s2)) (with_rd (snd (read_keyword s2)) p)
  | Panic => Panic
  | OutOfFuel => OutOfFuel
  end.
Proof.
  intros E rs f file n e p. unfold get_in_use, bind at 1, pseek. cbv beta iota.
  unfold bind at 1, onrd at 1. cbn [prd with_rd].
  destruct (read_object_header (seek file (x_off e) (prd p))) as [h s1]. cbn [snd].
  unfold bind at 1, onrdr. cbn [prd with_rd psh].
  destruct (ReadObject file _ s1) as [[[v er] s2]| |]; try reflexivity.
  unfold bind at 1, onrd at 1. cbn [prd with_rd]. destruct (read_keyword s2) as [kw s3]. cbn [fst snd].
  unfold object_end. destruct (bseq kw (lit "stream")); reflexivity.
Qed.

(** GetObject with the resolver it uses *)
Lemma get_object_in_use : forall f E file n p e, xget n (pxref p) = Some e -> x_type e = 1 ->
  get_object (S f) E file n p = get_in_use E (fun r => restoring file (resolve f E file r [])) f file n e p.
Proof. intros f E file n p e X T. cbn [get_object]. rewrite X, T. reflexivity. Qed.

(** a decryptor returns or panics *)
Lemma new_decryptor_decent : forall E cf n g, decent (new_decryptor E cf n g).
Proof.
  intros E cf n g v. destruct cf; simpl; [discriminate| |].
  - unfold aes_decrypt, debug. destruct (zlen v <=? 16); [discriminate|].
    destruct (negb (_ || _)); [destruct (e_verbose E); discriminate|].
    destruct (negb (_ =? 0)); [destruct (e_verbose E); discriminate|discriminate].
  - unfold rc4_decrypt. destruct (_ && _); [discriminate|]. destruct v; discriminate.
Qed.
Lemma ReadObject_fuel : forall file dec s, wf file s -> decent dec -> ReadObject file dec s <> OutOfFuel.
Proof.
  intros file dec s W D H. pose proof (ReadObject_plain file dec s W) as S. rewrite H in S.
  pose proof (P_finish dec D (rest s)) as F. unfold sim, finish in *. destruct (P_object dec (rest s)) as [[[o er] [r ms]]| |]; [destruct S as (s2 & S & _); discriminate|discriminate|exact F].
Qed.

Lemma get_object_alike : forall fuel E file n p q, pxref p = pxref q -> psh p = psh q -> entry_ok n p ->
  match GetObject fuel E file n p, GetObject fuel E file n q with
  | Ok (o1, p'), Ok (o2, q') => o1 = o2 /\ exists ms, log (prd p') = log (prd p) ++ ms /\ log (prd q') = log (prd q) ++ ms
  | Panic, Panic => True
  | OutOfFuel, OutOfFuel => True
  | _, _ => False
  end.
Proof. intros fuel E file n p q X H O. exact (get_object_history fuel E file n p q (conj X H) O). Qed.
