(** PackedP.v -- objects kept in object streams (C104). *)
From Verif Require Import Base BaseP Msg Reader ReaderP Num Obj ReadObj Env Crypt GetObj Load Extract Output Parse SpecLex SpecObj SpecFetch FetchP SpecOut SpecLook LookP RawP OutP SpecPacked.
From Coq Require Import Strings.String Sorting.Permutation.

Lemma compressed_null : forall E file p n v, compressed E file p n v -> forall fuel,
  GetObject (S fuel) E file n p = Ok ({| inum := n; igen := 0; ival := OKw (lit "null"); istream := None |}, p).
Proof. intros E file p n v (e & i & o & d & data & X & T & _) fuel. apply get_object_absent. intros e' X'. rewrite X in X'. injection X' as <-. rewrite T. discriminate. Qed.

Lemma in_concat : forall (ts : list bytes) (t : bytes), In t ts -> exists a b, List.concat (map (fun t => t ++ [x0a]) ts) = a ++ t ++ b.
Proof.
  induction ts as [| t0 ts IH]; intros t [].
  - subst t0. exists [], ([x0a] ++ List.concat (map (fun t => t ++ [x0a]) ts)). cbn [map List.concat]. rewrite <- app_assoc. reflexivity.
  - destruct (IH t H) as (a & b & Q). exists ((t0 ++ [x0a]) ++ a), b. cbn [map List.concat]. rewrite Q, <- !app_assoc. reflexivity.
Qed.
Lemma forall2_in : forall A B (R : A -> B -> Prop) l m, Forall2 R l m -> forall x, In x l -> exists y, In y m /\ R x y.
Proof. intros A B R l m H. induction H as [| x0 y0 l m X H IH]; intros x []; [subst; exists y0; split; [left; reflexivity | exact X] |]. destruct (IH x H0) as (y & I & Y). exists y. split; [right; exact I | exact Y]. Qed.

(** the object stream itself is printed *)
Lemma packed_printed : forall E OD fuel S pw ops file p n v, order_ok OD -> parse E OD fuel S pw = (ops, Ok PNone) -> s_input S = Some file ->
  load fuel E (o_objects OD) file pw (new_parser file) = Ok (None, p) -> offsets_ok (pxref p) -> compressed E file p n v ->
  exists a t r b, obj_text t v /\ may_follow v r /\ content FRaw ops = a ++ t ++ r ++ [x0a] ++ lit "endstream" ++ b.
Proof.
  intros E OD fuel S pw ops file p n v OK R I L OF (e & i & o & d & data & X & T & G & F & V & D & (h & first & l & off & t & r & _ & _ & _ & _ & _ & _ & _ & Dr & OT & MF)).
  destruct (parse_raw _ _ _ _ _ _ OK R) as (file' & p1 & I' & L' & (objs & ts & ND & IN & FA & F2 & Q)). rewrite I in I'. injection I' as <-. rewrite L in L'. injection L' as <-.
  assert (U : in_use p (x_off e)).
  { destruct F as (f & p' & F). destruct f as [| f]; [discriminate |]. destruct (xget (x_off e) (pxref p)) as [e2 |] eqn:X2.
    - destruct (Z.eq_dec (x_type e2) 1) as [T2 | T2]; [exists e2; split; [exact X2 | exact T2] |]. exfalso.
      rewrite get_object_absent in F by (intros e' X'; rewrite X2 in X'; injection X' as <-; exact T2). injection F as <- _. discriminate.
    - exfalso. rewrite get_object_absent in F by (intros e' X'; rewrite X2 in X'; discriminate). injection F as <- _. discriminate. }
  apply IN in U. apply in_map_iff in U. destruct U as ((m & o') & M & Im). cbn in M. subst m.
  rewrite Forall_forall in FA. destruct (FA _ Im) as (_ & q & K & F'). cbn [fst snd] in F'.
  destruct (fetched_at E file p q _ _ (kept_alike _ _ _ K) (fun e' X' T' => OF _ e' X' T') F) as (f0 & Hf).
  assert (o' = o). { apply (fetched_det E file q (x_off e)); [exact F' |]. destruct (Hf f0 (le_n _)) as (p' & Q'). exists f0, p'. exact Q'. } subst o'.
  destruct (forall2_in _ _ _ _ _ F2 _ Im) as (t1 & I1 & (tn & tg & v1 & _ & _ & _ & Q1)). cbn [snd] in Q1. rewrite D in Q1.
  destruct (in_concat ts t1 I1) as (a & b & Q2). rewrite Q, Q2, Q1. unfold stream_text.
  assert (Q3 : exists pre, data = pre ++ t ++ r) by (exists (ztake (first + off) data); rewrite <- Dr; unfold ztake, zdrop; destruct (first + off <? zlen data); symmetry; [apply firstn_skipn | apply app_nil_r]).
  destruct Q3 as (pre & ->).
  exists (a ++ tn ++ lit " " ++ tg ++ lit " obj" ++ [x0a] ++ v1 ++ [x0a] ++ lit "stream" ++ [x0a] ++ pre), t, r, ([x0a] ++ lit "endobj" ++ [x0a] ++ b).
  split; [exact OT |]. split; [exact MF |]. rewrite <- !app_assoc. reflexivity.
Qed.

Lemma compressed_lost : forall E file p n v, compressed E file p n v -> v <> OKw (lit "null") -> forall o, fetched E file p n o -> ival o <> v.
Proof.
  intros E file p n v C N o (f & p' & F) Q. destruct f as [| f]; [discriminate |]. rewrite (compressed_null _ _ _ _ _ C f) in F. injection F as <- _. apply N. symmetry. exact Q.
Qed.
