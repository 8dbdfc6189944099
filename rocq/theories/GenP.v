(** GenP.v -- references and generations (C121). *)
From Verif Require Import Base BaseP Msg Reader ReaderP Num Lexer Obj ReadObj Env Getters Crypt GetObj GetObjP Load SpecRead SpecFetch SpecLook FetchP LookP SpecOut SpecGen.
From Coq Require Import Strings.String.

Lemma passes_step : forall E file p n g o m k, fetched E file p n o -> ival o = ORef m k -> forall m' k', passes E file p m k m' k' -> passes E file p n g m' k'.
Proof.
  intros E file p n g o m k F Q m' k' H. induction H as [| m1 k1 o1 m2 k2 H IH F1 Q1]; [eapply ps_next; [apply ps_here | exact F | exact Q] | eapply ps_next; eassumption].
Qed.
Lemma meant_hops : forall E file p n g v s, meant E file p n g v s -> (forall m k, passes E file p n g m k -> in_use p m -> has_generation p m k) ->
  exists l m o, hops E file p n l m /\ fetched E file p m o /\ (forall n' g', ival o <> ORef n' g') /\ ival o = v /\ istream o = s.
Proof.
  intros E file p n g v s H. induction H as [n g o HG F D | n g o m k v s HG F Q H IH | n g N]; intros R.
  - exists [], n, o. split; [constructor |]. auto.
  - destruct IH as (l & m' & o' & HP & F' & D & A & B); [intros; apply R; [eapply passes_step; eassumption | assumption] |].
    exists (n :: l), m', o'. split; [eapply hop_next; eassumption | auto].
  - exists [], n, (new_iobj n). split; [constructor |]. split; [| split; [discriminate | split; reflexivity]].
    exists 1%nat, p. unfold GetObject. cbn [get_object]. destruct (xget n (pxref p)) as [e |] eqn:X; [| reflexivity].
    destruct (x_type e =? XrefTypeIndirectObject) eqn:TY; [| reflexivity]. exfalso. apply N. apply Z.eqb_eq in TY. apply R; [constructor |]. exists e. auto.
Qed.
Theorem meant_resolved : forall E file p n g v s, reads file p -> offsets_ok (pxref p) -> (forall m k, passes E file p n g m k -> in_use p m -> has_generation p m k) ->
  meant E file p n g v s -> exists o f0, ival o = v /\ istream o = s /\ forall fuel, (f0 <= fuel)%nat -> exists p', Resolve fuel E file n p = Ok (o, p').
Proof.
  intros E file p n g v s W OF R M. destruct (meant_hops _ _ _ _ _ _ _ M R) as (l & m & o & HP & F & D & A & B).
  destruct (resolve_first_value E file p n l m o W OF HP F D) as (f0 & H). exists o, f0. auto.
Qed.
