(** PropGen.v -- C121: references and generations.  Only statements; the proofs
    are in GenP.v, the witnesses in GenEx.v. *)
From Verif Require Import Base Msg Reader Num Lexer Obj ReadObj Env Getters Crypt GetObj Load Output Render Parse SpecRead SpecFetch SpecLook SpecOut OutEx RawReadEx SpecGen GenP GenEx.
From Coq Require Import Strings.String.

(** ** C121.  Full statement: a reference stands for the object with its number
    and its generation, and for null if there is none.  This is false: the
    generation is not looked at, and the object that took the number over is
    taken for the one that was deleted. *)
Theorem C121_generation_refuted : exists E OD fuel S pw ops file p o, order_ok OD /\ s_input S = Some file /\ parse E OD fuel S pw = (ops, Ok PNone) /\
  load fuel E (o_objects OD) file pw (new_parser file) = Ok (None, p) /\ meant E file p 2 0 (OKw (lit "null")) None /\
  target E file p 2 o /\ ival o = OStr url11 /\ content FURLs ops = url11 ++ [x0a].
Proof. exact stale_refuted. Qed.
Print Assumptions C121_generation_refuted.

(** True if the references passed have the generations of the objects that are
    in use under their numbers.  Missing: outdated references. *)
Theorem C121_current_partial : forall E file p n g v s, reads file p -> offsets_ok (pxref p) -> (forall m k, passes E file p n g m k -> in_use p m -> has_generation p m k) ->
  meant E file p n g v s -> exists o f0, ival o = v /\ istream o = s /\ forall fuel, (f0 <= fuel)%nat -> exists p', Resolve fuel E file n p = Ok (o, p').
Proof. exact meant_resolved. Qed.
Print Assumptions C121_current_partial.

(** a reference to a reference *)
Example C121_example : reads stale p11 /\ offsets_ok (pxref p11) /\ (forall m k, passes E6 stale p11 3 0 m k -> in_use p11 m -> has_generation p11 m k) /\
  meant E6 stale p11 3 0 (OStr url11) None /\ ~ has_generation p11 2 0 /\ has_generation p11 2 1.
Proof. exact C121_ex. Qed.
