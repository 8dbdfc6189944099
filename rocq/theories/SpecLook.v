(** SpecLook.v -- what a dictionary or array entry stands for in a document:
    itself or, for a reference, the object at the end of the chain of
    references (C14). *)
From Verif Require Import Base Msg Reader ReaderP Num Lexer Obj Env Getters GetObj SpecFetch.
From Coq Require Import Strings.String.

(** Nothing but the reader's position and the log differs. *)
Definition kept (file : bytes) (p q : pst) : Prop :=
  reads file q /\ pxref q = pxref p /\ ptrailer q = ptrailer p /\ psh q = psh p.

(** Following the reference to object [n] leads to [o]. *)
Definition target (E : env) (file : bytes) (p : pst) (n : Z) (o : iobj) : Prop :=
  exists fuel p', Resolve fuel E file n p = Ok (o, p').

Inductive value (E : env) (file : bytes) (p : pst) : option obj -> option obj -> Prop :=
| v_none : value E file p None None
| v_direct : forall x, (forall n g, x <> ORef n g) -> value E file p (Some x) (Some x)
| v_ref : forall n g o, target E file p n o -> value E file p (Some (ORef n g)) (Some (ival o)).

(** The entry stands for an [a] ... *)
Definition typed {A} E file p (is : obj -> A -> Prop) (x : option obj) (a : A) : Prop :=
  exists v, value E file p x (Some v) /\ is v a.
(** ... or for nothing of that kind. *)
Definition untyped {A} E file p (is : obj -> A -> Prop) (x : option obj) : Prop :=
  value E file p x None \/ exists v, value E file p x (Some v) /\ forall a, ~ is v a.
(** [a], or [dflt] where there is none *)
Definition typed_or {A} E file p (is : obj -> A -> Prop) (x : option obj) (dflt a : A) : Prop :=
  typed E file p is x a \/ (untyped E file p is x /\ a = dflt).
