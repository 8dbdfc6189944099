(** SpecGen.v -- what a reference stands for (ISO 32000-1, 7.3.10): the object
    with its number and its generation, or null, written without reference to
    the readers (C121). *)
From Verif Require Import Base Num Obj Reader Env SpecFetch SpecOut.
From Coq Require Import Strings.String.

(** Object [n] is in use with generation [g]. *)
Definition has_generation (p : pst) (n g : Z) : Prop := exists e, xget n (pxref p) = Some e /\ x_type e = 1 /\ x_gen e = g.
(** [n g R] stands for the value [v], with the stream [s]. *)
Inductive meant (E : env) (file : bytes) (p : pst) : Z -> Z -> obj -> option bytes -> Prop :=
| mt_value : forall n g o, has_generation p n g -> fetched E file p n o -> (forall m k, ival o <> ORef m k) -> meant E file p n g (ival o) (istream o)
| mt_next : forall n g o m k v s, has_generation p n g -> fetched E file p n o -> ival o = ORef m k -> meant E file p m k v s -> meant E file p n g v s
| mt_null : forall n g, ~ has_generation p n g -> meant E file p n g (OKw (lit "null")) None.
(** Following [n g R] leads past [m k R]. *)
Inductive passes (E : env) (file : bytes) (p : pst) (n g : Z) : Z -> Z -> Prop :=
| ps_here : passes E file p n g n g
| ps_next : forall m k o m' k', passes E file p n g m k -> fetched E file p m o -> ival o = ORef m' k' -> passes E file p n g m' k'.
