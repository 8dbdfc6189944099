(** SpecChain.v -- chains of actions (ISO 32000-1, 12.6.2), written without
    reference to the extraction (C70). *)
From Verif Require Import Base Num Obj Reader Env SpecFetch SpecLook SpecOut.
From Coq Require Import Strings.String.

(** The action [b] is performed after [a]: Next is an action or an array of
    actions.  In an array that has an object of its own they are references. *)
Inductive chained (E : env) (file : bytes) (p : pst) (a : dict) : dict -> Prop :=
| cn_here : chained E file p a a
| cn_dict : forall b c, chained E file p a b -> typed E file p is_dict (entry b (lit "Next")) c -> chained E file p a c
| cn_array : forall b l x c, chained E file p a b -> typed E file p is_array (entry b (lit "Next")) l -> In x l -> typed E file p is_dict (Some x) c ->
    entry b (lit "Next") = Some (OArr l) \/ (exists n g, x = ORef n g) -> chained E file p a c.
