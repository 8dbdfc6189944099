(** SpecOrder.v -- what it means that two runs write the same, for C85. *)
From Verif Require Import Base Msg Reader Num Lexer Obj Env GetObj Xref Load Output Parse SpecOut.
From Coq Require Import Strings.String Sorting.Permutation.

(** The same write: equal, or the text of the same object in raw.pdf, where the
    entries of a dictionary may come in another order. *)
Inductive same_write (fmt : num -> bytes) : ev -> ev -> Prop :=
| sw_equal : forall e, same_write fmt e e
| sw_raw : forall o t t', written_object fmt o t -> written_object fmt o t' -> same_write fmt (EWrite FRaw (t ++ [x0a])) (EWrite FRaw (t' ++ [x0a])).

(** The same writes in another order. *)
Definition same_writes (fmt : num -> bytes) (w w' : list ev) : Prop := exists u, Permutation w u /\ Forall2 (same_write fmt) u w'.

(** What an execution wrote. *)
Definition writes (ops : list op) : list ev := flat_map (fun o => match o with OpEv e => [e] | _ => [] end) ops.

(** What else it did: directories and files made, files closed. *)
Definition others (ops : list op) : list op := filter (fun o => match o with OpEv _ => false | _ => true end) ops.

(** No offset in the table is negative. *)
Definition offsets_inside (x : xmap) : Prop := forall n e, xget n x = Some e -> 0 <= x_off e.

(** The table as Load's cross-reference sections give it, before it is repaired. *)
Definition sections_table (fuel : nat) (E : env) (file : bytes) (x : xmap) : Prop :=
  exists objs p0 p1 p, find_objects fuel E file (new_parser file) = Ok (objs, p0) /\ pseek file (zlen file) p0 = Ok (tt, p1) /\
    load_all fuel E file (xref_offsets file objs) p1 = Ok (tt, p) /\ x = pxref p.

(** What was written to one file, write by write, and the dumped files. *)
Definition written_to (f : ofile) (w : list ev) : list bytes := flat_map (fun e => match e with EWrite g b => if ofile_eqb f g then [b] else [] | _ => [] end) w.
Definition dumped (w : list ev) : list (bytes * bytes) := flat_map (fun e => match e with EDump n d => [(n, d)] | _ => [] end) w.
