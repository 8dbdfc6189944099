(** SpecLinear.v -- writing a linearized document: it has two tables.  The first
    one is near the start of the file and is the one that is read first.  It
    lists objects before and behind it, and its trailer leads to the other table,
    which is at the end (C118). *)
From Verif Require Import Base Num Obj Env SpecLex SpecObj SpecFetch SpecStream SpecWrite SpecUpdate.
From Coq Require Import Strings.String Sorting.Permutation.

Record linear := {
  (** the objects in front of the first table, and those behind it *)
  ln_first : list iobj;
  ln_second : list iobj;
  (** the lines of the first table and of the one at the end *)
  ln_lines : list (Z * iobj);
  ln_more : list (Z * iobj);
  (** the trailer of the first table and of the one at the end *)
  ln_main : dict;
  ln_other : dict;
  (** where the first trailer says that the other table is *)
  ln_prev : Z;
  (** the number behind the first "startxref", mostly 0 *)
  ln_start : Z
}.

(** ** The text *)
Definition w_part (D : list iobj) (l : list (Z * iobj)) (d : dict) (start : Z) : bytes := w_objects D ++ w_sect [] l d ++ w_end start.
Definition at_first (x : linear) : Z := zlen w_version + zlen (w_objects (ln_first x)).
Definition w_first (x : linear) : bytes := w_part (ln_first x) (ln_lines x) (with_prev (Some (ln_prev x)) (ln_main x)) (ln_start x).
Definition at_second (x : linear) : Z := zlen w_version + zlen (w_first x) + zlen (w_objects (ln_second x)).
Definition w_linear (x : linear) : bytes := w_version ++ w_first x ++ w_part (ln_second x) (ln_more x) (ln_other x) (at_first x).
Definition ln_places (x : linear) : list (Z * iobj) := w_places (zlen w_version) (ln_first x) ++ w_places (zlen w_version + zlen (w_first x)) (ln_second x).
Definition ln_objects (x : linear) : list iobj := ln_first x ++ ln_second x.

(** ** What can be written *)
Record good_linear (x : linear) : Prop := {
  gl_objects : forall o, In o (ln_objects x) -> good_object o;
  gl_numbers : NoDup (map inum (ln_objects x));
  (** each object is in one of the tables *)
  gl_lines : Permutation (ln_lines x ++ ln_more x) (ln_places x);
  gl_prev : ln_prev x = at_second x;
  gl_start : 0 <= ln_start x < 10 ^ 10;
  gl_main : printable (ODict (ln_main x));
  gl_other : printable (ODict (ln_other x));
  gl_main_keys : ~ In (lit "Prev") (map fst (ln_main x)) /\ ~ In (lit "Encrypt") (map fst (ln_main x));
  gl_other_keys : ~ In (lit "Prev") (map fst (ln_other x)) /\ ~ In (lit "Encrypt") (map fst (ln_other x));
  (** the first object behind the first table is taken for a trailer (C93) *)
  gl_harmless : forall o D d, ln_second x = o :: D -> ival o = ODict d -> ~ In (lit "Prev") (map fst d) /\ ~ In (lit "Encrypt") (map fst d);
  gl_size : zlen (w_linear x) < 10 ^ 10
}.

(** ** What the document then says *)
(** the first trailer counts, and the other one for the keys that it does not have *)
Definition ln_key (x : linear) (k : bytes) : option obj := match entry (ln_main x) k with Some v => Some v | None => entry (ln_other x) k end.
(** [d] is the dictionary of the first object behind the first table. *)
Definition ln_stray (x : linear) (d : dict) : Prop := exists o D, ln_second x = o :: D /\ ival (as_written o) = ODict d.
