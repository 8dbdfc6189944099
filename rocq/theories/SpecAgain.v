(** SpecAgain.v -- the objects that are the same after a second run on raw.pdf,
    written without reference to the String methods or the readers (C120). *)
From Verif Require Import Base Num Obj Env SpecLex SpecObj SpecFetch SpecOut SpecStream SpecRaw.
From Coq Require Import Strings.String.

(** a text that does not look like the start of an object or of a table *)
Definition silent_text (t : bytes) : Prop := ~ occurs (lit "obj") t /\ ~ occurs (lit "xref") t.
(** The object is printed so that it can be read (C80), nothing inside it looks
    like the start of an object or of a table, and it is not a cross-reference
    stream. *)
Record again (fmt : num -> bytes) (o : iobj) : Prop := {
  ag_number : 0 <= inum o <= 2 ^ 53;
  ag_generation : 0 <= igen o <= 2 ^ 53;
  ag_value : printable (ival o);
  ag_text : forall t, written fmt (ival o) t -> silent_text t;
  ag_type : forall d, ival o = ODict d -> ~ In (lit "Type", OName (lit "XRef")) d;
  ag_stream : forall data, istream o = Some data -> plain_stream fmt o data /\ silent_text data /\
    forall d n g, ival o = ODict d -> ~ In (lit "Type", ORef n g) d
}.
(** [raw] is the text of the objects [L]. *)
Definition prints (fmt : num -> bytes) (L : list iobj) (raw : bytes) : Prop :=
  exists ts, Forall2 (written_object fmt) L ts /\ raw = List.concat (map (fun t => t ++ [x0a]) ts).
