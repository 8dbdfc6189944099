(** SpecErrors.v -- which messages the objects of a document call for, by the
    grammar of SpecTolerant for the text at the offset of their entry in the
    cross-reference table. *)
From Verif Require Import Base Msg Reader Num Obj Env SpecLex SpecObj SpecStream SpecTolerant.
From Coq Require Import Strings.String Sorting.Permutation.

(** the line of errors.txt for each fault *)
Definition fault_line (m : msg) : bytes :=
  match m with
  | InvalidDictionaryKeyType => lit "invalid dictionary key type"
  | InvalidHexStringChar => lit "invalid hex string character"
  | InvalidNameEscapeChar => lit "invalid name escape character"
  | InvalidOctal => lit "invalid octal in string"
  | MissingDictionaryValue => lit "missing dictionary value"
  | UnclosedArray => lit "unclosed array"
  | UnclosedDictionary => lit "unclosed dictionary"
  | UnclosedHexString => lit "unclosed hex string"
  | UnclosedStream => lit "unclosed stream"
  | UnclosedString => lit "unclosed string"
  | UnclosedStringEscape => lit "unclosed escape in string"
  | UnclosedStringOctal => lit "unclosed octal in string"
  | UnnecessaryEscapeName => lit "unnecessary espace sequence in name"
  | UnnecessaryEscapeString => lit "unnecessary espace sequence in string"
  end.
Fixpoint fault_lines (ms : list msg) : bytes :=
  match ms with [] => [] | m :: ms' => fault_line m ++ x0a :: fault_lines ms' end.

(** number tokens are read by a function that is exact on integers, so that
    the grammar agrees with the canonical syntax, and assigns to each text
    exactly one result *)
Record good_values (value : bytes -> num) : Prop := {
  gv_int : forall t z, int_text t z -> - 2 ^ 53 <= z <= 2 ^ 53 -> num_int (value t) = z /\ float_is (value t) z;
  gv_canonical : forall g t o r, gap g -> obj_text t o -> may_follow o r -> scan value (g ++ t ++ r) (IObj o) [] r;
  gv_total : forall t, exists x ms r, scan value t x ms r;
  gv_unique : forall t x ms r x' ms' r', scan value t x ms r -> scan value t x' ms' r' -> x = x' /\ ms = ms' /\ r = r'
}.

Definition token_start (b : byte) : Prop := ~ ws_byte b /\ b <> "%"%byte.
Definition not_digit (b : byte) : Prop := ~ In b (lit "0123456789").

(** [head_in t r]: [r] is left of [t] behind the object header "n g obj", or
    behind as much of it as is there. *)
Inductive head_in : bytes -> bytes -> Prop :=
| hd_none : forall g b u, gap g -> token_start b -> not_digit b -> head_in (g ++ b :: u) (b :: u)
| hd_one : forall g a n g' b u, gap g -> nat_text a n -> gap g' -> token_start b -> not_digit b ->
    head_in (g ++ a ++ g' ++ b :: u) (b :: u)
| hd_two : forall g a n g' c m g'' k r, gap g -> nat_text a n -> gap g' -> g' <> [] ->
    nat_text c m -> gap g'' -> (forall b, In b k -> regular_byte b) -> ends_token r ->
    (forall b k', g'' = [] -> k = b :: k' -> not_digit b) ->
    (k = [] -> r <> [] /\ forall b r', r = b :: r' -> token_start b) ->
    head_in (g ++ a ++ g' ++ c ++ g'' ++ k ++ r) r
| hd_blank : forall g a n g' c m t, gap g -> nat_text a n -> gap g' -> g' <> [] ->
    nat_text c m -> blank t -> head_in (g ++ a ++ g' ++ c ++ t) [].

(** the file ends before a second number; its last byte may be read again *)
Definition head_cut (t r : bytes) : Prop :=
  (blank t \/ exists g a n t', gap g /\ nat_text a n /\ blank t' /\ t = g ++ a ++ t') /\
  (r = [] \/ exists u b, t = u ++ [b] /\ r = [b]).

Section Due.
  Variable value : bytes -> num.
  Variable file : bytes.

  (** the messages for the object whose header is at [off] *)
  Definition text_due (off : Z) (ms : list msg) : Prop :=
    exists u x r, head_in (zdrop off file) u /\ scan value u x ms r.
  (** ... or at the cut-off end of the file *)
  Definition cut_due (off : Z) (ms : list msg) : Prop :=
    exists u x r, head_cut (zdrop off file) u /\ scan value u x ms r.
  (** the object is followed by the keyword stream, the rest of its line, and [d] *)
  Definition stream_data (off : Z) (d : bytes) : Prop :=
    exists u x ms g line eol, head_in (zdrop off file) u /\ scan value u x ms (g ++ lit "stream" ++ line ++ eol ++ d) /\
      gap g /\ ends_token (line ++ eol ++ d) /\ no_eol line /\ eol_before eol d.

  (** the place of an object in use (any place if the table gives a negative offset) *)
  Definition place (x : xmap) (n off : Z) : Prop :=
    exists e, xget n x = Some e /\ x_type e = 1 /\ (0 <= x_off e -> off = x_off e).
  (** one reading of some object in use *)
  Definition called_for (x : xmap) (ms : list msg) : Prop :=
    exists n off, place x n off /\ (text_due off ms \/ cut_due off ms \/ (ms = [UnclosedStream] /\ exists d, stream_data off d /\ d <> [])).
End Due.

(** numbers of the objects in use *)
Definition in_use (x : xmap) (n : Z) : Prop := exists e, xget n x = Some e /\ x_type e = 1.

(** the messages for the objects of the table [x]: in some order, for every
    object in use its own messages, then messages of further readings, among
    them the one for a stream that is not closed *)
Definition accounted (value : bytes -> num) (file : bytes) (x : xmap) (ms : list msg) : Prop :=
  exists blocks : list (Z * (list msg * list (list msg))),
    ms = List.concat (map (fun b => fst (snd b) ++ List.concat (snd (snd b))) blocks) /\
    NoDup (map fst blocks) /\ (forall n, In n (map fst blocks) <-> in_use x n) /\
    forall n own more, In (n, (own, more)) blocks ->
      (exists off, place x n off /\ (text_due value file off own \/ cut_due value file off own) /\
         forall d, stream_data value file off d -> d <> [] -> ~ occurs (lit "endstream") d -> In [UnclosedStream] more) /\
      forall l, In l more -> called_for value file x l.

(** an object in use is in good order: header, canonical value, endobj *)
Definition orderly (file : bytes) (x : xmap) (n : Z) : Prop :=
  exists e head k j g t o g2 r, xget n x = Some e /\ 0 <= x_off e /\
    zdrop (x_off e) file = head ++ g ++ t ++ g2 ++ lit "endobj" ++ r /\ object_head head k j /\
    gap g /\ ends_token (g ++ t) /\ obj_text t o /\ may_follow o (g2 ++ lit "endobj" ++ r) /\ gap g2 /\ ends_token r.

(** an object in use is a dictionary followed by the keyword stream, and
    "endstream" does not occur in the rest [r] of the file *)
Definition opened (file : bytes) (x : xmap) (n : Z) (r : bytes) : Prop :=
  exists e head k j g t d g2, xget n x = Some e /\ x_type e = 1 /\ 0 <= x_off e /\
    zdrop (x_off e) file = head ++ g ++ t ++ g2 ++ lit "stream" ++ r /\ object_head head k j /\
    gap g /\ obj_text t (ODict d) /\ gap g2 /\ ends_token r /\ ~ occurs (lit "endstream") r.
