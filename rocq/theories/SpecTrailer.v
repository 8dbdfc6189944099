(** SpecTrailer.v -- which dictionaries of a file are trailers (C93). *)
From Verif Require Import Base Obj Env SpecLex SpecObj SpecFetch SpecScan SpecXref SpecRecover.
From Coq Require Import Strings.String.

(** a dictionary behind the keyword, or that of a cross-reference stream *)
Inductive trailer_dict (E : env) (file : bytes) : dict -> Prop :=
| td_table : forall i g t d r, 0 <= i -> zdrop i file = lit "trailer" ++ g ++ t ++ r -> gap g -> obj_text t (ODict d) -> trailer_dict E file d
| td_stream : forall i n g b d data w, stream_at E file i n g b d data -> widths_of d w -> trailer_dict E file d.

(** The text "xref" at [i] is the end of the last "startxref": a number and
    nothing else follows. *)
Definition start_at (file : bytes) (i : Z) : Prop :=
  exists g t n r, zdrop i file = lit "xref" ++ g ++ t ++ r /\ gap g /\ g <> [] /\ nat_text t n /\ blank r.

(** The text "xref" at [i] is the end of any "startxref": behind the number there
    is nothing, or a word that no dictionary follows, like the "xref" of the next
    table, or an object, whose dictionary is then [Some d]. *)
Inductive old_start (E : env) (file : bytes) (i : Z) : option dict -> Prop :=
| os_end : start_at file i -> old_start E file i None
| os_word : forall g t n g1 b w r, zdrop i file = lit "xref" ++ g ++ t ++ g1 ++ (b :: w) ++ r -> gap g -> g <> [] -> nat_text t n -> gap g1 -> g1 <> [] ->
    (forall c, In c (b :: w) -> regular_byte c) -> (forall d, ~ decdigit b d) -> ends_token r -> (forall g2 q, gap g2 -> r <> g2 ++ lit "<<" ++ q) -> old_start E file i None
| os_object : forall g t n g1 h N G r v st, zdrop i file = lit "xref" ++ g ++ t ++ g1 ++ h ++ r -> gap g -> g <> [] -> nat_text t n -> gap g1 -> g1 <> [] ->
    header h N G -> 0 <= N < 2 ^ 63 -> behind E h r v st -> (forall d, v = ODict d -> entry d (lit "Prev") = None) ->
    old_start E file i (match v with ODict d => Some d | _ => None end).
