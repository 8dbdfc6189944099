(** SpecXref.v -- cross-reference sections: tables, streams, and chains of
    them, as texts in the file. *)
From Verif Require Import Base Reader Num Obj Env SpecLex SpecObj SpecFilters SpecFetch SpecStream.
From Coq Require Import Strings.String.

(** The last pair with the number [n]. *)
Fixpoint latest {A} (n : Z) (l : list (Z * A)) : option A :=
  match l with
  | [] => None
  | (k, x) :: l' => match latest n l' with Some y => Some y | None => if k =? n then Some x else None end
  end.
(** Consecutive numbers from [n] on, as ints. *)
Fixpoint number_from {A} (n : Z) (l : list A) : list (Z * A) :=
  match l with [] => [] | x :: l' => (wrap64 n, x) :: number_from (n + 1) l' end.

(** ** Tables *)
(** a line: offset, generation, and whether the object is in use *)
Definition line : Type := (Z * Z * bool)%type.
Inductive line_text : bytes -> line -> Prop :=
| lt_intro : forall a off s b gen s' (u : bool), nat_text a off -> gap s -> s <> [] -> nat_text b gen -> gap s' ->
    line_text (a ++ s ++ b ++ s' ++ (if u then lit "n" else lit "f")) (off, gen, u).
Inductive lines_text : bytes -> list line -> Prop :=
| ls_nil : lines_text [] []
| ls_cons : forall t x g r l, line_text t x -> gap g -> g <> [] -> lines_text r l -> lines_text (t ++ g ++ r) (x :: l).
(** subsections: the first number, and the lines *)
Inductive table_text : bytes -> list (Z * list line) -> Prop :=
| tt_nil : table_text [] []
| tt_cons : forall a start s b s' t ls r secs, nat_text a start -> gap s -> s <> [] -> nat_text b (zlen ls) -> gap s' -> s' <> [] ->
    zlen ls < 2 ^ 63 -> lines_text t ls -> table_text r secs ->
    table_text (a ++ s ++ b ++ s' ++ t ++ r) ((start, ls) :: secs).
Definition line_entry (x : line) : xentry :=
  let '(off, gen, u) := x in
  {| x_off := wrap64 off; x_gen := wrap64 gen; x_type := if u : bool then 1 else 0; x_enc := true; x_stm := false |}.
(** All lines with their object numbers. *)
Definition table_lines (secs : list (Z * list line)) : list (Z * xentry) :=
  flat_map (fun s => number_from (fst s) (map line_entry (snd s))) secs.
(** What ends the table: anything that is neither a number nor a gap. *)
Definition section_end (r : bytes) : Prop :=
  exists b r', r = b :: r' /\ ~ ws_byte b /\ b <> "%"%byte /\ forall d, ~ decdigit b d.

(** ** Streams *)
(** a record: three big-endian fields of the given widths *)
Definition widths : Type := (Z * Z * Z)%type.
Inductive record_text (w : widths) : bytes -> xentry -> Prop :=
| rt_intro : forall x y z, w = (zlen x, zlen y, zlen z) ->
    record_text w (x ++ y ++ z)
      {| x_off := wrap64 (be y); x_gen := wrap64 (be z); x_type := wrap64 (be x); x_enc := true; x_stm := false |}.
Inductive records_text (w : widths) : bytes -> list xentry -> Prop :=
| rs_nil : records_text w [] []
| rs_cons : forall t e r l, record_text w t e -> records_text w r l -> records_text w (t ++ r) (e :: l).
Definition record_size (w : widths) : Z := let '(a, b, c) := w in a + b + c.
(** [stream_lines w pairs data l whole]: the records in [data] for the pairs of
    first number and count; [whole] says if all of them are there. *)
Inductive stream_lines (w : widths) : list (Z * Z) -> bytes -> list (Z * xentry) -> bool -> Prop :=
| sl_nil : forall data, stream_lines w [] data [] true
| sl_full : forall start count pairs t l data m whole, records_text w t l -> zlen l = Z.max 0 count ->
    stream_lines w pairs data m whole -> stream_lines w ((start, count) :: pairs) (t ++ data) (number_from start l ++ m) whole
| sl_short : forall start count pairs t l data, records_text w t l -> zlen l < count -> zlen data < record_size w ->
    stream_lines w ((start, count) :: pairs) (t ++ data) (number_from start l) false.

(** the pairs in an Index array; an odd element at the end is left over *)
Inductive index_pairs : list obj -> list (Z * Z) -> Prop :=
| ip_nil : index_pairs [] []
| ip_odd : forall o, index_pairs [o] []
| ip_pair : forall a b l ps, index_pairs l ps -> index_pairs (ONum a :: ONum b :: l) ((num_int a, num_int b) :: ps).
(** Index, or 0 and Size *)
Inductive index_of (d : dict) : list (Z * Z) -> Prop :=
| ix_index : forall l ps, entry d (lit "Index") = Some (OArr l) -> index_pairs l ps -> index_of d ps
| ix_size : forall q, entry d (lit "Index") = None -> entry d (lit "Size") = Some (ONum q) -> index_of d [(0, num_int q)].
(** W, with widths memory can be allocated for *)
Inductive widths_of (d : dict) : widths -> Prop :=
| wo_intro : forall a b c l, entry d (lit "W") = Some (OArr (ONum a :: ONum b :: ONum c :: l)) ->
    0 <= num_int a <= 2 ^ 48 -> 0 <= num_int b <= 2 ^ 48 -> 0 <= num_int c <= 2 ^ 48 -> widths_of d (num_int a, num_int b, num_int c).

(** [d] has no indirect value for [k] *)
Definition direct_entry (d : dict) (k : bytes) : Prop := forall x, entry d k = Some x -> direct x.
(** pairs of numbers *)
Definition number_pairs (qs : list (num * num)) : list obj := flat_map (fun q => [ONum (fst q); ONum (snd q)]) qs.
Definition int_pairs (qs : list (num * num)) : list (Z * Z) := map (fun q => (num_int (fst q), num_int (snd q))) qs.
(** [stream_says d data l whole]: what a stream with the dictionary [d] and the
    data [data] says, and whether all of it was there.  Reading stops at a pair
    in Index that is not one of numbers; without Index and Size, or without three
    widths, nothing is read. *)
Inductive stream_says (d : dict) (data : bytes) : list (Z * xentry) -> bool -> Prop :=
| ss_lines : forall w ps l whole, widths_of d w -> index_of d ps -> stream_lines w ps data l whole -> stream_says d data l whole
| ss_index : forall w qs a b r l whole, widths_of d w -> entry d (lit "Index") = Some (OArr (number_pairs qs ++ a :: b :: r)) -> direct a -> direct b ->
    (forall x y, ~ (a = ONum x /\ b = ONum y)) -> stream_lines w (int_pairs qs) data l whole -> stream_says d data l false
| ss_no_index : direct_entry d (lit "Index") -> direct_entry d (lit "Size") -> (forall l, entry d (lit "Index") <> Some (OArr l)) -> (forall q, entry d (lit "Size") <> Some (ONum q)) ->
    stream_says d data [] false
| ss_no_widths : direct_entry d (lit "Index") -> direct_entry d (lit "Size") -> direct_entry d (lit "W") -> (forall l, entry d (lit "W") = Some (OArr l) -> forall x, In x l -> direct x) ->
    (forall a b c l, entry d (lit "W") <> Some (OArr (ONum a :: ONum b :: ONum c :: l))) -> stream_says d data [] false.

(** The stream object at [off]: its number, generation, the offset behind its
    header, its dictionary and its decoded data. *)
Inductive stream_at (E : env) (file : bytes) (off : Z) : Z -> Z -> Z -> dict -> bytes -> Prop :=
| sa_intro : forall head n g g1 t d g2 pre eol data eol' r fl pl out,
    object_head head n g -> gap g1 -> obj_text t (ODict d) -> gap g2 -> no_eol pre -> ends_token (pre ++ eol) ->
    eol_before eol (data ++ eol' ++ lit "endstream" ++ r) -> ~ occurs (lit "endstream") data -> eol_after data eol' ->
    0 <= off -> zdrop off file = head ++ g1 ++ t ++ g2 ++ lit "stream" ++ pre ++ eol ++ data ++ eol' ++ lit "endstream" ++ r ->
    zlen (head ++ g1 ++ t ++ g2 ++ lit "stream" ++ pre ++ eol) + 9 <= bufsize ->
    filters_of d fl -> parms_of d pl -> decoded E fl pl (Some data) out ->
    stream_at E file off (wrap64 n) (wrap64 g) (off + zlen head) d (match out with Some x => x | None => [] end).
(** the entry a cross-reference stream gets itself *)
Definition own_entry (off gen : Z) : xentry :=
  {| x_off := off; x_gen := gen; x_type := 1; x_enc := false; x_stm := false |}.
(** and gets again once all records have been read *)
Definition own_lines (whole : bool) (n : Z) (e : xentry) : list (Z * xentry) := if whole then [(n, e)] else [].

(** ** Chains *)
Record section := { sc_entries : list (Z * xentry); sc_trailer : dict }.
Inductive prev_of (d : dict) : option Z -> Prop :=
| pv_some : forall q, entry d (lit "Prev") = Some (ONum q) -> prev_of d (Some (num_int q))
| pv_none : entry d (lit "Prev") = None -> prev_of d None.
(** the table or stream at [off], and where it says the previous one is.  The
    first two bytes of a trailer must not be separated by the end of a 4096
    byte chunk (C36). *)
Inductive section_at (E : env) (file : bytes) (off : Z) : section -> option Z -> Prop :=
| at_table : forall g0 g1 T secs g2 t d r pv, 0 <= off ->
    zdrop off file = g0 ++ lit "xref" ++ g1 ++ T ++ lit "trailer" ++ g2 ++ t ++ r ->
    gap g0 -> gap g1 -> g1 <> [] -> table_text T secs -> gap g2 -> obj_text t (ODict d) ->
    zlen (g0 ++ lit "xref" ++ g1 ++ T ++ lit "trailer" ++ g2) mod bufsize <> bufsize - 1 -> prev_of d pv ->
    section_at E file off {| sc_entries := table_lines secs; sc_trailer := d |} pv
| at_stream : forall n g behind d data w pairs l pv, stream_at E file off n g behind d data ->
    widths_of d w -> index_of d pairs -> stream_lines w pairs data l true -> prev_of d pv ->
    section_at E file off {| sc_entries := l ++ [(n, own_entry behind g)]; sc_trailer := d |} pv.
(** Neither a table nor an object is at [off]. *)
Inductive nothing_at (file : bytes) (off : Z) : Prop :=
| na_blank : 0 <= off -> blank (zdrop off file) -> nothing_at file off
| na_word : forall g b w r, 0 <= off -> zdrop off file = g ++ (b :: w) ++ r -> gap g -> (forall c, In c (b :: w) -> regular_byte c) ->
    (forall d, ~ decdigit b d) -> ends_token r -> b :: w <> lit "xref" -> nothing_at file off.
(** The sections from [off] on, newest first; offsets in [seen] are not
    followed again. *)
Inductive chain (E : env) (file : bytes) : Z -> list Z -> list section -> Prop :=
| ch_seen : forall off seen, In off seen -> chain E file off seen []
| ch_none : forall off seen, nothing_at file off -> chain E file off seen []
| ch_last : forall off seen s, ~ In off seen -> section_at E file off s None -> chain E file off seen [s]
| ch_prev : forall off seen s pv l, ~ In off seen -> section_at E file off s (Some pv) -> chain E file pv (off :: seen) l ->
    chain E file off seen (s :: l).
(** What the sections, newest first, have for [n], if they have something. *)
Fixpoint newest (n : Z) (l : list section) : option xentry :=
  match l with
  | [] => None
  | s :: l' => match latest n (sc_entries s) with Some e => Some e | None => newest n l' end
  end.
Fixpoint newest_key (k : bytes) (l : list section) : option obj :=
  match l with
  | [] => None
  | s :: l' => match entry (sc_trailer s) k with Some o => Some o | None => newest_key k l' end
  end.
(** [x], or else [y] *)
Definition or_else {A} (x y : option A) : option A := match x with Some _ => x | None => y end.
