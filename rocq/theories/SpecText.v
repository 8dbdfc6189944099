(** SpecText.v -- sequences of operators, character maps (PDF 32000-1, 9.10.3)
    and the text of content streams (9.4). *)
From Verif Require Import Base Num Obj SpecLex SpecObj SpecFilters.
From Coq Require Import Strings.String.

(** Operators behind their operands; operands without an operator at the end
    mean nothing. *)
Definition operand (o : obj) : Prop := forall k, o <> OKw k.
Inductive commands : list obj -> list (bytes * list obj) -> Prop :=
| co_end : forall ops, Forall operand ops -> commands ops []
| co_cons : forall ops k r cs, Forall operand ops -> commands r cs -> commands (ops ++ OKw k :: r) ((k, ops) :: cs).

(** ** Fonts *)
(** The text of a string: codes of [w] bytes, mapped or kept, an incomplete
    code at the end is dropped.  A code is a number as Go's int has it. *)
Definition code (c : bytes) : Z := wrap64 (be c).
Inductive decoded (m : Z -> option bytes) (w : Z) : bytes -> bytes -> Prop :=
| de_end : forall b, zlen b < w -> decoded m w b []
| de_mapped : forall c r v out, zlen c = w -> m (code c) = Some v -> decoded m w r out -> decoded m w (c ++ r) (v ++ out)
| de_kept : forall c r out, zlen c = w -> m (code c) = None -> decoded m w r out -> decoded m w (c ++ r) (c ++ out).

(** ** Character maps *)
Inductive hex_text : bytes -> bytes -> Prop :=
| ht_intro : forall t ds k v, hex_digits t ds k -> hex_pairs ds v -> hex_text ("<"%byte :: t ++ [">"%byte]) v.
Inductive mapping := MChar (c v : bytes) | MRange (lo hi v : bytes).
(** the lines of a section; the first one starts at once *)
Inductive chars_text : bytes -> list mapping -> Prop :=
| cs_last : forall a c g b v, hex_text a c -> c <> [] -> gap g -> hex_text b v -> v <> [] -> chars_text (a ++ g ++ b) [MChar c v]
| cs_more : forall a c g b v g' r l, hex_text a c -> c <> [] -> gap g -> hex_text b v -> v <> [] -> gap g' -> chars_text r l ->
    chars_text (a ++ g ++ b ++ g' ++ r) (MChar c v :: l).
Inductive ranges_text : bytes -> list mapping -> Prop :=
| rg_last : forall a lo g1 b hi g2 c v, hex_text a lo -> lo <> [] -> gap g1 -> hex_text b hi -> hi <> [] -> gap g2 -> hex_text c v -> v <> [] ->
    ranges_text (a ++ g1 ++ b ++ g2 ++ c) [MRange lo hi v]
| rg_more : forall a lo g1 b hi g2 c v g' r l, hex_text a lo -> lo <> [] -> gap g1 -> hex_text b hi -> hi <> [] -> gap g2 -> hex_text c v -> v <> [] ->
    gap g' -> ranges_text r l -> ranges_text (a ++ g1 ++ b ++ g2 ++ c ++ g' ++ r) (MRange lo hi v :: l).
(** A CMap and its mappings: sections of lines, anything else between them. *)
Definition no_section (o : obj) : Prop := o <> OKw (lit "beginbfchar") /\ o <> OKw (lit "beginbfrange").
Inductive cmap_text : bytes -> list mapping -> Prop :=
| cm_end : forall t l, items t l -> Forall no_section l -> cmap_text t []
| cm_chars : forall t l q p ms r ms', items t (l ++ [ONum q; OKw (lit "beginbfchar")]) -> Forall no_section l ->
    chars_text p ms -> num_int q = zlen ms -> cmap_text r ms' -> cmap_text (t ++ p ++ r) (ms ++ ms')
| cm_ranges : forall t l q p ms r ms', items t (l ++ [ONum q; OKw (lit "beginbfrange")]) -> Forall no_section l ->
    ranges_text p ms -> num_int q = zlen ms -> cmap_text r ms' -> cmap_text (t ++ p ++ r) (ms ++ ms').
(** the codes a line is about *)
Definition covers (m : mapping) (c : Z) : Prop :=
  match m with
  | MChar k _ => c = code k
  | MRange lo hi _ => code lo <= c <= code hi
  end.
(** ... which end before the largest number *)
Definition bounded (m : mapping) : Prop := match m with MChar _ _ => True | MRange _ hi _ => code hi < 2 ^ 63 - 1 end.
(** what the line says about them: the last byte of a range's value counts up *)
Definition plus (v : bytes) (k : Z) : bytes := removelast v ++ [zb (bv (List.last v x00) + k)].
Definition says (m : mapping) (c : Z) : bytes :=
  match m with
  | MChar _ v => v
  | MRange lo _ v => plus v (c - code lo)
  end.
(** what is made of it (C44) *)
Definition taken (m : mapping) : bytes := match m with MChar _ v => v | MRange _ _ v => v end.
(** the last line about a code counts *)
Definition mapped (what : mapping -> bytes) (ms : list mapping) (c : Z) (x : option bytes) : Prop :=
  (Forall (fun m => ~ covers m c) ms /\ x = None) \/
  exists a m b, ms = a ++ m :: b /\ covers m c /\ Forall (fun m => ~ covers m c) b /\ x = Some (what m).
(** the number of bytes of the last code listed *)
Definition source (m : mapping) : bytes := match m with MChar c _ => c | MRange lo _ _ => lo end.
Definition width_of (ms : list mapping) : Z := List.last (map (fun m => zlen (source m)) ms) 1.

(** ** Content streams *)
Section Content.
  (** the fonts by name *)
  Variable fonts : bytes -> option ((Z -> option bytes) * Z).
  Definition plain_font : (Z -> option bytes) * Z := (fun _ => None, 1).
  Definition font_named (n : bytes) : (Z -> option bytes) * Z := match fonts n with Some f => f | None => plain_font end.

  (** the operand [i] places from the end: its string, name or array, if any *)
  Definition from_end (ops : list obj) (i : nat) : option obj := nth_error (rev ops) i.
  Definition string_of (x : option obj) : bytes := match x with Some (OStr s) => s | _ => [] end.
  Definition name_of (x : option obj) : bytes := match x with Some (OName s) => s | _ => [] end.
  Definition array_of (x : option obj) : list obj := match x with Some (OArr l) => l | _ => [] end.

  Definition shows (k : bytes) : Prop := k = lit "Tj" \/ k = lit "'" \/ k = [x22].
  (** [line tj font k ops s]: the operator shows text, as the line [s]; [tj]
      says what string the array of a TJ operator stands for. *)
  Inductive line (tj : list obj -> bytes) (f : (Z -> option bytes) * Z) : bytes -> list obj -> bytes -> Prop :=
  | ln_show : forall k ops t, shows k -> decoded (fst f) (snd f) (string_of (from_end ops 0)) t -> line tj f k ops t
  | ln_position : forall ops t, decoded (fst f) (snd f) (tj (array_of (from_end ops 0))) t -> line tj f (lit "TJ") ops t.
  Definition silent (k : bytes) : Prop := ~ shows k /\ k <> lit "TJ" /\ k <> lit "Tf" /\ k <> lit "ET".
  (** [text tj None cs ls]: the lines of the operators [cs] outside a text
      object; [text tj (Some f) cs ls]: inside one, with font [f]. *)
  Inductive text (tj : list obj -> bytes) : option ((Z -> option bytes) * Z) -> list (bytes * list obj) -> list bytes -> Prop :=
  | tx_end : forall f, text tj f [] []
  | tx_begin : forall ops cs ls, text tj (Some plain_font) cs ls -> text tj None ((lit "BT", ops) :: cs) ls
  | tx_outside : forall k ops cs ls, k <> lit "BT" -> text tj None cs ls -> text tj None ((k, ops) :: cs) ls
  | tx_finish : forall f ops cs ls, text tj None cs ls -> text tj (Some f) ((lit "ET", ops) :: cs) ls
  | tx_font : forall f ops cs ls, text tj (Some (font_named (name_of (from_end ops 1)))) cs ls -> text tj (Some f) ((lit "Tf", ops) :: cs) ls
  | tx_line : forall f k ops t cs ls, line tj f k ops t -> text tj (Some f) cs ls -> text tj (Some f) ((k, ops) :: cs) (t :: ls)
  | tx_silent : forall f k ops cs ls, silent k -> text tj (Some f) cs ls -> text tj (Some f) ((k, ops) :: cs) ls.
End Content.
(** all strings of a TJ array, and those at even positions *)
Definition all_strings (a : list obj) : bytes := List.concat (map (fun o => string_of (Some o)) a).
Fixpoint even_strings (a : list obj) : bytes :=
  match a with
  | [] => []
  | [o] => string_of (Some o)
  | o :: _ :: a' => string_of (Some o) ++ even_strings a'
  end.
