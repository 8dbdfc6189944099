(** SpecWrite.v -- writing a document: objects, a cross-reference table, a
    trailer.  An independent inverse of what the parser does (C90, C91). *)
From Verif Require Import Base Num Obj SpecLex SpecObj SpecStream.
From Coq Require Import Strings.String.

(** ** Numbers, strings, names *)
Definition dec_digit (d : Z) : byte := nth (Z.to_nat d) (lit "0123456789") "0"%byte.
(** the last [k] digits *)
Fixpoint dec_pad (k : nat) (n : Z) : bytes :=
  match k with O => [] | S k' => dec_pad k' (n / 10) ++ [dec_digit (n mod 10)] end.
(** all digits *)
Fixpoint dec_from (fuel : nat) (n : Z) : bytes :=
  match fuel with O => [] | S f => (if n <? 10 then [] else dec_from f (n / 10)) ++ [dec_digit (n mod 10)] end.
Definition dec (n : Z) : bytes := dec_from (S (Z.to_nat (Z.log2 n))) n.
Definition w_int (z : Z) : bytes := if z <? 0 then "-"%byte :: dec (- z) else dec z.

Definition hex_digit_of (d : Z) : byte := nth (Z.to_nat d) (lit "0123456789abcdef") "0"%byte.
Definition hex_of (b : byte) : bytes := [hex_digit_of (bv b / 16); hex_digit_of (bv b mod 16)].
Definition hex (s : bytes) : bytes := flat_map hex_of s.
(** characters that stand for themselves in a name *)
Definition name_char (b : byte) : bool :=
  negb (existsb (Byte.eqb b) ([x00; x09; x0a; x0c; x0d; x20] ++ lit "()<>[]/%#")).
Definition w_name (s : bytes) : bytes :=
  flat_map (fun b => if name_char b then [b] else "#"%byte :: hex_of b) s.

(** ** Objects *)
Fixpoint w_obj (o : obj) : bytes :=
  match o with
  | ONum v => w_int (num_int v)
  | OStr s => "<"%byte :: hex s ++ [">"%byte]
  | OName s => "/"%byte :: w_name s
  | OKw t => t
  | ORef n g => dec n ++ x20 :: dec g ++ x20 :: lit "R"
  | OArr l => "["%byte :: flat_map (fun x => x20 :: w_obj x) l ++ ["]"%byte]
  | ODict d => "<"%byte :: "<"%byte :: flat_map (fun kv => x20 :: "/"%byte :: w_name (fst kv) ++ x20 :: w_obj (snd kv)) d ++ [">"%byte; ">"%byte]
  end.

(** Streams are written as they are, or in hexadecimal if the data may be taken
    for something else: if it has an "endstream", an "xref" or an "obj", or ends
    with a carriage return. *)
Fixpoint has (m t : bytes) : bool := bseq (firstn (List.length m) t) m || match t with [] => false | _ :: r => has m r end.
Definition raw (s : bytes) : bool :=
  negb (has (lit "endstream") s || has (lit "xref") s || has (lit "obj") s || Byte.eqb (List.last s x00) x0d).
Definition coded (o : obj) : obj := match o with ODict d => ODict (d ++ [(lit "Filter", OName (lit "ASCIIHexDecode"))]) | _ => o end.
Definition as_written (o : iobj) : iobj :=
  match istream o with
  | Some s => if raw s then o else {| inum := inum o; igen := igen o; ival := coded (ival o); istream := istream o |}
  | None => o
  end.
Definition w_head (o : iobj) : bytes := dec (inum o) ++ x20 :: dec (igen o) ++ x20 :: lit "obj".
Definition w_data (s : bytes) : bytes := if raw s then s else hex s ++ [">"%byte].
Definition w_value (o : iobj) : bytes :=
  match istream o with
  | None => w_obj (ival o)
  | Some s => w_obj (ival (as_written o)) ++ x0a :: lit "stream" ++ x0a :: w_data s ++ x0a :: lit "endstream"
  end.
Definition w_object (o : iobj) : bytes := w_head o ++ x0a :: w_value o ++ x0a :: lit "endobj" ++ [x0a].
Definition w_objects (D : list iobj) : bytes := flat_map w_object D.

(** ** The document *)
Definition w_version : bytes := lit "%PDF-1.7" ++ [x0a].
(** the objects with the offsets they are written at *)
Fixpoint w_places (off : Z) (D : list iobj) : list (Z * iobj) :=
  match D with [] => [] | o :: D' => (off, o) :: w_places (off + zlen (w_object o)) D' end.
Definition w_line (off gen : Z) (use : bytes) : bytes := dec_pad 10 off ++ x20 :: dec_pad 5 gen ++ x20 :: use ++ [x20; x0a].
(** a subsection for each object *)
Definition w_sub (p : Z * iobj) : bytes := dec (inum (snd p)) ++ x20 :: lit "1" ++ x0a :: w_line (fst p) (igen (snd p)) (lit "n").
Definition w_table (l : list (Z * iobj)) : bytes := (lit "0 1" ++ x0a :: w_line 0 65535 (lit "f")) ++ flat_map w_sub l.
(** The dictionary behind "trailer" must not be split by the end of a chunk of
    4096 bytes (C36). *)
Definition w_break (t : bytes) : bytes := if (zlen t + 1) mod 4096 =? 4095 then [x20; x0a] else [x0a].
Definition w_xref (l : list (Z * iobj)) : bytes :=
  let t := lit "xref" ++ x0a :: w_table l ++ lit "trailer" in t ++ w_break t.
Definition w_end (off : Z) : bytes := x0a :: lit "startxref" ++ x0a :: dec off ++ x0a :: lit "%%EOF" ++ [x0a].
Definition w_body (D : list iobj) : bytes := w_version ++ w_objects D.
Definition w_document (D : list iobj) (trailer : dict) : bytes :=
  w_body D ++ w_xref (w_places (zlen w_version) D) ++ w_obj (ODict trailer) ++ w_end (zlen (w_body D)).

(** ** Documents that can be written *)
Definition plain_words (t : bytes) : Prop := t = lit "true" \/ t = lit "false" \/ t = lit "null".
(** integers up to 2^53, the keywords of PDF, distinct keys, and no "xref" in a name *)
Fixpoint printable (o : obj) : Prop :=
  match o with
  | ONum v => exists z, - 2 ^ 53 <= z <= 2 ^ 53 /\ v = num_of_Z z
  | OStr _ => True
  | OName s => ~ occurs (lit "xref") s
  | OKw t => plain_words t
  | ORef n g => 0 <= n <= 2 ^ 53 /\ 0 <= g <= 2 ^ 53
  | OArr l => (fix all (l : list obj) : Prop := match l with [] => True | x :: r => printable x /\ all r end) l
  | ODict d => NoDup (map fst d) /\
      (fix all (d : list (bytes * obj)) : Prop :=
         match d with [] => True | (k, x) :: r => ~ occurs (lit "xref") k /\ printable x /\ all r end) d
  end.
Definition direct_type (d : dict) : Prop := forall n g, ~ In (lit "Type", ORef n g) d.
(** What the place of an object in the file depends on. *)
Record lay_shape (o : iobj) : Prop := {
  lo_number : 0 < inum o <= 2 ^ 53;
  lo_generation : 0 <= igen o <= 65535;
  lo_value : printable (ival o);
  (** streams have a dictionary that fits into the read buffer (C34) *)
  lo_stream : forall s, istream o = Some s -> exists d, ival o = ODict d /\ (raw s = false -> ~ In (lit "Filter") (map fst d)) /\
    zlen (w_obj (ival (as_written o))) <= 4000
}.
Record lay_object (o : iobj) : Prop := {
  lo_shape :> lay_shape o;
  (** not a cross-reference stream *)
  lo_type : forall d, ival o = ODict d -> ~ In (lit "Type", OName (lit "XRef")) d
}.
Record good_object (o : iobj) : Prop := {
  go_lay : lay_object o;
  (** streams have no filters of their own *)
  go_stream : forall d, istream o <> None -> ival o = ODict d -> direct_type d /\
    ~ In (lit "Filter") (map fst d) /\ ~ In (lit "DecodeParms") (map fst d)
}.
Record lay_document (D : list iobj) (trailer : dict) : Prop := {
  ld_objects : forall o, In o D -> lay_object o;
  ld_numbers : NoDup (map inum D);
  ld_trailer : printable (ODict trailer);
  ld_prev : ~ In (lit "Prev") (map fst trailer);
  (** offsets have ten digits *)
  ld_size : zlen (w_document D trailer) < 10 ^ 10
}.
Record good_document (D : list iobj) (trailer : dict) : Prop := {
  gd_lay : lay_document D trailer;
  gd_objects : forall o, In o D -> good_object o;
  gd_plain : ~ In (lit "Encrypt") (map fst trailer)
}.
