(** Xref.v -- finding and loading cross-reference information,
    pdf/parser.go:33-368. *)
From Verif Require Import Base Msg Reader Num Lexer Obj ReadObj Bits Env Getters GetObj Regex.
From Coq Require Import Strings.String.
Local Open Scope m_scope.

(** findXrefOffsets, pdf/parser.go:95-116.  The reader position after a
    FindReaderIndex is not modelled: every use is followed by a Seek to a
    non-negative offset.  The fuel is the length of the file plus one. *)
Fixpoint find_xref_loop (n : nat) (file : bytes) (offset : Z) : list Z :=
  match n with
  | O => []
  | S n' =>
      match rfind xref_regexp (zdrop offset file) 0 with
      | None => []
      | Some (i, j) => (offset + i) :: find_xref_loop n' file (offset + j)
      end
  end.
Definition find_xref_offsets (file : bytes) : list Z :=
  find_xref_loop (S (List.length file)) file 0.

(** findObjects, pdf/parser.go:119-154.  [k] bounds the number of markers by
    the number of bytes; [fuel] is for resolving /Type. *)
Fixpoint find_objects_loop (k : nat) (fuel : nat) (E : env) (file : bytes)
         (offset : Z) (objects : xmap) : M xmap :=
  match k with
  | O => ret objects
  | S k' =>
      match rfind start_obj_regexp (zdrop offset file) 0 with
      | None => ret objects
      | Some (i, j) =>
          pseek file (offset + i) ;;;
          '((n, g), _) <- onrd read_object_header ;;
          let e := new_xentry (offset + i) g XrefTypeIndirectObject in
          d <- onrdr (ReadDictionary file no_decryptor) ;;
          '(t, ok) <- d_name (Resolve fuel E file) d (lit "Type") ;;
          let e := if ok && bseq t (lit "XRef")
                   then {| x_off := x_off e; x_gen := x_gen e; x_type := x_type e;
                           x_enc := false; x_stm := true |}
                   else e in
          pseek file (offset + j) ;;;
          find_objects_loop k' fuel E file (offset + j) (xset n e objects)
      end
  end.
Definition find_objects (fuel : nat) (E : env) (file : bytes) : M xmap :=
  pseek file 0 ;;; find_objects_loop (S (List.length file)) fuel E file 0 [].

(** start_xref_scan_buffer_size, pdf/parser.go:13 *)
Definition scan_size : nat := 256.

(** The 256-byte buffer of pdf/parser.go:157-169: the last 256 bytes of the
    file, followed by zeros when the file is shorter.  (One Read call on an
    empty 4096-byte buffer delivers all of them.) *)
Definition tail_buffer (file : bytes) : bytes :=
  let t := skipn (List.length file - scan_size) file in
  t ++ repeat x00 (scan_size - List.length t).

(** strconv.ParseInt(_, 10, 64) on decimal digits, pdf/parser.go:178-181:
    fails when the value exceeds 2^63 - 1. *)
Definition parse_int64 (digits : bytes) : option Z :=
  let v := fold_left (fun v b => v * 10 + (bv b - 48)) digits 0 in
  if v <? two63 then Some v else None.

(** getStartXrefOffset, pdf/parser.go:156-185 *)
Definition start_xref_offset (file : bytes) : option Z :=
  let b := tail_buffer file in
  match rev (find_all_startxref (S (List.length b)) b) with
  | [] => None
  | digits :: _ => parse_int64 digits
  end.

(** loadXrefTable's entries of one subsection, pdf/parser.go:227-253.  The loop
    index [i] runs while it is below [len]; each iteration consumes input. *)
Fixpoint table_entries (k : nat) (i len start : Z) (xrefs : xmap) (s : rd) : xmap * rd :=
  match k with
  | O => (xrefs, s)
  | S k' =>
      if i <? len then
        let '((off, ok), s) := read_int64 s in
        if ok then
          let '((gen, ok), s) := read_int s in
          if ok then
            let '(flag, s) := read_keyword s in
            let typ := if bseq flag (lit "n") then XrefTypeIndirectObject else XrefTypeFreeObject in
            table_entries k' (i + 1) len start
              (xset (wrap64 (start + i)) (new_xentry off gen typ) xrefs) s
          else (xrefs, s)
        else (xrefs, s)
      else (xrefs, s)
  end.

(** loadXrefTable's subsections, pdf/parser.go:213-254 *)
Fixpoint table_sections (k : nat) (xrefs : xmap) (s : rd) : xmap * rd :=
  match k with
  | O => (xrefs, s)
  | S k' =>
      let '((start, ok), s) := read_int s in
      if ok then
        let '((len, ok), s) := read_int s in
        if ok then
          let '(xrefs, s) := table_entries (S (List.length (rest s))) 0 len start xrefs s in
          table_sections k' xrefs s
        else (xrefs, s)
      else (xrefs, s)
  end.
Definition read_xref_table (s : rd) : xmap * rd :=
  table_sections (S (List.length (rest s))) [] s.

(** ReadInt / ReadInt64 of one field, pdf/utility.go:8-26; make([]byte, width)
    panics for a width above the address space (2^48 on amd64). *)
Definition read_field (width : Z) (data : bytes) : res ((Z * bool) * bytes) :=
  if 281474976710656 <? width then Panic else read_be width data.

(** loadXrefStream's entries of one subsection, pdf/parser.go:342-362: the
    updated map, the unread data, and whether all entries were complete. *)
Fixpoint stream_entries (fuel : nat) (j len start : Z) (w0 w1 w2 : Z)
         (data : bytes) (x : xmap) : res ((xmap * bytes) * bool) :=
  match fuel with
  | O => OutOfFuel
  | S f =>
      if j <? len then
        rbind (read_field w0 data) (fun '((typ, ok), data) =>
        if ok : bool then
          rbind (read_field w1 data) (fun '((off, ok), data) =>
          if ok : bool then
            rbind (read_field w2 data) (fun '((gen, ok), data) =>
            if ok : bool then
              stream_entries f (j + 1) len start w0 w1 w2 data
                (xset (wrap64 (start + j)) (new_xentry off gen typ) x)
            else Ok ((x, data), false))
          else Ok ((x, data), false))
        else Ok ((x, data), false))
      else Ok ((x, data), true)
  end.

(** loadXrefStream's subsections, pdf/parser.go:329-363; [k] counts down the
    pairs of the index array.  The result is false when a return statement
    inside the loop was executed. *)
Fixpoint stream_sections (k : nat) (fuel : nat) (rs : Z -> M iobj) (i : Z) (index : list obj)
         (w0 w1 w2 : Z) (data : bytes) : M bool :=
  match k with
  | O => ret true
  | S k' =>
      if i <? zlen index - 1 then
        '(start, ok) <- a_int rs index i ;;
        if ok : bool then
          '(len, ok) <- a_int rs index (i + 1) ;;
          if ok : bool then
            fun p =>
              match stream_entries fuel 0 len start w0 w1 w2 data (pxref p) with
              | Ok ((x, data), true) =>
                  stream_sections k' fuel rs (i + 2) index w0 w1 w2 data (with_xref x p)
              | Ok ((x, _), false) => Ok (false, with_xref x p)
              | Panic => Panic
              | OutOfFuel => OutOfFuel
              end
          else ret false
        else ret false
      else ret true
  end.

(** [parser.Xref[n] = NewXrefEntry(...)] *)
Definition put_xref (n : Z) (e : xentry) : M unit :=
  fun p => Ok (tt, with_xref (xset n e (pxref p)) p).

(** an entry with IsEncrypted = false, pdf/parser.go:201-202,366-367 *)
Definition plain_xentry (off gen typ : Z) : xentry :=
  {| x_off := off; x_gen := gen; x_type := typ; x_enc := false; x_stm := false |}.

(** merge trailer, pdf/parser.go:267-270,295-298 *)
Definition merge_trailer (t : dict) : M unit :=
  fun p => Ok (tt, with_trailer (mmerge bseq (ptrailer p) t) p).
(** merge xrefs, pdf/parser.go:272-275 *)
Definition merge_xrefs (x : xmap) : M unit :=
  fun p => Ok (tt, with_xref (mmerge Z.eqb (pxref p) x) p).

(** loadXrefStream behind the handling of Prev, pdf/parser.go:295-367:
    [xoff] is xref_stream_offset, [o] the stream object, [t] its dictionary. *)
Definition load_stream_entries (fuel : nat) (rs : Z -> M iobj) (xoff : Z) (o : iobj) (t : dict) : M unit :=
  merge_trailer t ;;;
  '(index, ok) <- d_array rs t (lit "Index") ;;
  index <- (if ok : bool then ret (Some index)
            else
              '(size, ok) <- d_number rs t (lit "Size") ;;
              ret (if ok : bool then Some [ONum num_zero; ONum size] else None)) ;;
  match index with
  | None => ret tt
  | Some index =>
      '(width, ok) <- d_array rs t (lit "W") ;;
      if ok : bool then
        '(w0, ok) <- a_int rs width 0 ;;
        if ok : bool then
          '(w1, ok) <- a_int rs width 1 ;;
          if ok : bool then
            '(w2, ok) <- a_int rs width 2 ;;
            if ok : bool then
              done <- stream_sections (List.length index) fuel rs 0 index w0 w1 w2
                        (match istream o with Some d => d | None => [] end) ;;
              if done : bool then
                put_xref (inum o) (plain_xentry xoff (igen o) XrefTypeIndirectObject)
              else ret tt
            else ret tt
          else ret tt
        else ret tt
      else ret tt
  end.

(** loadXref, loadXrefTable, loadXrefStream, pdf/parser.go:187-368.  [seen] is
    the map of visited offsets; it only grows along the chain of Prev links,
    and is not consulted after the recursive call returns. *)
Fixpoint load_xref (fuel : nat) (E : env) (file : bytes) (offset : Z) (seen : list Z) {struct fuel} : M unit :=
  match fuel with
  | O => fun _ => OutOfFuel
  | S f =>
      if zmem offset seen then ret tt
      else
        let seen := offset :: seen in
        let rs := Resolve f E file in
        pseek file offset ;;;
        kw <- onrd read_keyword ;;
        if bseq kw (lit "xref") then
          (* loadXrefTable, pdf/parser.go:211-276 *)
          xrefs <- onrd read_xref_table ;;
          onrd read_keyword ;;;
          t <- onrdr (ReadDictionary file no_decryptor) ;;
          '(prev, ok) <- d_int rs t (lit "Prev") ;;
          (if ok : bool then load_xref f E file prev seen else ret tt) ;;;
          merge_trailer t ;;;
          merge_xrefs xrefs
        else
          pseek file offset ;;;
          '((n, g), ok) <- onrd read_object_header ;;
          if ok : bool then
            put_xref n (plain_xentry offset g XrefTypeIndirectObject) ;;;
            (* loadXrefStream, pdf/parser.go:278-368 *)
            fun p => (
            let xoff := pos (prd p) in
            o <- get_object f E file n ;;
            match ival o with
            | ODict t =>
                '(prev, ok) <- d_int rs t (lit "Prev") ;;
                (if ok : bool then load_xref f E file prev seen else ret tt) ;;;
                load_stream_entries f rs xoff o t
            | _ => ret tt
            end) p
          else ret tt
  end.

(** sort.Slice of the offsets, pdf/parser.go:46 *)
Fixpoint insertZ (x : Z) (l : list Z) : list Z :=
  match l with [] => [x] | y :: l' => if x <=? y then x :: l else y :: insertZ x l' end.
Definition sortZ (l : list Z) : list Z := fold_right insertZ [] l.

(** pdf/parser.go:34-51: the offsets to load, in order. *)
Definition xref_offsets (file : bytes) (objects : xmap) : list Z :=
  sortZ (find_xref_offsets file ++
         map (fun kv => x_off (snd kv)) (filter (fun kv => x_stm (snd kv)) objects))
  ++ match start_xref_offset file with Some o => [o] | None => [] end.

(** pdf/parser.go:54-56 *)
Fixpoint load_all (fuel : nat) (E : env) (file : bytes) (offs : list Z) : M unit :=
  match offs with
  | [] => ret tt
  | o :: offs' => load_xref fuel E file o [] ;;; load_all fuel E file offs'
  end.

Definition set_off (off : Z) (e : xentry) : xentry :=
  {| x_off := off; x_gen := x_gen e; x_type := x_type e; x_enc := x_enc e; x_stm := x_stm e |}.

(** Load's repair step for one object, pdf/parser.go:60-69.  The condition is
    the code's: [ok || n != object_number]. *)
Definition repair_one (file : bytes) (kv : Z * xentry) : M unit :=
  let '(num, object) := kv in
  fun p =>
    match xget num (pxref p) with
    | Some e => (
        pseek file (x_off e) ;;;
        '((n, _), ok) <- onrd read_object_header ;;
        if ok || negb (n =? num)
        then put_xref num (set_off (x_off object) e)
        else ret tt) p
    | None => put_xref num object p
    end.

(** pdf/parser.go:59-70, in the order the map iteration delivers the objects *)
Fixpoint repair (file : bytes) (objects : list (Z * xentry)) : M unit :=
  match objects with
  | [] => ret tt
  | kv :: l => repair_one file kv ;;; repair file l
  end.
