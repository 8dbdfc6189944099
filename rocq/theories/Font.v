(** Font.v -- pdf/font.go. *)
From Verif Require Import Base Msg Reader Num Lexer Obj ReadObj Bits Env Getters GetObj.
From Coq Require Import Strings.String.
Local Open Scope m_scope.

(** Font, pdf/font.go:10-13 *)
Record font := mkfont { f_map : list (Z * bytes); f_width : Z }.

(** FontDefault, pdf/font.go:8, and the initial font of NewFont, font.go:20 *)
Definition font_default : font := {| f_map := []; f_width := 1 |}.

Definition set_map (k : Z) (v : bytes) (f : font) : font :=
  {| f_map := mset Z.eqb k v (f_map f); f_width := f_width f |}.
Definition set_width (w : Z) (f : font) : font :=
  {| f_map := f_map f; f_width := w |}.

(** pdf/font.go:53-55; [j] wraps around like int. *)
Fixpoint range_loop (fuel : nat) (j hi : Z) (v : bytes) (f : font) : res font :=
  match fuel with
  | O => OutOfFuel
  | S n => if j <=? hi then range_loop n (wrap64 (j + 1)) hi v (set_map j v f) else Ok f
  end.

(** parser.ReadHexString(noDecryptor), pdf/font.go:35,42,48,60,67 *)
Definition hex_str : M bytes := onrdr (read_hex_string no_decryptor).

(** pdf/font.go:34-56 *)
Fixpoint bfrange_loop (fuel : nat) (i count : Z) (f : font) : M font :=
  match fuel with
  | O => fun _ => OutOfFuel
  | S n =>
      if i <? count then
        start <- hex_str ;;
        match start with
        | [] => ret f
        | _ =>
            let f := set_width (zlen start) f in
            hi <- hex_str ;;
            match hi with
            | [] => ret f
            | _ =>
                value <- hex_str ;;
                match value with
                | [] => ret f
                | _ =>
                    f <- lift (range_loop fuel (bytes_to_int start) (bytes_to_int hi) value f) ;;
                    bfrange_loop n (i + 1) count f
                end
            end
        end
      else ret f
  end.

(** pdf/font.go:59-73 *)
Fixpoint bfchar_loop (fuel : nat) (i count : Z) (f : font) : M font :=
  match fuel with
  | O => fun _ => OutOfFuel
  | S n =>
      if i <? count then
        key <- hex_str ;;
        match key with
        | [] => ret f
        | _ =>
            let f := set_width (zlen key) f in
            value <- hex_str ;;
            match value with
            | [] => ret f
            | _ => bfchar_loop n (i + 1) count (set_map (bytes_to_int key) value f)
            end
        end
      else ret f
  end.

(** pdf/font.go:25-75 *)
Fixpoint font_loop (fuel : nat) (E : env) (cmap : bytes) (f : font) : M font :=
  match fuel with
  | O => fun _ => OutOfFuel
  | S n =>
      '((cmd, ops), e) <- onrdr (ReadCommand cmap) ;;
      match e with
      | EReadError => ret f
      | _ =>
          if bseq cmd (lit "beginbfrange") then
            '(count, _) <- a_int (Resolve n E cmap) ops (zlen ops - 1) ;;
            f <- bfrange_loop n 0 count f ;;
            font_loop n E cmap f
          else if bseq cmd (lit "beginbfchar") then
            '(count, _) <- a_int (Resolve n E cmap) ops (zlen ops - 1) ;;
            f <- bfchar_loop n 0 count f ;;
            font_loop n E cmap f
          else font_loop n E cmap f
      end
  end.

(** A parser of its own over [data], without output (its log is dropped):
    NewParser(bytes.NewReader(data), nil), pdf/font.go:23, pdf/page.go:37. *)
Definition with_parser {A} (data : bytes) (m : M A) : res A :=
  match m (new_parser data) with
  | Ok (a, _) => Ok a
  | Panic => Panic
  | OutOfFuel => OutOfFuel
  end.

(** NewFont behind the lookup of ToUnicode, pdf/font.go:19-77 *)
Definition cmap_font (fuel : nat) (E : env) (cmap : bytes) : res font :=
  with_parser cmap (font_loop fuel E cmap font_default).

(** NewFont, pdf/font.go:15-78 *)
Definition new_font (fuel : nat) (E : env) (rs : Z -> M iobj) (d : dict) : M font :=
  '(cmap, _) <- d_stream rs d (lit "ToUnicode") ;;
  lift (cmap_font fuel E (match cmap with Some c => c | None => [] end)).

(** Font.Decode, pdf/font.go:80-92.  [n] bounds the number of codes; the loop
    does not stop if Width is 0 (OutOfFuel), and slicing panics for a negative one. *)
Fixpoint decode_font (n : nat) (f : font) (b : bytes) : res bytes :=
  if f_width f <=? zlen b then
    match n with
    | O => OutOfFuel
    | S n' =>
        if f_width f <? 0 then Panic
        else
          let bs := ztake (f_width f) b in
          rbind (decode_font n' f (zdrop (f_width f) b)) (fun r =>
            Ok (match mget Z.eqb (bytes_to_int bs) (f_map f) with
                | Some v => v
                | None => bs
                end ++ r))
    end
  else Ok [].
Definition font_decode (f : font) (b : bytes) : res bytes := decode_font (S (List.length b)) f b.
