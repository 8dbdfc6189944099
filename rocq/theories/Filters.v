(** Filters.v -- the pure parts of pdf/filters.go: ASCIIHexDecode,
    ASCII85Decode, RunLengthDecode and ReversePredictor on given parameters. *)
From Verif Require Import Base Lexer Bits.
From Coq Require Import Strings.String.

(** ASCIIHexDecode, pdf/filters.go:68-85: the second digit of a pair, '0' when
    the data or the '>' marker comes first (the marker is not consumed). *)
Fixpoint ahex_second (l : bytes) : byte * bytes :=
  match l with
  | [] => ("0"%byte, [])
  | b :: r =>
      if is_ws b then ahex_second r
      else if beq b ">"%byte then ("0"%byte, l)
      else (b, r)
  end.

(** ASCIIHexDecode, pdf/filters.go:49-97; the fuel is the length of the data. *)
Fixpoint ahex_loop (n : nat) (l : bytes) : bytes :=
  match n with
  | O => []
  | S n' =>
      match l with
      | [] => []
      | b1 :: r =>
          if is_ws b1 then ahex_loop n' r
          else if beq b1 ">"%byte then []
          else
            let '(b2, r) := ahex_second r in
            if is_hex b1 && is_hex b2 then hex2 b1 b2 :: ahex_loop n' r
            else ahex_loop n' r
      end
  end.
Definition ascii_hex_decode (data : bytes) : bytes := ahex_loop (List.length data) data.

(** binary.BigEndian.PutUint32, used at pdf/filters.go:117,155 *)
Definition be32 (v : Z) : bytes :=
  [zb (v / 16777216); zb (v / 65536); zb (v / 256); zb v].

(** pdf/filters.go:111-113: v *= 85 for the missing digits. *)
Fixpoint mul85 (k : nat) (v : Z) : Z :=
  match k with O => v | S k' => mul85 k' (wrap32 (v * 85)) end.

(** ASCII85Decode, pdf/filters.go:107-121: end of data or '~'. *)
Definition a85_finish (v : Z) (n : nat) (acc : bytes) : bytes :=
  if (1 <? Z.of_nat n) then acc ++ firstn (n - 1) (be32 (mul85 (5 - n) v)) else acc.

(** ASCII85Decode, pdf/filters.go:99-163 *)
Fixpoint a85_loop (l : bytes) (v : Z) (n : nat) (acc : bytes) : bytes :=
  match l with
  | [] => a85_finish v n acc
  | b :: r =>
      if beq b "~"%byte then a85_finish v n acc
      else if is_ws b then a85_loop r v n acc
      else if beq b "z"%byte then
        (if (n =? 0)%nat then a85_loop r v n (acc ++ [x00; x00; x00; x00])
         else a85_loop r v n acc)
      else if (bv b <? 33) || (117 <? bv b) then a85_loop r v n acc
      else
        let n := S n in
        let v := wrap32 (wrap32 (v * 85) + wrap32 (bv b - 33)) in
        if (5 <=? n)%nat then a85_loop r 0 0 (acc ++ be32 v)
        else a85_loop r v n acc
  end.
Definition ascii85_decode (data : bytes) : bytes := a85_loop data 0 0 [].

(** RunLengthDecode, pdf/filters.go:165-208; the fuel is the length of the data. *)
Fixpoint rl_loop (n : nat) (l : bytes) : bytes :=
  match n with
  | O => []
  | S n' =>
      match l with
      | [] => []
      | c :: r =>
          let len := bv c in
          if len =? 128 then []
          else if len <? 128 then
            match r with
            | [] => []
            | _ :: _ =>
                if zlen r <? len + 1 then r
                else firstn (Z.to_nat (len + 1)) r ++ rl_loop n' (skipn (Z.to_nat (len + 1)) r)
            end
          else
            match r with
            | [] => []
            | b :: r' => repeat b (Z.to_nat (257 - len)) ++ rl_loop n' r'
            end
      end
  end.
Definition run_length_decode (data : bytes) : bytes := rl_loop (List.length data) data.

(** ReversePredictor's TIFF loops, pdf/filters.go:295-309: the three nested
    loops over rows [r], columns [c] and components [i] as one loop. *)
Fixpoint tiff_loop (fuel : nat) (row_width bpc colors columns : Z)
         (r c i : Z) (data : bytes) : res bytes :=
  match fuel with
  | O => OutOfFuel
  | S f =>
      if r * row_width <? zlen data then
        if c <? columns then
          if i <? colors then
            let row_start := r * row_width * 8 in
            let p := wrap64 (row_start + wrap64 (wrap64 (wrap64 (c * colors) + i) * bpc)) in
            if zlen data * 8 <=? p then Ok data
            else
              match get_bits data (wrap64 (p - wrap64 (colors * bpc))) bpc, get_bits data p bpc with
              | Some prev, Some value =>
                  match set_bits data p bpc (wrap32 (value + prev)) with
                  | Some data => tiff_loop f row_width bpc colors columns r c (i + 1) data
                  | None => Panic
                  end
              | _, _ => Panic
              end
          else tiff_loop f row_width bpc colors columns r (c + 1) 0 data
        else tiff_loop f row_width bpc colors columns (r + 1) 1 0 data
      else Ok data
  end.

(** pdf/filters.go:344-347: decoded byte to the left. *)
Definition png_left (dec : bytes) (dr dc : Z) : option Z :=
  if 0 <? dc then option_map bv (zget dec (dr + dc - 1)) else Some 0.
(** pdf/filters.go:351-354: decoded byte above. *)
Definition png_up (dec : bytes) (dr dc dw : Z) : option Z :=
  if 0 <=? dr + dc - dw then option_map bv (zget dec (dr + dc - dw)) else Some 0.
(** pdf/filters.go:378-381: decoded byte above left. *)
Definition png_up_left (dec : bytes) (dr dc dw : Z) : option Z :=
  if (0 <=? dr + dc - dw - 1) && (0 <? dc)
  then option_map bv (zget dec (dr + dc - dw - 1)) else Some 0.

(** pdf/filters.go:382-392: the Paeth predictor's choice. *)
Definition paeth (left up up_left : Z) : Z :=
  let p := left + up - up_left in
  let p_left := Z.abs (p - left) in
  let p_up := Z.abs (p - up) in
  let p_up_left := Z.abs (p - up_left) in
  if (p_left <=? p_up) && (p_left <=? p_up_left) then left
  else if p_up <=? p_up_left then up else up_left.

(** pdf/filters.go:339-396: one decoded byte; [None] is an index panic. *)
Definition png_byte (method : Z) (x : byte) (dec : bytes) (dr dc dw : Z) : option byte :=
  if method =? 0 then Some x
  else if method =? 1 then
    match png_left dec dr dc with
    | Some lf => Some (zb ((bv x + lf) mod 256))
    | None => None
    end
  else if method =? 2 then
    match png_up dec dr dc dw with
    | Some up => Some (zb ((bv x + up) mod 256))
    | None => None
    end
  else if method =? 3 then
    match png_left dec dr dc, png_up dec dr dc dw with
    | Some lf, Some up => Some (zb ((bv x + (lf + up) / 2) mod 256))
    | _, _ => None
    end
  else if method =? 4 then
    match png_left dec dr dc, png_up dec dr dc dw, png_up_left dec dr dc dw with
    | Some lf, Some up, Some up_left => Some (zb ((bv x + paeth lf up up_left) mod 256))
    | _, _, _ => None
    end
  else Some x.

(** pdf/filters.go:335-397: the columns of one row; [xs] is the rest of the row
    (data[r + c] for c = dc + 1 ...), [dec] the output so far. *)
Fixpoint png_row (method : Z) (xs : bytes) (dr dc dw : Z) (dec : bytes) : option bytes :=
  match xs with
  | [] => Some dec
  | x :: xs' =>
      match png_byte method x dec dr dc dw with
      | Some y => png_row method xs' dr (dc + 1) dw (dec ++ [y])
      | None => None
      end
  end.

(** pdf/filters.go:325-398: the rows; [k] is r / row_width.  A row is the tag
    byte and at most [dw] = row_width - 1 data bytes.  The fuel is the length
    of the data. *)
Fixpoint png_loop (n : nat) (predictor dw k : Z) (data : bytes) (dec : bytes) : option bytes :=
  match n with
  | O => Some dec
  | S n' =>
      match data with
      | [] => Some dec
      | tag :: xs =>
          let method := if predictor =? 15 then bv tag else predictor - 10 in
          match png_row method (ztake dw xs) (k * dw) 0 dw dec with
          | Some dec => png_loop n' predictor dw (k + 1) (zdrop dw xs) dec
          | None => None
          end
      end
  end.

(** ReversePredictor on its four parameters, pdf/filters.go:274-404. *)
Definition reverse_predictor (fuel : nat) (predictor bpc colors columns : Z) (data : bytes) : res bytes :=
  if (bpc <=? 0) || (16 <? bpc) then Ok data
  else
    let prod := wrap64 (wrap64 (bpc * colors) * columns) in
    let row_width := Z.quot prod 8 + (if 0 <? Z.rem prod 8 then 1 else 0) in
    if row_width <=? 0 then Ok data
    else if predictor =? 1 then Ok data
    else if predictor =? 2 then tiff_loop fuel row_width bpc colors columns 0 1 0 data
    else if (10 <=? predictor) && (predictor <=? 15) then
      match png_loop (List.length data) predictor row_width 0 data [] with
      | Some d => Ok d
      | None => Panic
      end
    else Ok data.
