(** Bits.v -- pdf/utility.go: GetBits, SetBits, BytesToInt, ReadInt64. *)
From Verif Require Import Base.

(** BytesToInt, pdf/utility.go:59-66; int arithmetic wraps. *)
Definition bytes_to_int (b : bytes) : Z :=
  fold_left (fun v x => wrap64 (wrap64 (v * 256) + bv x)) b 0.

(** ReadInt64 on a bytes.Reader, pdf/utility.go:14-26.  make([]byte, width)
    panics for a negative width; a bytes.Reader delivers min(width, rest) bytes.
    Result: (value, ok) and the unread rest. *)
Definition read_be (width : Z) (data : bytes) : res ((Z * bool) * bytes) :=
  if width <? 0 then Panic
  else
    let got := ztake width data in
    let data := zdrop width data in
    if zlen got =? width then Ok ((bytes_to_int got, true), data)
    else Ok ((0, false), data).

(** d[i] guarded by [i < len(d)] only, pdf/utility.go:38-40: a negative index panics. *)
Definition bits_byte (d : bytes) (i : Z) : option Z :=
  if i <? zlen d then option_map bv (zget d i) else Some 0.

(** GetBits, pdf/utility.go:34-45 on uint32; [None] is a panic.
    Go's / and % truncate towards zero; a shift count above 31 gives 0. *)
Definition get_bits (d : bytes) (p n : Z) : option Z :=
  let q := Z.quot p 8 in
  match bits_byte d q, bits_byte d (q + 1), bits_byte d (q + 2), bits_byte d (q + 3) with
  | Some b0, Some b1, Some b2, Some b3 =>
      let v := ((b0 * 256 + b1) * 256 + b2) * 256 + b3 in
      let v := if Z.rem p 8 <? 0 then 0 else wrap32 (Z.shiftl v (Z.rem p 8)) in
      Some (Z.shiftr v (32 - n))
  | _, _, _, _ => None
  end.

(** d[i] = x for an index in range. *)
Definition upd (d : bytes) (i : Z) (x : byte) : bytes :=
  firstn (Z.to_nat i) d ++ x :: skipn (S (Z.to_nat i)) d.

(** SetBits' loop, pdf/utility.go:54-56. *)
Fixpoint set_bits_loop (k : nat) (d : bytes) (q i dv : Z) : option bytes :=
  match k with
  | O => Some d
  | S k' =>
      if q + i <? zlen d then
        if q + i <? 0 then None
        else set_bits_loop k' (upd d (q + i) (zb (Z.shiftr dv (32 - (i + 1) * 8)))) q (i + 1) dv
      else Some d
  end.

(** SetBits, pdf/utility.go:48-57 for 0 < n <= 16; [None] is a panic. *)
Definition set_bits (d : bytes) (p n v : Z) : option bytes :=
  let q := Z.quot p 8 in
  match get_bits d (q * 8) 32 with
  | None => None
  | Some dv =>
      let s := 32 - n - Z.rem p 8 in
      let m := Z.shiftl 1 n - 1 in
      let dv := wrap32 (dv + wrap32 (wrap32 (Z.shiftl (v mod Z.shiftl 1 n) s)
                                     - Z.land dv (wrap32 (Z.shiftl m s)))) in
      set_bits_loop 4 d q 0 dv
  end.
