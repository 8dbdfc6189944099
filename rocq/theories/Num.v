(** Num.v -- Number (pdf/number.go:7), Go's float64 as the executable IEEE-754
    binary64 of the standard library (SpecFloat, round to nearest even).
    Simplification: no fused multiply-add (Go's amd64 default). *)
From Verif Require Import Base.
From Coq Require Import Floats.SpecFloat.

(** pdf/number.go:7 *)
Definition num := spec_float.

Definition prec64 : Z := 53.
Definition emax64 : Z := 1024.

Definition nadd : num -> num -> num := SFadd prec64 emax64.
Definition nmul : num -> num -> num := SFmul prec64 emax64.
Definition ndiv : num -> num -> num := SFdiv prec64 emax64.

(** Go's float64(z) for an integer z. *)
Definition num_of_Z (z : Z) : num := binary_normalize prec64 emax64 z 0 false.

Definition num_zero : num := S754_zero false.

(** pdf/parser.go:856,872: float64(number) * 10 + float64(b - '0') *)
Definition num_push (v : num) (d : Z) : num := nadd (nmul v (num_of_Z 10)) (num_of_Z d).

(** pdf/parser.go:890: float64(number) + float64(b - '0') / (10 * float64(i)) *)
Definition num_frac (v : num) (d i : Z) : num :=
  nadd v (ndiv (num_of_Z d) (nmul (num_of_Z 10) (num_of_Z i))).

(** pdf/parser.go:900: -number *)
Definition num_neg (v : num) : num := SFopp v.

(** Truncation of a finite number towards zero; [None] for NaN/infinity. *)
Definition num_trunc (v : num) : option Z :=
  match v with
  | S754_zero _ => Some 0
  | S754_finite s m e =>
      let a := if 0 <=? e then Z.pos m * 2 ^ e else Z.pos m / 2 ^ (- e) in
      Some (if s then - a else a)
  | _ => None
  end.

(** Go's int(number) / int64(number), pdf/dictionary.go:60,65, pdf/array.go:60,65,
    pdf/parser.go:568.  Out of range conversions are implementation defined in
    Go; the model uses amd64's result 0x8000000000000000. *)
Definition num_int (v : num) : Z :=
  match num_trunc v with
  | Some z => if (- two63 <=? z) && (z <? two63) then z else - two63
  | None => - two63
  end.
