(** Base.v -- bytes, results and association maps shared by the whole model.

    These are the model's representations of Go's built-in types; they have no
    counterpart of their own in /repo. *)
From Coq Require Export List ZArith Lia Bool Init.Byte Strings.Byte.
From Coq Require Import Strings.String.
Export ListNotations.
Global Open Scope Z_scope.
Global Open Scope list_scope.

(** Go's [[]byte] and [string]: a finite sequence of bytes (no aliasing; the
    functions that mutate a slice return the new contents instead). *)
Definition bytes := list byte.

(** Byte-string literals: [lit "endstream"]. *)
Definition lit (s : string) : bytes := list_byte_of_string s.

(** Numeric value of a byte, and Go's conversion [byte(z)] (z mod 256). *)
Definition bv (b : byte) : Z := Z.of_N (Byte.to_N b).
Definition zb (z : Z) : byte :=
  match Byte.of_N (Z.to_N (z mod 256)) with Some b => b | None => x00 end.

Definition beq : byte -> byte -> bool := Byte.eqb.

(** Byte-string equality (Go's [==] on strings). *)
Fixpoint bseq (a b : bytes) : bool :=
  match a, b with
  | [], [] => true
  | x :: a', y :: b' => beq x y && bseq a' b'
  | _, _ => false
  end.

(** [bytes.IndexByte(l, b) >= 0]. *)
Definition inb (b : byte) (l : bytes) : bool := existsb (beq b) l.

(** Length as an integer (Go's [len]). *)
Definition zlen {A} (l : list A) : Z := Z.of_nat (List.length l).

(** [l[off:]] for an offset that may lie behind the end. *)
Definition zdrop {A} (off : Z) (l : list A) : list A :=
  if off <? zlen l then skipn (Z.to_nat off) l else [].

(** [l[:n]] clipped to the length of [l]. *)
Definition ztake {A} (n : Z) (l : list A) : list A :=
  if n <? zlen l then firstn (Z.to_nat n) l else l.

(** Element access; [None] stands for an index panic. *)
Definition zget {A} (l : list A) (i : Z) : option A :=
  if (0 <=? i) && (i <? zlen l) then nth_error l (Z.to_nat i) else None.

(** 64-bit two's complement wrap-around of Go's [int]/[int64]
    (the model assumes a 64-bit platform). *)
Definition two63 : Z := 9223372036854775808.
Definition two64 : Z := 18446744073709551616.
Definition two32 : Z := 4294967296.
Definition wrap64 (z : Z) : Z := (z + two63) mod two64 - two63.
(** Go's [uint32(z)]. *)
Definition wrap32 (z : Z) : Z := z mod two32.

(** Result of Go code: a value, a run-time panic, or (only for recursion that
    is not known to terminate) exhausted fuel. *)
Inductive res (A : Type) : Type :=
| Ok : A -> res A
| Panic : res A
| OutOfFuel : res A.
Arguments Ok {A} _.
Arguments Panic {A}.
Arguments OutOfFuel {A}.

Definition rbind {A B} (x : res A) (f : A -> res B) : res B :=
  match x with Ok a => f a | Panic => Panic | OutOfFuel => OutOfFuel end.

(** Finite maps as association lists.  Go's map iteration order is not the
    order of the list: wherever Go iterates over a map, the model takes the
    order as an argument or is proved independent of it. *)
Section AMap.
  Context {K V : Type} (eqb : K -> K -> bool).

  Fixpoint mget (k : K) (m : list (K * V)) : option V :=
    match m with
    | [] => None
    | (k', v) :: m' => if eqb k k' then Some v else mget k m'
    end.

  Fixpoint mset (k : K) (v : V) (m : list (K * V)) : list (K * V) :=
    match m with
    | [] => [(k, v)]
    | (k', v') :: m' => if eqb k k' then (k', v) :: m' else (k', v') :: mset k v m'
    end.

  (** [for k, v := range src { dst[k] = v }]; the keys of a Go map are
      distinct, so that the iteration order does not matter. *)
  Definition mmerge (dst src : list (K * V)) : list (K * V) :=
    fold_left (fun m kv => mset (fst kv) (snd kv) m) src dst.
End AMap.
