(** SpecFilters.v -- the encodings of ISO 32000-1, 7.4.2 - 7.4.4 (and of the PNG
    and TIFF specifications for predictors) as relations between encoded and
    plain data, independent of the decoders of the model.  Shared with it:
    [byte], [bytes], [lit], [bv]; white space and digits come from SpecLex.v. *)
From Verif Require Import Base SpecLex.
From Coq Require Import Strings.String.

(** [t] is [u] with white space inserted anywhere. *)
Inductive spaced : bytes -> bytes -> Prop :=
| sp_nil : spaced [] []
| sp_ws : forall b t u, ws_byte b -> spaced t u -> spaced (b :: t) u
| sp_char : forall b t u, spaced t u -> spaced (b :: t) (b :: u).

(** Big-endian value of a byte string. *)
Fixpoint be (l : bytes) : Z :=
  match l with [] => 0 | b :: r => bv b * 256 ^ Z.of_nat (List.length r) + be r end.

(** ** ASCII85 (7.4.3) *)

(** the digits ! ... u *)
Definition digit85 (c : byte) (d : Z) : Prop := 0 <= d < 85 /\ bv c = d + 33.
(** value of five base-85 digits *)
Definition val85 (d0 d1 d2 d3 d4 : Z) : Z := (((d0 * 85 + d1) * 85 + d2) * 85 + d3) * 85 + d4.

(** five characters for four bytes; [z] may stand for four zero bytes *)
Inductive a85_code : bytes -> bytes -> Prop :=
| a85_nil : a85_code [] []
| a85_z : forall t v, a85_code t v -> a85_code ("z"%byte :: t) (x00 :: x00 :: x00 :: x00 :: v)
| a85_group : forall c0 c1 c2 c3 c4 d0 d1 d2 d3 d4 b0 b1 b2 b3 t v,
    digit85 c0 d0 -> digit85 c1 d1 -> digit85 c2 d2 -> digit85 c3 d3 -> digit85 c4 d4 ->
    val85 d0 d1 d2 d3 d4 = be [b0; b1; b2; b3] -> a85_code t v ->
    a85_code (c0 :: c1 :: c2 :: c3 :: c4 :: t) (b0 :: b1 :: b2 :: b3 :: v).

(** A final group of 1-3 bytes: the bytes are completed with zeros, encoded as
    five digits, and all but one more than there were bytes are dropped;
    [low] is the value of the dropped digits. *)
Inductive a85_tail : bytes -> bytes -> Z -> Prop :=
| a85_one : forall c0 c1 d0 d1 d2 d3 d4 b0, digit85 c0 d0 -> digit85 c1 d1 ->
    0 <= d2 < 85 -> 0 <= d3 < 85 -> 0 <= d4 < 85 ->
    val85 d0 d1 d2 d3 d4 = be [b0; x00; x00; x00] -> a85_tail [c0; c1] [b0] (val85 0 0 d2 d3 d4)
| a85_two : forall c0 c1 c2 d0 d1 d2 d3 d4 b0 b1, digit85 c0 d0 -> digit85 c1 d1 -> digit85 c2 d2 ->
    0 <= d3 < 85 -> 0 <= d4 < 85 ->
    val85 d0 d1 d2 d3 d4 = be [b0; b1; x00; x00] -> a85_tail [c0; c1; c2] [b0; b1] (val85 0 0 0 d3 d4)
| a85_three : forall c0 c1 c2 c3 d0 d1 d2 d3 d4 b0 b1 b2,
    digit85 c0 d0 -> digit85 c1 d1 -> digit85 c2 d2 -> digit85 c3 d3 -> 0 <= d4 < 85 ->
    val85 d0 d1 d2 d3 d4 = be [b0; b1; b2; x00] -> a85_tail [c0; c1; c2; c3] [b0; b1; b2] (val85 0 0 0 0 d4).

(** what may follow: nothing, or the marker and anything *)
Definition ends_with (m : byte) (r : bytes) : Prop := r = [] \/ exists r', r = m :: r'.

(** ** Run lengths (7.4.5) *)
Inductive run_code : bytes -> bytes -> Prop :=
| rc_nil : run_code [] []
| rc_literal : forall c l t v, 1 <= zlen l <= 128 -> bv c = zlen l - 1 -> run_code t v ->
    run_code (c :: l ++ t) (l ++ v)
| rc_repeat : forall c b k t v, 2 <= Z.of_nat k <= 128 -> bv c = 257 - Z.of_nat k -> run_code t v ->
    run_code (c :: b :: t) (repeat b k ++ v).

(** the beginning of a run, cut off, and the bytes present *)
Inductive run_cut : bytes -> bytes -> Prop :=
| cut_none : run_cut [] []
| cut_length : forall c, run_cut [c] []
| cut_literal : forall c l, 1 <= zlen l -> zlen l < bv c + 1 <= 128 -> run_cut (c :: l) l.

(** ** PNG filters (PNG specification, 9) *)

(** the first of the candidates nearest to [p] *)
Fixpoint nearest (p best : Z) (l : list Z) : Z :=
  match l with
  | [] => best
  | x :: r => nearest p (if Z.abs (p - x) <? Z.abs (p - best) then x else best) r
  end.

(** prediction for a byte from its left, upper and upper left neighbours *)
Definition png_predict (t a b c : Z) : Z :=
  if t =? 1 then a
  else if t =? 2 then b
  else if t =? 3 then (a + b) / 2
  else if t =? 4 then nearest (a + b - c) a [b; c]
  else 0.

(** byte [i] of a row, 0 outside *)
Definition row_at (row : bytes) (i : Z) : Z :=
  if i <? 0 then 0 else bv (nth (Z.to_nat i) row x00).

(** [fs] is [row] filtered with type [t]; [up] is the row above (empty for the
    first row), [bpp] the number of bytes per pixel. *)
Definition png_filtered (bpp t : Z) (up row fs : bytes) : Prop :=
  List.length fs = List.length row /\
  forall i, 0 <= i < zlen row ->
    row_at fs i = (row_at row i - png_predict t (row_at row (i - bpp)) (row_at up i) (row_at up (i - bpp))) mod 256.

(** [png_encoded bpp w up rows data]: [data] holds the [rows] of [w] bytes, each
    filtered with one of the [types] and preceded by the type. *)
Inductive png_encoded (bpp w : Z) : bytes -> list Z -> list bytes -> bytes -> Prop :=
| pe_nil : forall up, png_encoded bpp w up [] [] []
| pe_row : forall up t tag row fs types rows data, 0 <= t <= 4 -> bv tag = t -> zlen row = w ->
    png_filtered bpp t up row fs -> png_encoded bpp w row types rows data ->
    png_encoded bpp w up (t :: types) (row :: rows) (tag :: fs ++ data).

(** ** TIFF horizontal differencing (TIFF 6.0, section 14) *)

(** most significant bit first *)
Fixpoint sample_bits (n : nat) (v : Z) : list bool :=
  match n with O => [] | S n' => Z.testbit v (Z.of_nat n') :: sample_bits n' v end.
Definition byte_bits (d : bytes) : list bool := flat_map (fun b => sample_bits 8 (bv b)) d.

(** rows of samples, each padded to a whole number of bytes *)
Definition tiff_rows (bpc : nat) (rows : list (list Z * list bool)) (d : bytes) : Prop :=
  byte_bits d = flat_map (fun rp => flat_map (sample_bits bpc) (fst rp) ++ snd rp) rows.

(** [diff] holds the differences of [row] to the sample [colors] before *)
Definition differenced (bpc : nat) (colors : Z) (row diff : list Z) : Prop :=
  List.length diff = List.length row /\
  forall i v, zget row i = Some v ->
    (i < colors -> zget diff i = Some v) /\
    (forall u, zget row (i - colors) = Some u -> zget diff i = Some ((v - u) mod 2 ^ Z.of_nat bpc)).

Definition row_ok (bpc : nat) (colors columns : Z) (rp : list Z * list bool) : Prop :=
  zlen (fst rp) = colors * columns /\ (forall v, In v (fst rp) -> 0 <= v < 2 ^ Z.of_nat bpc) /\
  (List.length (snd rp) < 8)%nat /\ (Z.of_nat bpc * (colors * columns) + zlen (snd rp)) mod 8 = 0.
