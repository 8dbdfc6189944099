(** PropFilters.v -- property theorems C26-C32 and C59 (filters, predictors,
    multi-byte integers).  Proofs: FiltersP.v, PngP.v, TiffP.v; vocabulary:
    SpecLex.v, SpecFilters.v. *)
From Verif Require Import Base Msg Reader Num Lexer Obj Bits Filters Env Getters Stream GetObj
  SpecLex SpecFilters FiltersP PngP TiffP FiltersEx.
From Coq Require Import Strings.String.
Local Open Scope Z_scope.

(** ** C26 *)
Theorem C26_ascii_hex : forall t ds v r, hex_digits t ds 0 -> hex_pairs ds v -> ends_with ">"%byte r ->
  ascii_hex_decode (t ++ r) = v.
Proof. exact ascii_hex_inverts. Qed.
Print Assumptions C26_ascii_hex.

Theorem C26_every_data_encodable : forall v, exists t ds, hex_digits t ds 0 /\ hex_pairs ds v.
Proof. exact SpecLexP.hex_writable. Qed.
Print Assumptions C26_every_data_encodable.

Example C26_example : hex_digits (lit "4a 4" ++ x0a :: lit "B5") [4; 10; 4; 11; 5]%nat 0 /\
  hex_pairs [4; 10; 4; 11; 5]%nat [x4a; x4b; x50] /\ ends_with ">"%byte (lit "> zz").
Proof. exact C26_ex. Qed.

(** ** C27 *)
Theorem C27_ascii85 : forall t u v r, a85_code u v -> spaced t u -> ends_with "~"%byte r ->
  ascii85_decode (t ++ r) = v.
Proof. exact ascii85_inverts. Qed.
Print Assumptions C27_ascii85.

Theorem C27_every_data_encodable : forall v, zlen v mod 4 = 0 -> exists u, a85_code u v.
Proof. exact a85_writable. Qed.
Print Assumptions C27_every_data_encodable.

Example C27_example : a85_code (lit "9jqo^z") (lit "Man " ++ [x00; x00; x00; x00]) /\ spaced (lit "9jq o^z ") (lit "9jqo^z") /\
  ends_with "~"%byte (lit "~>").
Proof. exact C27_ex. Qed.

(** ** C28: the full statement
    [forall t u w v data low r, a85_code u v -> a85_tail w data low -> spaced t (u ++ w) ->
     ends_with "~" r -> ascii85_decode (t ++ r) = v ++ data] is false. *)
Theorem C28_partial_group_refuted : exists t data low, a85_tail t data low /\ t = lit "E+K" /\ data = lit "pe" /\
  ascii85_decode t <> data.
Proof. exact ascii85_refuted. Qed.
Print Assumptions C28_partial_group_refuted.

(** It holds exactly when the dropped digits are zero ... *)
Theorem C28_partial_group_partial : forall t u w v data low r, a85_code u v -> a85_tail w data low -> spaced t (u ++ w) ->
  ends_with "~"%byte r -> (ascii85_decode (t ++ r) = v ++ data <-> low = 0).
Proof. exact ascii85_tail_exact. Qed.
Print Assumptions C28_partial_group_partial.

(** ... and otherwise the final bytes, read as a number, are one too small. *)
Theorem C28_off_by_one_partial : forall t u w v data low r, a85_code u v -> a85_tail w data low -> spaced t (u ++ w) ->
  ends_with "~"%byte r ->
  exists out, ascii85_decode (t ++ r) = v ++ out /\ List.length out = List.length data /\
    be out = be data - (if low =? 0 then 0 else 1).
Proof. exact ascii85_tail_off. Qed.
Print Assumptions C28_off_by_one_partial.

Example C28_example : a85_code (lit "9jqo^") (lit "Man ") /\ a85_tail (lit "!!") [x00] 0.
Proof. exact C28_ex. Qed.

(** ** C29 *)
Theorem C29_run_length : forall t v r, run_code t v -> ends_with x80 r -> run_length_decode (t ++ r) = v.
Proof. exact run_length_inverts. Qed.
Print Assumptions C29_run_length.

Theorem C29_truncated : forall t v c d, run_code t v -> run_cut c d -> run_length_decode (t ++ c) = v ++ d.
Proof. exact run_length_cut. Qed.
Print Assumptions C29_truncated.

Theorem C29_every_data_encodable : forall v, exists t, run_code t v.
Proof. exact run_writable. Qed.
Print Assumptions C29_every_data_encodable.

Example C29_example : run_code (x02 :: lit "abc" ++ xfb :: lit "x" ++ []) (lit "abc" ++ repeat "x"%byte 6 ++ []) /\
  ends_with x80 [x80; x01] /\ run_cut (x05 :: lit "ab") (lit "ab").
Proof. exact C29_ex. Qed.

(** ** C30: the full statement is C30_png_partial without its last hypothesis. *)
Theorem C30_pixel_size_refuted : exists types rows data, png_encoded 3 6 [] types rows data /\
  reverse_predictor 0 15 8 3 2 data <> Ok (List.concat rows).
Proof. exact png_pixels_refuted. Qed.
Print Assumptions C30_pixel_size_refuted.

Theorem C30_row_types_refuted : exists types rows data, png_encoded 1 3 [] types rows data /\
  reverse_predictor 0 12 8 1 3 data <> Ok (List.concat rows).
Proof. exact png_tags_refuted. Qed.
Print Assumptions C30_row_types_refuted.

Theorem C30_png_partial : forall fuel predictor bpc colors columns bpp w types rows data,
  10 <= predictor <= 15 -> 1 <= bpc <= 16 -> 1 <= colors -> 1 <= columns -> bpc * colors * columns < two63 ->
  bpp = (bpc * colors + 7) / 8 -> w = (bpc * colors * columns + 7) / 8 ->
  png_encoded bpp w [] types rows data ->
  (forall t, In t types -> (predictor = 15 \/ t = predictor - 10) /\ (bpp = 1 \/ t = 0 \/ t = 2)) ->
  reverse_predictor fuel predictor bpc colors columns data = Ok (List.concat rows).
Proof. exact png_inverts. Qed.
Print Assumptions C30_png_partial.

Example C30_example : png_encoded 1 3 [] [4; 3] [[x0a; x14; x1e]; [x0b; x15; xff]]
  [x04; x0a; x0a; x0a; x03; x06; x06; xe6].
Proof. exact C30_ex. Qed.

(** ** C31 *)
Theorem C31_tiff : forall bpc colors columns rows drows data,
  (1 <= bpc <= 16)%nat -> 1 <= colors -> 1 <= columns -> 8 * zlen data < two63 ->
  Forall (row_ok bpc colors columns) rows ->
  Forall2 (fun rp dp => differenced bpc colors (fst rp) (fst dp) /\ snd dp = snd rp) rows drows ->
  tiff_rows bpc drows data ->
  exists out f0, tiff_rows bpc rows out /\
    forall fuel, (f0 <= fuel)%nat -> reverse_predictor fuel 2 (Z.of_nat bpc) colors columns data = Ok out.
Proof. exact tiff_inverts. Qed.
Print Assumptions C31_tiff.

(** the rows determine the bytes *)
Theorem C31_rows_determine_data : forall bpc rows a b, tiff_rows bpc rows a -> tiff_rows bpc rows b -> a = b.
Proof. exact tiff_rows_inj. Qed.
Print Assumptions C31_rows_determine_data.

Example C31_example : row_ok 4 1 3 ([5; 7; 1], [false; true; false; false]) /\ differenced 4 1 [5; 7; 1] [5; 2; 10] /\
  tiff_rows 4 [([5; 2; 10], [false; true; false; false])] [x52; xa4].
Proof. exact C31_ex. Qed.

(** ** C32: the full statement
    [forall predictor bpc colors columns data, exists f0 out, forall fuel, f0 <= fuel ->
     reverse_predictor fuel predictor bpc colors columns data = Ok out] is false. *)
Theorem C32_predictor_refuted : exists data parms, forall rs fuel p, rev_predictor rs (S fuel) data parms p = Panic.
Proof. exact predictor_refuted. Qed.
Print Assumptions C32_predictor_refuted.

Theorem C32_no_overflow_partial : forall predictor bpc colors columns data,
  - two63 <= bpc * colors < two63 -> - two63 <= bpc * colors * columns < 2 ^ 62 -> zlen data < 2 ^ 58 ->
  exists f0 out, forall fuel, (f0 <= fuel)%nat -> reverse_predictor fuel predictor bpc colors columns data = Ok out.
Proof. exact predictor_total. Qed.
Print Assumptions C32_no_overflow_partial.

Theorem C32_other_predictors_partial : forall fuel predictor bpc colors columns data, predictor <> 2 ->
  exists out, reverse_predictor fuel predictor bpc colors columns data = Ok out.
Proof. exact predictor_total_png. Qed.
Print Assumptions C32_other_predictors_partial.

Example C32_example : - two63 <= 8 * (-3) < two63 /\ - two63 <= 8 * (-3) * (-5) < 2 ^ 62.
Proof. exact C32_ex. Qed.

(** ** C59 *)
Theorem C59_bytes_to_int : forall b, bytes_to_int b = wrap64 (be b) /\ (be b < two63 -> bytes_to_int b = be b).
Proof. exact bytes_to_int_be. Qed.
Print Assumptions C59_bytes_to_int.

Theorem C59_read_int64 : forall w a r, zlen a = w -> read_be w (a ++ r) = Ok ((wrap64 (be a), true), r).
Proof. exact read_be_fits. Qed.
Print Assumptions C59_read_int64.

Theorem C59_read_int64_short : forall w a, zlen a < w -> read_be w a = Ok ((0, false), []).
Proof. exact read_be_short. Qed.
Print Assumptions C59_read_int64_short.

Example C59_example : be [x80; x00; x00; x00; x00; x00; x00; x00] = two63 /\ be [x01; x02] = 258.
Proof. exact C59_ex. Qed.
