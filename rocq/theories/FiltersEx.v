(** FiltersEx.v -- witnesses for PropFilters.v. *)
From Verif Require Import Base BaseP Msg Reader Num Lexer Obj Bits Filters Env Getters Stream GetObj
  SpecLex SpecLexP SpecFilters FiltersP PngP TiffP ReadEx.
From Coq Require Import Strings.String.
Local Open Scope Z_scope.

Lemma C26_ex : hex_digits (lit "4a 4" ++ x0a :: lit "B5") [4; 10; 4; 11; 5]%nat 0 /\
  hex_pairs [4; 10; 4; 11; 5]%nat [x4a; x4b; x50] /\ ends_with ">"%byte (lit "> zz").
Proof.
  split; [|split].
  - apply (hd_digit "4" 4); [left; reflexivity|]. apply (hd_digit "a" 10); [left; reflexivity|].
    apply hd_ws; [ws|]. apply (hd_digit "4" 4); [left; reflexivity|]. apply hd_ws; [ws|].
    apply (hd_digit "B" 11); [right; reflexivity|]. apply (hd_digit "5" 5); [left; reflexivity|]. apply hd_nil.
  - apply hp_pair; [reflexivity|]. apply hp_pair; [reflexivity|]. apply hp_odd. reflexivity.
  - right. exists (lit " zz"). reflexivity.
Qed.

Ltac d85 := split; [vm_compute; split; discriminate || reflexivity|reflexivity].

Lemma C27_ex : a85_code (lit "9jqo^z") (lit "Man " ++ [x00; x00; x00; x00]) /\ spaced (lit "9jq o^z ") (lit "9jqo^z") /\
  ends_with "~"%byte (lit "~>").
Proof.
  split; [|split].
  - apply (a85_group "9" "j" "q" "o" "^" 24 73 80 78 61 "M" "a" "n" " " (lit "z") [x00; x00; x00; x00]); try d85; [reflexivity|].
    apply a85_z. apply a85_nil.
  - do 3 apply sp_char. apply sp_ws; [ws|]. do 3 apply sp_char. apply sp_ws; [ws|]. apply sp_nil.
  - right. exists (lit ">"). reflexivity.
Qed.

Lemma ascii85_refuted : exists t data low, a85_tail t data low /\ t = lit "E+K" /\ data = lit "pe" /\
  ascii85_decode t <> data.
Proof.
  exists (lit "E+K"), (lit "pe"), (val85 0 0 0 1 43). split; [|split; [reflexivity|split; [reflexivity|vm_compute; discriminate]]].
  apply (a85_two "E" "+" "K" 36 10 42 1 43 "p" "e"); try d85; try reflexivity; vm_compute; split; discriminate || reflexivity.
Qed.

Lemma C28_ex : a85_code (lit "9jqo^") (lit "Man ") /\ a85_tail (lit "!!") [x00] 0.
Proof.
  split.
  - apply (a85_group "9" "j" "q" "o" "^" 24 73 80 78 61 "M" "a" "n" " " [] []); try d85; [reflexivity|]. apply a85_nil.
  - apply (a85_one "!" "!" 0 0 0 0 0 x00); try d85; try reflexivity; vm_compute; split; discriminate || reflexivity.
Qed.

Lemma C29_ex : run_code (x02 :: lit "abc" ++ xfb :: lit "x" ++ []) (lit "abc" ++ repeat "x"%byte 6 ++ []) /\ ends_with x80 [x80; x01] /\
  run_cut (x05 :: lit "ab") (lit "ab").
Proof.
  split; [|split].
  - apply (rc_literal x02 (lit "abc")); [vm_compute; split; discriminate|reflexivity|].
    apply (rc_repeat xfb "x" 6 [] []); [vm_compute; split; discriminate|reflexivity|]. apply rc_nil.
  - right. exists [x01]. reflexivity.
  - apply cut_literal; vm_compute; try split; discriminate || reflexivity.
Qed.

(** Sub filter on three-byte pixels *)
Ltac rows_at := let i := fresh "i" in let H := fresh "H" in intros i H; vm_compute in H;
  repeat (destruct (Z.eq_dec i 0) as [->|?]; [vm_compute; reflexivity|]).
Lemma png_check : forall bpp t up row fs, List.length fs = List.length row ->
  forallb (fun k => row_at fs (Z.of_nat k) =?
    (row_at row (Z.of_nat k) - png_predict t (row_at row (Z.of_nat k - bpp)) (row_at up (Z.of_nat k)) (row_at up (Z.of_nat k - bpp))) mod 256)
    (seq 0 (List.length row)) = true -> png_filtered bpp t up row fs.
Proof.
  intros bpp t up row fs L H. split; auto. intros i Hi. rewrite forallb_forall in H.
  specialize (H (Z.to_nat i)). rewrite Z2Nat.id in H by lia. apply Z.eqb_eq. apply H. apply in_seq. unfold zlen in Hi. lia.
Qed.

Lemma png_pixels_refuted : exists types rows data, png_encoded 3 6 [] types rows data /\
  reverse_predictor 0 15 8 3 2 data <> Ok (List.concat rows).
Proof.
  exists [1], [[x0a; x14; x1e; x28; x32; x3c]], [x01; x0a; x14; x1e; x1e; x1e; x1e]. split.
  - apply (pe_row 3 6 [] 1 x01 [x0a; x14; x1e; x28; x32; x3c] [x0a; x14; x1e; x1e; x1e; x1e]); try reflexivity; [lia| |apply pe_nil].
    apply png_check; reflexivity.
  - vm_compute. discriminate.
Qed.

(** Predictor 12 (Up) with a row filtered with Sub *)
Lemma png_tags_refuted : exists types rows data, png_encoded 1 3 [] types rows data /\
  reverse_predictor 0 12 8 1 3 data <> Ok (List.concat rows).
Proof.
  exists [1], [[x0a; x14; x1e]], [x01; x0a; x0a; x0a]. split.
  - apply (pe_row 1 3 [] 1 x01 [x0a; x14; x1e] [x0a; x0a; x0a]); try reflexivity; [lia| |apply pe_nil].
    apply png_check; reflexivity.
  - vm_compute. discriminate.
Qed.

Lemma C30_ex : png_encoded 1 3 [] [4; 3] [[x0a; x14; x1e]; [x0b; x15; xff]]
  [x04; x0a; x0a; x0a; x03; x06; x06; xe6].
Proof.
  apply (pe_row 1 3 [] 4 x04 [x0a; x14; x1e] [x0a; x0a; x0a]); try reflexivity; [lia|apply png_check; reflexivity|].
  apply (pe_row 1 3 _ 3 x03 [x0b; x15; xff] [x06; x06; xe6] [] [] []); try reflexivity; [lia|apply png_check; reflexivity|].
  apply pe_nil.
Qed.

Lemma C31_ex : row_ok 4 1 3 ([5; 7; 1], [false; true; false; false]) /\ differenced 4 1 [5; 7; 1] [5; 2; 10] /\
  tiff_rows 4 [([5; 2; 10], [false; true; false; false])] [x52; xa4].
Proof.
  split; [|split; [|reflexivity]].
  - split; [reflexivity|]. split; [|split; [simpl; lia|reflexivity]].
    simpl. intros v [<-|[<-|[<-|[]]]]; lia.
  - split; [reflexivity|]. intros i v H. pose proof (zget_Some _ _ _ _ H) as [Hi _]. change (zlen [5; 7; 1]) with 3 in Hi.
    assert (C : i = 0 \/ i = 1 \/ i = 2) by lia. destruct C as [-> | [-> | ->]]; vm_compute in H; injection H as <-; split; intros; try lia; try reflexivity;
      try (vm_compute in H; discriminate H); vm_compute in H; injection H as <-; reflexivity.
Qed.

(** Colors = 2^60 + 256, Columns = 2 *)
Lemma predictor_refuted : exists data parms, forall rs fuel p, rev_predictor rs (S fuel) data parms p = Panic.
Proof.
  exists [x00], [(lit "Predictor", ONum (num_of_Z 2)); (lit "Colors", ONum (num_of_Z 1152921504606847232));
                 (lit "Columns", ONum (num_of_Z 2))].
  intros rs fuel p. vm_compute. reflexivity.
Qed.

Lemma C59_ex : be [x80; x00; x00; x00; x00; x00; x00; x00] = two63 /\ be [x01; x02] = 258.
Proof. split; reflexivity. Qed.

Lemma C32_ex : - two63 <= 8 * (-3) < two63 /\ - two63 <= 8 * (-3) * (-5) < 2 ^ 62.
Proof. vm_compute. repeat split; discriminate || reflexivity. Qed.
