(** PropText.v -- fonts and page text (C43-C45, C48, C49). *)
From Verif Require Import Base Msg Reader ReaderP Num Lexer Obj ReadObj Env Getters GetObj Font Output Page
  SpecObj SpecText SpecPage TextP PageP CMapP TextEx.
From Coq Require Import Strings.String.

(** ** C43: text is decoded code by code *)
Theorem C43_decoded : forall f b, 1 <= f_width f -> exists out, font_decode f b = Ok out /\ decoded (fun c => mget Z.eqb c (f_map f)) (f_width f) b out /\
  forall o, decoded (fun c => mget Z.eqb c (f_map f)) (f_width f) b o -> o = out.
Proof. exact font_decoded. Qed.
Print Assumptions C43_decoded.
Theorem C43_default_is_identity : forall b, font_decode font_default b = Ok b.
Proof. exact default_identity. Qed.
Print Assumptions C43_default_is_identity.
Theorem C43_built_fonts_decode : forall fuel E cmap f b, cmap_font fuel E cmap = Ok f ->
  exists out, font_decode f b = Ok out /\ decoded (fun c => mget Z.eqb c (f_map f)) (f_width f) b out.
Proof. exact new_font_decodes. Qed.
Print Assumptions C43_built_fonts_decode.
Example C43_example : 1 <= f_width font2 /\ font_decode font2 (lit "AABBA") = Ok (lit "xBB").
Proof. exact C43_ex. Qed.

(** ** C44: character maps map codes as the CMap says.
    Full statement: as C44_character_map_partial, with
    [mapped (fun m => says m c) ms c] (a range counts up) in place of
    [mapped taken ms c] (all codes of a range are mapped to its first value).
    This is false. *)
Theorem C44_character_map_partial : forall E cmap ms, cmap_text cmap ms -> Forall bounded ms -> exists F, forall fuel, (F <= fuel)%nat ->
  exists f, cmap_font fuel E cmap = Ok f /\ f_width f = width_of ms /\ forall c, mapped taken ms c (mget Z.eqb c (f_map f)).
Proof. exact cmap_loaded. Qed.
Print Assumptions C44_character_map_partial.
Theorem C44_ranges_refuted : exists cmap ms, cmap_text cmap ms /\ Forall bounded ms /\ forall E, exists F, forall fuel, (F <= fuel)%nat ->
  exists f, cmap_font fuel E cmap = Ok f /\ exists c, ~ mapped (fun m => says m c) ms c (mget Z.eqb c (f_map f)).
Proof. exact range_refuted. Qed.
Print Assumptions C44_ranges_refuted.
Example C44_example : cmap_text cmap1 maps1 /\ Forall bounded maps1.
Proof. exact C44_ex. Qed.

(** ** C45: loading a character map terminates.
    Full statement: for every [cmap] the conclusion of C45_load_returns_partial.
    This is false: a range up to 7FFFFFFFFFFFFFFF. *)
Theorem C45_load_returns_partial : forall E cmap, moderate cmap -> exists F, forall fuel, (F <= fuel)%nat -> exists f, cmap_font fuel E cmap = Ok f.
Proof. exact moderate_loads. Qed.
Print Assumptions C45_load_returns_partial.
Theorem C45_load_returns_refuted : exists cmap, forall fuel E, cmap_font fuel E cmap = OutOfFuel.
Proof. exact load_refuted. Qed.
Print Assumptions C45_load_returns_refuted.
Example C45_example : moderate cmap2.
Proof. exact C45_ex. Qed.

(** ** C48: shown text is extracted in order *)
Theorem C48_text_lines : forall E fm contents l cs ls, sound_fonts fm -> tokens contents l -> commands l cs -> text (named fm) even_strings None cs ls ->
  exists F, forall fuel, (F <= fuel)%nat -> page_text fuel E fm contents = (lines ls, Ok tt).
Proof. exact page_text_lines. Qed.
Print Assumptions C48_text_lines.
(** every stream has such lines, and well-formed ones have the objects of the grammar *)
Theorem C48_every_stream : forall E fm contents, sound_fonts fm -> exists l cs ls, tokens contents l /\ commands l cs /\ text (named fm) even_strings None cs ls /\
  exists F, forall fuel, (F <= fuel)%nat -> page_text fuel E fm contents = (lines ls, Ok tt).
Proof. exact page_text_total. Qed.
Print Assumptions C48_every_stream.
Theorem C48_wellformed_stream : forall l t, items t l -> tokens t l /\ forall l', tokens t l' -> l = l'.
Proof. exact items_tokens_only. Qed.
Print Assumptions C48_wellformed_stream.
(** the fonts of a page are sound *)
Theorem C48_loaded_fonts : forall E rs fuel names fonts p fm p', load_fonts E rs fuel names fonts [] p = Ok (fm, p') -> sound_fonts fm.
Proof. exact loaded_fonts_sound. Qed.
Print Assumptions C48_loaded_fonts.
Example C48_example : sound_fonts fonts1 /\ tokens page1 objs1 /\ commands objs1 cmds1 /\
  text (named fonts1) even_strings None cmds1 [lit "a"; lit "xy"; lit "b"; lit "c"; lit "de"; lit "A"].
Proof. exact C48_ex. Qed.

(** ** C49: positioned text is extracted completely.
    Full statement: C49_all_strings_partial without [Forall alternating cs].
    This is false: strings at odd positions are dropped. *)
Theorem C49_all_strings_partial : forall E fm contents l cs ls, sound_fonts fm -> tokens contents l -> commands l cs -> Forall alternating cs ->
  text (named fm) all_strings None cs ls -> exists F, forall fuel, (F <= fuel)%nat -> page_text fuel E fm contents = (lines ls, Ok tt).
Proof. exact page_text_complete. Qed.
Print Assumptions C49_all_strings_partial.
Theorem C49_all_strings_refuted : exists contents l cs ls, items contents l /\ commands l cs /\ text (named []) all_strings None cs ls /\
  forall E, exists F, forall fuel, (F <= fuel)%nat -> exists ls', page_text fuel E [] contents = (lines ls', Ok tt) /\ lines ls' <> lines ls.
Proof. exact positioned_refuted. Qed.
Print Assumptions C49_all_strings_refuted.
Example C49_example : Forall alternating cmds1 /\ text (named fonts1) all_strings None cmds1 [lit "a"; lit "xy"; lit "b"; lit "c"; lit "de"; lit "A"].
Proof. exact C49_ex. Qed.
