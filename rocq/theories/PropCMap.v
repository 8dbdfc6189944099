(** PropCMap.v -- character maps with lists of values (C105). *)
From Verif Require Import Base Msg Reader Num Obj ReadObj Env GetObj Font SpecObj SpecText SpecCMap CMapListP CMapListEx.
From Coq Require Import Strings.String.

(** ** C105: ranges of a character map may list their values.
    Full statement: C105_lists_partial with [wmapped (concat ss) c] in place of
    [mapped taken (flat_map before ss) c].  This is false: a section ends in
    front of its first list, the lines behind it are lost as well (here the list
    is for the codes 1 and 2, and a line with one code, 5, follows). *)
Theorem C105_lists_refuted : exists cmap ss, wcmap_text cmap ss /\ Forall (fun ws => Forall bounded (before ws)) ss /\ forall E, exists F, forall fuel, (F <= fuel)%nat ->
  exists f, cmap_font fuel E cmap = Ok f /\ ~ wmapped (List.concat ss) 2 (mget Z.eqb 2 (f_map f)) /\ ~ wmapped (List.concat ss) 5 (mget Z.eqb 5 (f_map f)).
Proof. exact lists_refuted. Qed.
Print Assumptions C105_lists_refuted.
(** This is all that is lost.  Missing: the list, and what stands behind it in
    its section. *)
Theorem C105_lists_partial : forall E cmap ss, wcmap_text cmap ss -> Forall (fun ws => Forall bounded (before ws)) ss -> exists F, forall fuel, (F <= fuel)%nat ->
  exists f, cmap_font fuel E cmap = Ok f /\ f_width f = List.last (flat_map widths ss) 1 /\ forall c, mapped taken (flat_map before ss) c (mget Z.eqb c (f_map f)).
Proof. exact lists_loaded. Qed.
Print Assumptions C105_lists_partial.
Example C105_example : wcmap_text cmap3 lines3 /\ Forall (fun ws => Forall bounded (before ws)) lines3 /\ flat_map before lines3 = [MRange [x00] [x00] (lit "W"); MChar [x07] (lit "a")].
Proof. exact C105_ex. Qed.
