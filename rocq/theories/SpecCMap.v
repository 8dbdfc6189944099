(** SpecCMap.v -- character maps whose ranges may list their values in an array
    (PDF 32000-1, 9.10.3; C105). *)
From Verif Require Import Base Num Obj SpecLex SpecObj SpecFilters SpecText.
From Coq Require Import Strings.String.

Inductive hex0 : bytes -> bytes -> Prop :=
| h0_intro : forall t ds v, hex_digits t ds 0 -> hex_pairs ds v -> v <> [] -> hex0 ("<"%byte :: t ++ [">"%byte]) v.
Inductive hexes : bytes -> list bytes -> Prop :=
| hx_nil : forall g, gap g -> hexes g []
| hx_cons : forall g t v r l, gap g -> hex0 t v -> hexes r l -> hexes (g ++ t ++ r) (v :: l).

(** A line of a section; [WList lo hi vs]: the codes from [lo] to [hi] stand for
    the values [vs], one each. *)
Inductive wline := WMap (m : mapping) | WList (lo hi : bytes) (vs : list bytes).
Inductive wline_text : bytes -> wline -> Prop :=
| wl_range : forall a lo g1 b hi g2 c v, hex0 a lo -> gap g1 -> hex0 b hi -> gap g2 -> hex0 c v ->
    wline_text (a ++ g1 ++ b ++ g2 ++ c) (WMap (MRange lo hi v))
| wl_list : forall a lo g1 b hi g2 u vs, hex0 a lo -> gap g1 -> hex0 b hi -> gap g2 -> hexes u vs -> zlen vs = code hi - code lo + 1 ->
    wline_text (a ++ g1 ++ b ++ g2 ++ "["%byte :: u ++ ["]"%byte]) (WList lo hi vs).
Inductive wlines_text : bytes -> list wline -> Prop :=
| ws_one : forall t w, wline_text t w -> wlines_text t [w]
| ws_more : forall t w g r l, wline_text t w -> gap g -> wlines_text r l -> wlines_text (t ++ g ++ r) (w :: l).
(** A CMap and the lines of its sections. *)
Inductive wcmap_text : bytes -> list (list wline) -> Prop :=
| wc_end : forall t l, items t l -> Forall no_section l -> wcmap_text t []
| wc_chars : forall t l q p ms r ss, items t (l ++ [ONum q; OKw (lit "beginbfchar")]) -> Forall no_section l ->
    chars_text p ms -> num_int q = zlen ms -> wcmap_text r ss -> wcmap_text (t ++ p ++ r) (map WMap ms :: ss)
| wc_ranges : forall t l q p ws r ss, items t (l ++ [ONum q; OKw (lit "beginbfrange")]) -> Forall no_section l ->
    wlines_text p ws -> num_int q = zlen ws -> wcmap_text r ss -> wcmap_text (t ++ p ++ r) (ws :: ss).

(** what a line says about a code *)
Definition wcovers (w : wline) (c : Z) : Prop :=
  match w with WMap m => covers m c | WList lo hi _ => code lo <= c <= code hi end.
Definition wsays (w : wline) (c : Z) : option bytes :=
  match w with WMap m => Some (says m c) | WList lo _ vs => nth_error vs (Z.to_nat (c - code lo)) end.
Definition wmapped (ws : list wline) (c : Z) (x : option bytes) : Prop :=
  (Forall (fun w => ~ wcovers w c) ws /\ x = None) \/
  exists a w b, ws = a ++ w :: b /\ wcovers w c /\ Forall (fun w => ~ wcovers w c) b /\ x = wsays w c.

(** What is made of a section: it ends in front of its first list. *)
Fixpoint before (ws : list wline) : list mapping :=
  match ws with WMap m :: r => m :: before r | _ => [] end.
(** ... the codes of which still count for the width *)
Fixpoint widths (ws : list wline) : list Z :=
  match ws with [] => [] | WMap m :: r => zlen (source m) :: widths r | WList lo _ _ :: _ => [zlen lo] end.
