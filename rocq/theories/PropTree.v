(** PropTree.v -- page trees and name trees (C46, C47, C61). *)
From Verif Require Import Base Msg Reader ReaderP Num Lexer Obj ReadObj Env Getters GetObj Load Tree FetchEx SpecFetch SpecLook SpecTree TreeP TreeEx.
From Coq Require Import Strings.String.

(** ** C46: page tree traversal terminates and visits each page once.
    The hypothesis that every reference can be followed is C15's subject. *)
Theorem C46_page_tree : forall E file p, reads file p -> offsets_ok (pxref p) -> (forall n, exists o, target E file p n o) ->
  forall d k root, typed E file p is_dict (entry d k) root ->
    exists ks ts, array_at E file p root "Kids" ks /\ unfolded E file p [] ks ts /\
      works file p (fun f1 f2 => page_tree (Resolve f1 E file) f2 d k) (root :: map snd (firsts [] (preorder ts)), true) /\
      NoDup (map fst (firsts [] (preorder ts))) /\
      forall n e, In (n, e) (firsts [] (preorder ts)) <-> reachable E file p ks n e.
Proof. exact page_tree_works. Qed.
Print Assumptions C46_page_tree.
Theorem C46_no_page_tree : forall E file p, reads file p -> offsets_ok (pxref p) -> forall d k, untyped E file p is_dict (entry d k) ->
  works file p (fun f1 f2 => page_tree (Resolve f1 E file) f2 d k) ([], false).
Proof. exact page_tree_none. Qed.
Print Assumptions C46_no_page_tree.
Example C46_example : reads pages pages_state /\ offsets_ok (pxref pages_state) /\ (forall n, exists o, target E0 pages pages_state n o) /\
  typed E0 pages pages_state is_dict (entry catalog (lit "Pages")) d1 /\
  untyped E0 pages pages_state is_dict (entry catalog (lit "Bad")) /\
  let ts := [PT 2 d2 [PT 1 d1 [PT 3 d3 []]; PT 3 d3 []]; PT 3 d3 []] in
  unfolded E0 pages pages_state [] [ref 2; ref 3; ref 7] ts /\
  firsts [] (preorder ts) = [(2, d2); (1, d1); (3, d3)].
Proof. exact C46_ex. Qed.

(** ** C47: name tree traversal terminates.
    Full statement: the conclusion of C47_name_tree_ends_partial for every
    document in which references can be followed.  This is false: an array
    object holding a node whose Kids entry refers to that array. *)
Theorem C47_name_tree_ends_partial : forall E file p, reads file p -> offsets_ok (pxref p) -> (forall n, exists o, target E file p n o) ->
  forall d k good, kids_sane E file p good -> (forall root, typed E file p is_dict (entry d k) root -> good root) ->
    exists l, works file p (fun f1 f2 => name_tree_map (Resolve f1 E file) f2 d k) l.
Proof. exact name_tree_ends. Qed.
Print Assumptions C47_name_tree_ends_partial.
Theorem C47_name_tree_ends_refuted : exists file p d k, reads file p /\ offsets_ok (pxref p) /\ (forall n, exists o, target E0 file p n o) /\
  load 9 E0 (fun l => l) file [] (new_parser file) = Ok (None, p) /\
  forall f1 f2, name_tree_map (Resolve f1 E0 file) f2 d k p = OutOfFuel.
Proof. exact names_refuted. Qed.
Print Assumptions C47_name_tree_ends_refuted.
Example C47_example : reads pages pages_state /\ offsets_ok (pxref pages_state) /\ (forall n, exists o, target E0 pages pages_state n o) /\
  kids_sane E0 pages pages_state good5 /\ (forall root, typed E0 pages pages_state is_dict (entry catalog (lit "Names")) root -> good5 root) /\
  typed E0 pages pages_state is_dict (entry catalog (lit "Names")) d5.
Proof. exact C47_ex. Qed.

(** ** C61: the names of a finite name tree are collected in order *)
Theorem C61_names_in_order : forall E file p, reads file p -> offsets_ok (pxref p) ->
  forall d k root ns l, typed E file p is_dict (entry d k) root -> names_below E file p root ns l -> NoDup ns ->
    works file p (fun f1 f2 => name_tree_map (Resolve f1 E file) f2 d k) l.
Proof. exact name_tree_works. Qed.
Print Assumptions C61_names_in_order.
Theorem C61_no_name_tree : forall E file p, reads file p -> offsets_ok (pxref p) -> forall d k, untyped E file p is_dict (entry d k) ->
  works file p (fun f1 f2 => name_tree_map (Resolve f1 E file) f2 d k) [].
Proof. exact name_tree_none. Qed.
Print Assumptions C61_no_name_tree.
Example C61_example : exists root, typed E0 pages pages_state is_dict (entry catalog (lit "Flat")) root /\
  names_below E0 pages pages_state root [9] [OStr (lit "a"); ONum (num_of_Z 1); OStr (lit "d"); ONum (num_of_Z 4); OStr (lit "b")] /\ NoDup [9].
Proof. exact C61_ex. Qed.
