(** SpecTree.v -- page trees and name trees as graphs of dictionaries. *)
From Verif Require Import Base Msg Reader ReaderP Num Lexer Obj Env Getters GetObj SpecFetch SpecLook.
From Coq Require Import Strings.String.

(** Given enough fuel for following references ([f1]) and for the recursion
    ([f2]), the result is [a], from every state that differs from [p] only in
    the reader's position and the log. *)
Definition works {A} (file : bytes) (p : pst) (m : nat -> nat -> M A) (a : A) : Prop :=
  exists F, forall f1 f2 q, (F <= f1)%nat -> (F <= f2)%nat -> kept file p q ->
    exists q', m f1 f2 q = Ok (a, q') /\ kept file p q'.

Section Graph.
  Variables (E : env) (file : bytes) (p : pst).

  (** the array under a key, empty where there is none *)
  Definition array_at (d : dict) (k : string) (l : list obj) : Prop :=
    typed_or E file p is_array (entry d (lit k)) [] l.
  (** object [n] is a dictionary *)
  Definition page (n : Z) (d : dict) : Prop := exists o, target E file p n o /\ ival o = ODict d.

  (** ** Page trees *)
  (** The pages below the kids [ks] *)
  Inductive reachable : list obj -> Z -> dict -> Prop :=
  | rc_here : forall ks n g d, In (ORef n g) ks -> page n d -> reachable ks n d
  | rc_below : forall ks m g e ks' n d, In (ORef m g) ks -> page m e -> array_at e "Kids" ks' -> reachable ks' n d ->
      reachable ks n d.

  (** The graph below [ks] unfolded into trees: every reference to a dictionary
      becomes a node, except where it leads back to a node it is itself below
      ([path]). *)
  Inductive ptree := PT (n : Z) (d : dict) (sub : list ptree).
  Inductive unfolded : list Z -> list obj -> list ptree -> Prop :=
  | un_nil : forall path, unfolded path [] []
  | un_other : forall path x ks ts, (forall n g, x <> ORef n g) -> unfolded path ks ts -> unfolded path (x :: ks) ts
  | un_none : forall path n g ks ts, (forall d, ~ page n d) -> unfolded path ks ts -> unfolded path (ORef n g :: ks) ts
  | un_back : forall path n g ks ts, In n path -> unfolded path ks ts -> unfolded path (ORef n g :: ks) ts
  | un_page : forall path n g d ks' sub ks ts, ~ In n path -> page n d -> array_at d "Kids" ks' ->
      unfolded (n :: path) ks' sub -> unfolded path ks ts -> unfolded path (ORef n g :: ks) (PT n d sub :: ts).

  (** parents before their kids, kids in order *)
  Fixpoint preorder1 (t : ptree) : list (Z * dict) :=
    match t with PT n d sub => (n, d) :: flat_map preorder1 sub end.
  Definition preorder (ts : list ptree) : list (Z * dict) := flat_map preorder1 ts.

  (** each page where it is met first *)
  Fixpoint firsts (met : list Z) (l : list (Z * dict)) : list (Z * dict) :=
    match l with
    | [] => []
    | (n, d) :: l' => if in_dec Z.eq_dec n met then firsts met l' else (n, d) :: firsts (n :: met) l'
    end.

  (** ** Name trees *)
  (** what a kid stands for, the empty dictionary if it is no dictionary *)
  Definition node (x : obj) (d : dict) : Prop := typed_or E file p is_dict (Some x) [] d.

  (** The tree below [d] is finite; [ns] are the references in it, in order,
      and [l] are its names: those of the node, then those of its kids. *)
  Inductive names_below : dict -> list Z -> list obj -> Prop :=
  | nb : forall d l0 ks ns l, array_at d "Names" l0 -> array_at d "Kids" ks -> names_in ks ns l -> names_below d ns (l0 ++ l)
  with names_in : list obj -> list Z -> list obj -> Prop :=
  | ni_nil : names_in [] [] []
  | ni_direct : forall x ks d n1 l1 n2 l2, (forall n g, x <> ORef n g) -> node x d -> names_below d n1 l1 -> names_in ks n2 l2 ->
      names_in (x :: ks) (n1 ++ n2) (l1 ++ l2)
  | ni_ref : forall n g ks d n1 l1 n2 l2, node (ORef n g) d -> names_below d n1 l1 -> names_in ks n2 l2 ->
      names_in (ORef n g :: ks) (n :: n1 ++ n2) (l1 ++ l2).

  (** A set of nodes that is closed under going to the kids, and in which no
      Kids array that is reached through a reference holds a dictionary
      directly. *)
  Definition kids_sane (good : dict -> Prop) : Prop :=
    forall d ks, good d -> array_at d "Kids" ks ->
      (forall x kd, In x ks -> node x kd -> good kd) /\
      (entry d (lit "Kids") = Some (OArr ks) \/ forall kd, ~ In (ODict kd) ks).
End Graph.
