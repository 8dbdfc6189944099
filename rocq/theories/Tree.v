(** Tree.v -- name trees and page trees, pdf/dictionary.go:77-106,127-155. *)
From Verif Require Import Base Msg Reader Num Lexer Obj Env Getters GetObj.
From Coq Require Import Strings.String.
Local Open Scope m_scope.

Section Tree.
  Variable rs : Z -> M iobj.

  (** getNameTreeMap, pdf/dictionary.go:84-106.  [seen] is resolved_kids, which
      the recursive calls share; it is returned updated. *)
  Fixpoint name_tree (fuel : nat) (d : dict) (seen : list Z) {struct fuel} : M (list obj * list Z) :=
    match fuel with
    | O => fun _ => OutOfFuel
    | S f =>
        '(names, ok) <- d_array rs d (lit "Names") ;;
        let acc := if ok : bool then names else [] in
        '(kids, ok) <- d_array rs d (lit "Kids") ;;
        if ok : bool then name_kids f (List.length kids) 0 kids acc seen
        else ret (acc, seen)
    end
  (** its loop over the kids, pdf/dictionary.go:91-103 *)
  with name_kids (fuel : nat) (k : nat) (i : Z) (kids : list obj) (acc : list obj) (seen : list Z)
       {struct fuel} : M (list obj * list Z) :=
    match fuel with
    | O => fun _ => OutOfFuel
    | S f =>
        match k with
        | O => ret (acc, seen)
        | S k' =>
            let r := match zget kids i with Some (ORef n _) => Some n | _ => None end in
            let skip := match r with Some n => zmem n seen | None => false end in
            if skip then name_kids f k' (i + 1) kids acc seen
            else
              let seen := match r with Some n => n :: seen | None => seen end in
              '(kid, _) <- a_dict rs kids i ;;
              '(l, seen) <- name_tree f kid seen ;;
              name_kids f k' (i + 1) kids (acc ++ l) seen
        end
    end.

  (** GetNameTreeMap, pdf/dictionary.go:77-82 *)
  Definition name_tree_map (fuel : nat) (d : dict) (k : bytes) : M (list obj) :=
    '(root, ok) <- d_dict rs d k ;;
    if ok : bool then '(l, _) <- name_tree fuel root [] ;; ret l
    else ret [].

  (** ResolveKids, pdf/dictionary.go:134-155 *)
  Fixpoint resolve_kids (fuel : nat) (d : dict) (seen : list Z) {struct fuel} : M (list dict * list Z) :=
    match fuel with
    | O => fun _ => OutOfFuel
    | S f =>
        '(kids, ok) <- d_array rs d (lit "Kids") ;;
        if ok : bool then page_kids f kids [d] seen
        else ret ([d], seen)
    end
  (** its loop over the kids, pdf/dictionary.go:137-152 *)
  with page_kids (fuel : nat) (kids : list obj) (acc : list dict) (seen : list Z) {struct fuel}
       : M (list dict * list Z) :=
    match fuel with
    | O => fun _ => OutOfFuel
    | S f =>
        match kids with
        | [] => ret (acc, seen)
        | ORef n _ :: kids' =>
            if zmem n seen then page_kids f kids' acc seen
            else
              o <- rs n ;;
              match ival o with
              | ODict kd =>
                  '(l, seen) <- resolve_kids f kd (n :: seen) ;;
                  page_kids f kids' (acc ++ l) seen
              | _ => page_kids f kids' acc (n :: seen)
              end
        | _ :: kids' => page_kids f kids' acc seen
        end
    end.

  (** GetPageTree, pdf/dictionary.go:127-132 *)
  Definition page_tree (fuel : nat) (d : dict) (k : bytes) : M (list dict * bool) :=
    '(root, ok) <- d_dict rs d k ;;
    if ok : bool then '(l, _) <- resolve_kids fuel root [] ;; ret (l, true)
    else ret ([], false).
End Tree.
