(** SpecCommand.v -- all that commands.txt has to hold, counted (C102). *)
From Verif Require Import Base Msg Reader ReaderP Num Lexer Obj Env Getters GetObj Output Parse SpecFetch SpecLook SpecTree SpecOut SpecSource SpecExact SpecList.
From Coq Require Import Strings.String.

Section Doc.
  Variables (E : env) (file : bytes) (p : pst).
  (** The command in a file specification that is used by a launch action or
      not: the file's name and the parameters.  Without parameters only the
      files of launch actions are commands. *)
  Inductive file_commands (launched : Prop) (fs : dict) : list bytes -> Prop :=
  | fc_parameters : forall f par, names_file E file p fs f -> typed E file p is_string (entry fs (lit "P")) par -> file_commands launched fs [f ++ lit " " ++ par]
  | fc_launched : forall f, launched -> names_file E file p fs f -> untyped E file p is_string (entry fs (lit "P")) -> file_commands launched fs [f ++ lit " "]
  | fc_other : forall f, ~ launched -> names_file E file p fs f -> untyped E file p is_string (entry fs (lit "P")) -> file_commands launched fs []
  | fc_none : (forall f, ~ names_file E file p fs f) -> file_commands launched fs [].
  Definition action_commands (a : dict) (l : list bytes) : Prop := exists l1 l2,
    of_entry E file p is_dict (file_commands (launch E file p a)) (entry a (lit "F")) l1 /\
    of_entry E file p is_dict (file_commands (launch E file p a)) (entry a (lit "Win")) l2 /\ l = l1 ++ l2.
  Definition commands (d : dict) (l : list bytes) : Prop := exists l1 l2,
    of_actions E file p action_commands d l1 /\
    of_names E file p (fun kx => of_entry E file p is_dict (file_commands False) (Some (snd kx))) d "EmbeddedFiles" l2 /\ l = l1 ++ l2.
End Doc.

(** ** The same for a list of objects *)
Section List.
  Variable D : list iobj.
  Definition launches (a : dict) : bool :=
    match stands D (entry a (lit "S")) with Some (OName s) => if list_eq_dec Byte.byte_eq_dec s (lit "Launch") then true else false | _ => false end.
  Definition l_file_commands (launched : bool) (fs : dict) : list bytes :=
    match address D fs, dict_in D (entry fs (lit "EF")), text_in D (entry fs (lit "F")), text_in D (entry fs (lit "P")) with
    | false, None, Some f, Some par => [f ++ lit " " ++ par]
    | false, None, Some f, None => if launched then [f ++ lit " "] else []
    | _, _, _, _ => []
    end.
  Definition l_action_commands (a : dict) : list bytes :=
    from_dict D (l_file_commands (launches a)) (entry a (lit "F")) ++ from_dict D (l_file_commands (launches a)) (entry a (lit "Win")).
  Definition l_commands (k : nat) (d : dict) : option (list bytes) :=
    match pairs D k d "EmbeddedFiles" with
    | Some fs => Some (from_actions D l_action_commands d ++ flat_map (fun kx => from_dict D (l_file_commands false) (Some (snd kx))) fs)
    | None => None
    end.
End List.
Definition doc_commands (k : nat) (D : list iobj) : option (list bytes) := gathered (l_commands D k) (l_dicts D).
