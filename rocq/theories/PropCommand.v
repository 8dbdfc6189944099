(** PropCommand.v -- commands.txt, line by line (C102). *)
From Verif Require Import Base Msg Reader Num Lexer Obj Env Getters Crypt GetObj Load Tree Output Parse SpecRead FetchP SpecFetch SpecLook SpecTree SpecOut OutEx SpecSource SpecExact SpecWrite SpecList SpecCommand CommandP CommandEx.
From Coq Require Import Strings.String Sorting.Permutation.

(** ** C102: commands.txt holds the commands of the dictionaries, each as often
    as it occurs, and nothing else.  What is a command is said as the code has
    it: see C54 and C63 for where that differs from what it should be. *)
Theorem C102_commands : forall E OD fuel S pw ops file p objs, order_ok OD -> s_input S = Some file ->
  parse E OD fuel S pw = (ops, Ok PNone) -> load fuel E (o_objects OD) file pw (new_parser file) = Ok (None, p) -> offsets_ok (pxref p) -> all_objects E file p objs ->
  forall lss, Forall2 (commands E file p) (dictionaries objs) lss -> exists l, Permutation l (List.concat lss) /\ content FCommands ops = in_lines l.
Proof. exact exact_commands. Qed.
Print Assumptions C102_commands.
(** The same as a function of the list of objects in the file. *)
Theorem C102_list : forall E OD fuel S pw ops file D, stored E file pw D -> order_ok OD -> s_input S = Some file -> parse E OD fuel S pw = (ops, Ok PNone) ->
  forall k r, doc_commands k D = Some r -> exists l, Permutation l r /\ content FCommands ops = in_lines l.
Proof. exact list_commands. Qed.
Print Assumptions C102_list.
Example C102_example : order_ok OD1 /\ s_input S1 = Some acts /\ parse E1 OD1 20 S1 [] = (acts_ops, Ok PNone) /\
  load 20 E1 (o_objects OD1) acts [] (new_parser acts) = Ok (None, acts_p) /\ offsets_ok (pxref acts_p) /\ all_objects E1 acts acts_p act_objs /\
  exists lss, Forall2 (commands E1 acts acts_p) (dictionaries act_objs) lss /\ List.concat lss = [lit "cmd.exe /c dir"; lit "calc "].
Proof. exact C102_ex. Qed.
Example C102_example_list : stored E1 (w_document DC trC) [] (map as_written DC) /\ order_ok OD1 /\ s_input SC = Some (w_document DC trC) /\ parse E1 OD1 30 SC [] = (SC_ops, Ok PNone) /\
  doc_commands 2 (map as_written DC) = Some [lit "cmd.exe /c dir"; lit "cmd.exe /c dir"; lit "w "; lit "b -x"; lit "g h"].
Proof. exact C102_ex_list. Qed.
