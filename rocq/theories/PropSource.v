(** PropSource.v -- where the output comes from and what has to be in it (C62-C72). *)
From Verif Require Import Base Msg Reader ReaderP Num Lexer Obj ReadObj Env Getters GetObj Load Tree Output Parse SpecRead SpecFetch SpecLook SpecTree SpecOut SpecSource
  FetchEx OutEx SourceP AttachP SourceEx ManifestP.
From Coq Require Import Strings.String.

(** ** C62: urls.txt holds only addresses of the document.
    The run may end in any way. *)
Theorem C62_urls_sound : forall E OD fuel S pw file p, order_ok OD -> s_input S = Some file ->
  load fuel E (o_objects OD) file pw (new_parser file) = Ok (None, p) -> offsets_ok (pxref p) ->
  forall b, In (OpEv (EWrite FURLs b)) (fst (parse E OD fuel S pw)) ->
    exists h u, of_document E file p h /\ url_of E file p h u /\ b = u ++ [x0a].
Proof. exact url_source. Qed.
Print Assumptions C62_urls_sound.
Example C62_example : order_ok OD1 /\ s_input S4 = Some att /\ load 20 E1 (o_objects OD1) att [] (new_parser att) = Ok (None, att_p) /\ offsets_ok (pxref att_p) /\
  In (OpEv (EWrite FURLs (lit "http://u" ++ [x0a]))) (fst (parse E1 OD1 20 S4 [])) /\
  In (OpEv (EWrite FJavascript (lit "go" ++ [x0a]))) (fst (parse E1 OD1 20 S4 [])) /\
  In (OpEv (EWrite FCommands (lit "one " ++ [x0a]))) (fst (parse E1 OD1 20 S4 [])) /\
  In (OpEv (EDump abc_sum (lit "abc"))) (fst (parse E1 OD1 20 S4 [])).
Proof. exact C62_ex. Qed.

(** ** C63: commands.txt holds only the commands of launch actions.
    Full statement: the conclusion of C63_commands_sound_partial with the first
    case of [command_line] only.  This is false: a file specification with
    parameters is reported whatever it is used for. *)
Theorem C63_commands_sound_refuted : exists E OD fuel S pw file p c, order_ok OD /\ s_input S = Some file /\
  load fuel E (o_objects OD) file pw (new_parser file) = Ok (None, p) /\ offsets_ok (pxref p) /\
  In (OpEv (EWrite FCommands (c ++ [x0a]))) (fst (parse E OD fuel S pw)) /\
  forall h a, of_document E file p h -> action_of E file p h a -> ~ launch E file p a.
Proof. exact commands_source_refuted. Qed.
Print Assumptions C63_commands_sound_refuted.
Theorem C63_commands_sound_partial : forall E OD fuel S pw file p, order_ok OD -> s_input S = Some file ->
  load fuel E (o_objects OD) file pw (new_parser file) = Ok (None, p) -> offsets_ok (pxref p) ->
  forall b, In (OpEv (EWrite FCommands b)) (fst (parse E OD fuel S pw)) ->
    exists h c, of_document E file p h /\ command_line E file p h c /\ b = c ++ [x0a].
Proof. exact command_source. Qed.
Print Assumptions C63_commands_sound_partial.
Example C63_example : order_ok OD1 /\ s_input S4 = Some att /\ load 20 E1 (o_objects OD1) att [] (new_parser att) = Ok (None, att_p) /\ offsets_ok (pxref att_p) /\
  In (OpEv (EWrite FURLs (lit "http://u" ++ [x0a]))) (fst (parse E1 OD1 20 S4 [])) /\
  In (OpEv (EWrite FJavascript (lit "go" ++ [x0a]))) (fst (parse E1 OD1 20 S4 [])) /\
  In (OpEv (EWrite FCommands (lit "one " ++ [x0a]))) (fst (parse E1 OD1 20 S4 [])) /\
  In (OpEv (EDump abc_sum (lit "abc"))) (fst (parse E1 OD1 20 S4 [])).
Proof. exact C62_ex. Qed.

(** ** C64: javascript.js holds only scripts of the document *)
Theorem C64_scripts_sound : forall E OD fuel S pw file p, order_ok OD -> s_input S = Some file ->
  load fuel E (o_objects OD) file pw (new_parser file) = Ok (None, p) -> offsets_ok (pxref p) ->
  forall b, In (OpEv (EWrite FJavascript b)) (fst (parse E OD fuel S pw)) ->
    exists h s, of_document E file p h /\ script_line E file p h s /\ b = s ++ [x0a].
Proof. exact script_source. Qed.
Print Assumptions C64_scripts_sound.
Example C64_example : order_ok OD1 /\ s_input S4 = Some att /\ load 20 E1 (o_objects OD1) att [] (new_parser att) = Ok (None, att_p) /\ offsets_ok (pxref att_p) /\
  In (OpEv (EWrite FURLs (lit "http://u" ++ [x0a]))) (fst (parse E1 OD1 20 S4 [])) /\
  In (OpEv (EWrite FJavascript (lit "go" ++ [x0a]))) (fst (parse E1 OD1 20 S4 [])) /\
  In (OpEv (EWrite FCommands (lit "one " ++ [x0a]))) (fst (parse E1 OD1 20 S4 [])) /\
  In (OpEv (EDump abc_sum (lit "abc"))) (fst (parse E1 OD1 20 S4 [])).
Proof. exact C62_ex. Qed.

(** ** C65: dumped files and the lines of files.txt come from the document *)
Theorem C65_dumps_sound : forall E OD fuel S pw file p, order_ok OD -> s_input S = Some file ->
  load fuel E (o_objects OD) file pw (new_parser file) = Ok (None, p) -> offsets_ok (pxref p) ->
  forall x data, In (OpEv (EDump x data)) (fst (parse E OD fuel S pw)) ->
    hexed (e_md5 E data) x /\ exists h name, of_document E file p h /\ embedded E file p h name data.
Proof. exact dump_source. Qed.
Print Assumptions C65_dumps_sound.
Theorem C65_manifest_sound : forall E OD fuel S pw file p, order_ok OD -> s_input S = Some file ->
  load fuel E (o_objects OD) file pw (new_parser file) = Ok (None, p) -> offsets_ok (pxref p) ->
  forall b, In (OpEv (EWrite FFiles b)) (fst (parse E OD fuel S pw)) ->
    exists h, of_document E file p h /\
      ((exists name data x, embedded E file p h name data /\ hexed (e_md5 E data) x /\ b = x ++ lit ":" ++ name ++ [x0a]) \/
       (exists f, external E file p h f /\ b = zeros ++ lit ":" ++ f ++ [x0a])).
Proof. exact manifest_source. Qed.
Print Assumptions C65_manifest_sound.
Example C65_example : order_ok OD1 /\ s_input S4 = Some att /\ load 20 E1 (o_objects OD1) att [] (new_parser att) = Ok (None, att_p) /\ offsets_ok (pxref att_p) /\
  In (OpEv (EWrite FURLs (lit "http://u" ++ [x0a]))) (fst (parse E1 OD1 20 S4 [])) /\
  In (OpEv (EWrite FJavascript (lit "go" ++ [x0a]))) (fst (parse E1 OD1 20 S4 [])) /\
  In (OpEv (EWrite FCommands (lit "one " ++ [x0a]))) (fst (parse E1 OD1 20 S4 [])) /\
  In (OpEv (EDump abc_sum (lit "abc"))) (fst (parse E1 OD1 20 S4 [])).
Proof. exact C62_ex. Qed.

(** ** C66: embedded files are dumped.
    Full statement: the conclusion of C66_embedded_partial for every file
    specification of the document.  This is false: those of file attachment
    annotations are not looked at. *)
Theorem C66_embedded_refuted : exists E OD fuel S pw ops file p h fs name data, order_ok OD /\ s_input S = Some file /\ parse E OD fuel S pw = (ops, Ok PNone) /\
  load fuel E (o_objects OD) file pw (new_parser file) = Ok (None, p) /\ offsets_ok (pxref p) /\ of_document E file p h /\
  typed E file p is_name (entry h (lit "Subtype")) (lit "FileAttachment") /\ typed E file p is_dict (entry h (lit "FS")) fs /\ carries E file p fs name data /\
  (forall x, ~ In (OpEv (EDump x data)) ops).
Proof. exact attachments_refuted. Qed.
Print Assumptions C66_embedded_refuted.
Theorem C66_embedded_partial : forall E OD fuel S pw ops file p, order_ok OD -> s_input S = Some file ->
  parse E OD fuel S pw = (ops, Ok PNone) -> load fuel E (o_objects OD) file pw (new_parser file) = Ok (None, p) -> offsets_ok (pxref p) ->
  forall h fs name data, of_document E file p h -> attached E file p h fs -> carries E file p fs name data ->
    exists x, hexed (e_md5 E data) x /\ In (OpEv (EWrite FFiles (x ++ lit ":" ++ name ++ [x0a]))) ops /\ In (OpEv (EDump x data)) ops.
Proof. exact run_carried. Qed.
Print Assumptions C66_embedded_partial.
Example C66_example : order_ok OD1 /\ s_input S4 = Some att /\ parse E1 OD1 20 S4 [] = (att_ops, Ok PNone) /\
  load 20 E1 (o_objects OD1) att [] (new_parser att) = Ok (None, att_p) /\ offsets_ok (pxref att_p) /\
  of_document E1 att att_p names1 /\ attached E1 att att_p names1 fs4 /\ carries E1 att att_p fs4 (lit "a.txt") (lit "abc") /\
  In (OpEv (EDump abc_sum (lit "abc"))) att_ops.
Proof. exact C66_ex. Qed.

(** ** C67: forms are dumped *)
Theorem C67_forms : forall E OD fuel S pw ops file p, order_ok OD -> s_input S = Some file ->
  parse E OD fuel S pw = (ops, Ok PNone) -> load fuel E (o_objects OD) file pw (new_parser file) = Ok (None, p) -> offsets_ok (pxref p) ->
  forall h data, of_document E file p h -> form_of E file p h data ->
    exists x, hexed (e_md5 E data) x /\ In (OpEv (EWrite FFiles (x ++ lit ":form.xml" ++ [x0a]))) ops /\ In (OpEv (EDump x data)) ops.
Proof. exact run_forms. Qed.
Print Assumptions C67_forms.
(** C66_example shows the hypotheses about the run. *)
Example C67_example : of_document E1 att att_p form6 /\ form_of E1 att att_p form6 (lit "abcxyz").
Proof. exact C67_ex. Qed.

(** ** C68: addresses in name trees and file specifications are listed.
    Full statement: also for file specifications whose FS entry is the name
    URL, which is how the PDF format marks them.  This is false: the entry is
    read as a string. *)
Theorem C68_urls_refuted : exists E OD fuel S pw ops file p h fs u, order_ok OD /\ s_input S = Some file /\ parse E OD fuel S pw = (ops, Ok PNone) /\
  load fuel E (o_objects OD) file pw (new_parser file) = Ok (None, p) /\ offsets_ok (pxref p) /\ of_document E file p h /\
  attached E file p h fs /\ typed E file p is_name (entry fs (lit "FS")) (lit "URL") /\ typed E file p is_string (entry fs (lit "F")) u /\
  ~ In (OpEv (EWrite FURLs (u ++ [x0a]))) ops.
Proof. exact urls_refuted. Qed.
Print Assumptions C68_urls_refuted.
Theorem C68_urls_partial : forall E OD fuel S pw ops file p, order_ok OD -> s_input S = Some file ->
  parse E OD fuel S pw = (ops, Ok PNone) -> load fuel E (o_objects OD) file pw (new_parser file) = Ok (None, p) -> offsets_ok (pxref p) ->
  forall h u, of_document E file p h -> listed_url E file p h u -> In (OpEv (EWrite FURLs (u ++ [x0a]))) ops.
Proof. exact run_urls. Qed.
Print Assumptions C68_urls_partial.
(** C66_example shows the hypotheses about the run. *)
Example C68_example : of_document E1 att att_p names1 /\ listed_url E1 att att_p names1 (lit "http://k") /\
  of_document E1 att att_p [(lit "A", ODict act7)] /\ listed_url E1 att att_p [(lit "A", ODict act7)] (lit "http://f").
Proof. exact C68_ex. Qed.

(** ** C69: files outside of the document are listed *)
Theorem C69_outside : forall E OD fuel S pw ops file p, order_ok OD -> s_input S = Some file ->
  parse E OD fuel S pw = (ops, Ok PNone) -> load fuel E (o_objects OD) file pw (new_parser file) = Ok (None, p) -> offsets_ok (pxref p) ->
  forall h f, of_document E file p h -> outside E file p h f -> In (OpEv (EWrite FFiles (zeros ++ lit ":" ++ f ++ [x0a]))) ops.
Proof. exact run_outside. Qed.
Print Assumptions C69_outside.
(** C66_example shows the hypotheses about the run. *)
Example C69_example : of_document E1 att att_p [(lit "A", ODict act12)] /\ outside E1 att att_p [(lit "A", ODict act12)] (lit "doc.pdf") /\
  of_document E1 att att_p names1 /\ outside E1 att att_p names1 (lit "other.txt").
Proof. exact C69_ex. Qed.

(** ** C70: the commands of chained actions.
    Full statement: the command of a launch action that is the Next action of
    an action is in commands.txt.  This is false. *)
Theorem C70_chained_refuted : exists E OD fuel S pw ops file p h a b c, order_ok OD /\ s_input S = Some file /\ parse E OD fuel S pw = (ops, Ok PNone) /\
  load fuel E (o_objects OD) file pw (new_parser file) = Ok (None, p) /\ offsets_ok (pxref p) /\
  of_document E file p h /\ action_of E file p h a /\ typed E file p is_dict (entry a (lit "Next")) b /\ launch E file p b /\
  command_in_spec E file p b c /\ ~ In (OpEv (EWrite FCommands (c ++ [x0a]))) ops.
Proof. exact next_refuted. Qed.
Print Assumptions C70_chained_refuted.

(** ** C71: the exit code tells whether the program did its work.
    Full statement: the code is not 0 if Parse returned an error.  This is
    false. *)
Theorem C71_exit_refuted : exists E OD fuel S ow pw, order_ok OD /\ snd (parse E OD fuel S pw) = Ok POpen /\ snd (main E OD fuel S 2 ow pw) = Ok 0.
Proof. exact exit_refuted. Qed.
Print Assumptions C71_exit_refuted.
Theorem C71_exit_partial : forall E OD fuel S nargs ow pw c, snd (main E OD fuel S nargs ow pw) = Ok c -> (nargs = 2 -> c = 0) /\ (nargs <> 2 -> c = 1).
Proof. exact exit_code. Qed.
Print Assumptions C71_exit_partial.
(** A crash of Parse is not hidden, and nothing else ends the program that way. *)
Theorem C71_crash_partial : forall E OD fuel S nargs ow pw,
  snd (main E OD fuel S nargs ow pw) = Panic <-> nargs = 2 /\ (s_stat S = StatNotExist \/ ow = true) /\ snd (parse E OD fuel S pw) = Panic.
Proof. exact exit_crash. Qed.
Print Assumptions C71_crash_partial.
Example C71_example : snd (main E1 OD1 20 S1 2 false []) = Ok 0 /\ snd (main E1 OD1 20 S1 3 false []) = Ok 1.
Proof. exact C71_ex. Qed.

(** ** C72: files.txt can be read line by line.
    Full statement: if files.txt is read as lines with a hash and a name, each
    line is about a file of the document.  This is false: names may have line
    breaks in them.  It is true for names without: there is a list of lines
    about files, and by C72_unique_partial no other list reads the same. *)
Theorem C72_lines_refuted : exists E OD fuel S pw file p l, order_ok OD /\ (forall b, List.length (e_md5 E b) = 16%nat) /\ s_input S = Some file /\
  load fuel E (o_objects OD) file pw (new_parser file) = Ok (None, p) /\ offsets_ok (pxref p) /\
  content FFiles (fst (parse E OD fuel S pw)) = List.concat (map entry_line l) /\ Forall (fun x => hash_name (fst x) /\ one_line (snd x)) l /\
  exists x, In x l /\ ~ about_file E file p x.
Proof. exact forged_refuted. Qed.
Print Assumptions C72_lines_refuted.
Theorem C72_lines_partial : forall E OD fuel S pw file p, order_ok OD -> (forall b, List.length (e_md5 E b) = 16%nat) -> s_input S = Some file ->
  load fuel E (o_objects OD) file pw (new_parser file) = Ok (None, p) -> offsets_ok (pxref p) ->
  exists l, content FFiles (fst (parse E OD fuel S pw)) = List.concat (map entry_line l) /\
    Forall (fun x => hash_name (fst x) /\ about_file E file p x) l.
Proof. exact run_lines. Qed.
Print Assumptions C72_lines_partial.
Theorem C72_unique_partial : forall l l', Forall (fun x => hash_name (fst x) /\ one_line (snd x)) l -> Forall (fun x => hash_name (fst x) /\ one_line (snd x)) l' ->
  List.concat (map entry_line l) = List.concat (map entry_line l') -> l = l'.
Proof. exact lines_unique. Qed.
Print Assumptions C72_unique_partial.
Example C72_example : (forall b, List.length (e_md5 E1 b) = 16%nat) /\
  content FFiles (fst (parse E1 OD1 20 S3 [])) = List.concat (map entry_line [(abc_sum, lit "form.xml")]) /\
  Forall (fun x => hash_name (fst x) /\ one_line (snd x)) [(abc_sum, lit "form.xml")].
Proof. exact C72_ex. Qed.
