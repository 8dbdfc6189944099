(** PropOut.v -- the properties of Parse and main: output files (C50-C57). *)
From Verif Require Import Base Msg Reader Num Lexer Obj Env Getters GetObj Load Output Render Extract Parse SpecFetch SpecLook SpecOut
  OutP OutTopP RawP ExtractP OutEx.
From Coq Require Import Strings.String.

(** ** C50: only files inside the output directory are written.  The names of
    the dumped files are relative to the output directory, like all others. *)
Theorem C50_inside : forall E OD, order_ok OD -> (forall b, List.length (e_md5 E b) = 16%nat) ->
  forall fuel S nargs ow pw, Forall inside (fst (main E OD fuel S nargs ow pw)).
Proof. exact main_inside. Qed.
Print Assumptions C50_inside.
Theorem C50_inside_library : forall E OD, order_ok OD -> (forall b, List.length (e_md5 E b) = 16%nat) ->
  forall fuel S pw, Forall inside (fst (parse E OD fuel S pw)).
Proof. exact parse_inside. Qed.
Print Assumptions C50_inside_library.
Example C50_example : order_ok OD1 /\ forall b, List.length (e_md5 E1 b) = 16%nat.
Proof. exact (conj OD1_ok md5_16). Qed.

(** ** C51: an existing output directory is not destroyed without -f *)
Theorem C51_spares : forall E OD fuel S nargs ow pw, fst (main E OD fuel S nargs ow pw) <> [] ->
  nargs = 2 /\ (s_stat S = StatNotExist \/ ow = true) /\ s_input S <> None.
Proof. exact main_spares. Qed.
Print Assumptions C51_spares.
Theorem C51_runs : forall E OD fuel S ow pw file, s_stat S = StatNotExist \/ ow = true -> s_input S = Some file ->
  exists l, fst (main E OD fuel S 2 ow pw) = OpRemoveAll :: OpMkdirAll :: l.
Proof. exact main_runs. Qed.
Print Assumptions C51_runs.
Example C51_example : fst (main E1 OD1 20 S1 2 false []) <> [] /\
  fst (main E1 OD1 20 (mksys (Some acts) (fun _ => true) StatExists) 2 false []) = [] /\
  fst (main E1 OD1 20 (mksys None (fun _ => true) StatExists) 2 true []) = [].
Proof. exact C51_ex. Qed.

(** ** C52: all output files are closed.
    Full statement: the conclusion of C52_closed_partial without
    [f <> FErrors].  This is false: errors.txt is never closed. *)
Theorem C52_closed_refuted : exists E OD fuel S pw, snd (parse E OD fuel S pw) = Ok PNone /\ s_create S FErrors = true /\
  In (OpCreate FErrors) (fst (parse E OD fuel S pw)) /\ ~ In (OpClose FErrors) (fst (parse E OD fuel S pw)).
Proof. exact close_refuted. Qed.
Print Assumptions C52_closed_refuted.
Theorem C52_closed_partial : forall E OD fuel S pw, snd (parse E OD fuel S pw) <> OutOfFuel ->
  exists before after, fst (parse E OD fuel S pw) = before ++ after /\ (forall e, ~ In (OpEv e) after) /\
    forall f, (In (OpClose f) after -> In (OpCreate f) before /\ s_create S f = true) /\
      (In (OpCreate f) before -> s_create S f = true -> f <> FErrors -> In (OpClose f) after) /\ ~ In (OpClose f) before.
Proof. exact parse_closes. Qed.
Print Assumptions C52_closed_partial.
Example C52_example : snd (parse E1 OD1 20 S1 []) <> OutOfFuel /\ snd (parse E1 OD1 20 S2 []) <> OutOfFuel /\ In (OpCreate FFiles) (fst (parse E1 OD1 20 S2 [])).
Proof. split; [vm_compute; discriminate |]. split; [vm_compute; discriminate | vm_compute; tauto]. Qed.

(** ** C53: all URIs and scripts in direct dictionaries are extracted.
    Full statement: the conclusion of C53_extracted_partial for every object
    with [holds (ival o) h].  This is false: an object that is an array. *)
Theorem C53_extracted_refuted : exists E OD fuel S pw ops file p n o h u, order_ok OD /\ s_input S = Some file /\ parse E OD fuel S pw = (ops, Ok PNone) /\
  load fuel E (o_objects OD) file pw (new_parser file) = Ok (None, p) /\ offsets_ok (pxref p) /\
  in_use p n /\ fetched E file p n o /\ holds (ival o) h /\ uri_of E file p h u /\ ~ In (OpEv (EWrite FURLs (u ++ [x0a]))) ops.
Proof. exact uris_refuted. Qed.
Print Assumptions C53_extracted_refuted.
Theorem C53_extracted_partial : forall E OD fuel S pw ops file p, order_ok OD -> s_input S = Some file ->
  parse E OD fuel S pw = (ops, Ok PNone) -> load fuel E (o_objects OD) file pw (new_parser file) = Ok (None, p) -> offsets_ok (pxref p) ->
  forall n o d h, in_use p n -> fetched E file p n o -> ival o = ODict d -> holds (ODict d) h ->
    (forall u, uri_of E file p h u -> In (OpEv (EWrite FURLs (u ++ [x0a]))) ops) /\
    (forall s, script_of E file p h s -> In (OpEv (EWrite FJavascript (s ++ [x0a]))) ops).
Proof. exact parse_uris. Qed.
Print Assumptions C53_extracted_partial.
Example C53_example : order_ok OD1 /\ s_input S1 = Some acts /\ parse E1 OD1 20 S1 [] = (acts_ops, Ok PNone) /\
  load 20 E1 (o_objects OD1) acts [] (new_parser acts) = Ok (None, acts_p) /\ offsets_ok (pxref acts_p) /\
  in_use acts_p 5 /\ fetched E1 acts acts_p 5 (plain 5 (ODict d5')) /\ holds (ODict d5') js5 /\ holds (ODict d5') uri5 /\
  script_of E1 acts acts_p js5 (lit "run") /\ uri_of E1 acts acts_p uri5 (lit "http://c").
Proof. exact C53_ex. Qed.

(** ** C54: launch actions are reported in commands.txt.
    Full statement: the conclusion of C54_commands_partial for every
    [command_of].  This is false: a file given as a plain string. *)
Theorem C54_commands_refuted : exists E OD fuel S pw ops file p n o d h a c, order_ok OD /\ s_input S = Some file /\ parse E OD fuel S pw = (ops, Ok PNone) /\
  load fuel E (o_objects OD) file pw (new_parser file) = Ok (None, p) /\ offsets_ok (pxref p) /\
  in_use p n /\ fetched E file p n o /\ ival o = ODict d /\ holds (ODict d) h /\
  action_of E file p h a /\ launch E file p a /\ command_of E file p a c /\ ~ In (OpEv (EWrite FCommands (c ++ [x0a]))) ops.
Proof. exact commands_refuted. Qed.
Print Assumptions C54_commands_refuted.
Theorem C54_commands_partial : forall E OD fuel S pw ops file p, order_ok OD -> s_input S = Some file ->
  parse E OD fuel S pw = (ops, Ok PNone) -> load fuel E (o_objects OD) file pw (new_parser file) = Ok (None, p) -> offsets_ok (pxref p) ->
  forall n o d h a c, in_use p n -> fetched E file p n o -> ival o = ODict d -> holds (ODict d) h ->
    action_of E file p h a -> launch E file p a -> command_in_spec E file p a c -> In (OpEv (EWrite FCommands (c ++ [x0a]))) ops.
Proof. exact parse_commands. Qed.
Print Assumptions C54_commands_partial.
Example C54_example : in_use acts_p 1 /\ fetched E1 acts acts_p 1 (plain 1 (ODict d1')) /\ holds (ODict d1') d1' /\
  action_of E1 acts acts_p d1' a2 /\ launch E1 acts acts_p a2 /\ command_in_spec E1 acts acts_p a2 (lit "cmd.exe /c dir") /\
  action_of E1 acts acts_p d1' a3 /\ launch E1 acts acts_p a3 /\ command_in_spec E1 acts acts_p a3 (lit "calc ").
Proof. exact C54_ex. Qed.

(** ** C55: raw.pdf holds every in-use object exactly once *)
Theorem C55_raw : forall E OD fuel S pw ops, order_ok OD -> parse E OD fuel S pw = (ops, Ok PNone) ->
  exists file p1, s_input S = Some file /\ load fuel E (o_objects OD) file pw (new_parser file) = Ok (None, p1) /\
    raw_of E file p1 (content FRaw ops).
Proof. exact parse_raw. Qed.
Print Assumptions C55_raw.
Theorem C55_nothing_on_error : forall E OD fuel S pw ops r, parse E OD fuel S pw = (ops, Ok r) -> r <> PNone -> forall f, content f ops = [].
Proof. exact parse_error_quiet. Qed.
Print Assumptions C55_nothing_on_error.
Example C55_example : order_ok OD1 /\ s_input S3 = Some form /\ parse E1 OD1 20 S3 [] = (fst (parse E1 OD1 20 S3 []), Ok PNone) /\
  content FRaw (fst (parse E1 OD1 20 S3 [])) =
    lit "2 0 obj" ++ [x0a] ++ lit "<<>>" ++ [x0a] ++ lit "stream" ++ [x0a] ++ lit "abc" ++ [x0a] ++ lit "endstream" ++ [x0a] ++ lit "endobj" ++ [x0a; x0a] ++
    lit "1 0 obj" ++ [x0a] ++ lit "<</XFA 2 0 R>>" ++ [x0a] ++ lit "endobj" ++ [x0a; x0a].
Proof. exact C55_ex. Qed.

(** ** C56: the library entry point works without the command line front end.
    Full statement: with [e_verbose E = None] Parse does not panic.  This is
    false: it always does, as soon as the output files are open. *)
Theorem C56_library_refuted : exists E OD S, order_ok OD /\ e_verbose E = None /\ s_input S = Some acts /\ forall fuel pw, snd (parse E OD fuel S pw) = Panic.
Proof. exact library_crashes. Qed.
Print Assumptions C56_library_refuted.
Theorem C56_always_refuted : forall E OD fuel S pw file, e_verbose E = None -> s_input S = Some file -> (forall f, s_create S f = true) ->
  snd (parse E OD fuel S pw) = Panic.
Proof. exact parse_crashes. Qed.
Print Assumptions C56_always_refuted.
(** Once Verbose is set, a panic can only come from loading the document, from
    GetObject or from Extract. *)
Theorem C56_verbose_partial : forall E OD fuel S pw, order_ok OD -> e_verbose E <> None -> snd (parse E OD fuel S pw) = Panic ->
  exists file, s_input S = Some file /\
    (load fuel E (o_objects OD) file pw (new_parser file) = Panic \/
     exists p n q, load fuel E (o_objects OD) file pw (new_parser file) = Ok (None, p) /\ in_use p n /\ kept file p q /\
       (GetObject fuel E file n q = Panic \/
        exists o q2 st, GetObject fuel E file n q = Ok (o, q2) /\ snd (object_extract E OD (Resolve fuel E file) fuel st o q2) = Panic)).
Proof. exact parse_panic. Qed.
Print Assumptions C56_verbose_partial.
Example C56_example : order_ok OD1 /\ e_verbose E1 <> None /\ snd (parse E1 OD1 20 S2 []) = Panic /\ snd (parse E1 OD1 20 S1 []) = Ok PNone.
Proof. exact C56_ex. Qed.

(** ** C57: manifest lines describe the dumped files *)
Theorem C57_manifest : forall E OD, order_ok OD -> forall fuel S pw, exists pre w post,
  fst (parse E OD fuel S pw) = pre ++ map OpEv w ++ post /\ manifested (e_md5 E) w /\
  forall e, ~ In (OpEv e) pre /\ ~ In (OpEv e) post.
Proof. exact parse_manifested. Qed.
Print Assumptions C57_manifest.
Example C57_example : In (OpEv (EDump (lit "900150983cd24fb0d6963f7d28e17f72") (lit "abc"))) (fst (parse E1 OD1 20 S3 [])) /\
  hash_name (lit "900150983cd24fb0d6963f7d28e17f72").
Proof. exact C57_ex. Qed.
