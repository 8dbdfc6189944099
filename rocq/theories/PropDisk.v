(** PropDisk.v -- C116, C117: the output directory before and after a run. *)
From Verif Require Import Base Msg Num Obj Env Getters Crypt GetObj Load Output Parse SpecOut Security OutEx CryptEx CryptDocEx LockedEx SpecDisk DiskP DiskEx.
From Coq Require Import Strings.String.

(** ** C116.  Full statement: if Parse returns an error, everything in the output
    directory is as it was before.

    This fails: NewOutput empties the directory (pdf/output.go:29) before the
    document is loaded, and so the output of an earlier run, and anything else in
    the directory, is lost when the password is wrong. *)
Theorem C116_kept_refuted : exists E OD fuel S pw ops d, order_ok OD /\ parse E OD fuel S pw = (ops, Ok (PEnc EncryptionPasswordError)) /\ main E OD fuel S 2 true pw = (ops, Ok 0) /\
  d (lit "raw.pdf") = Some (lit "1 0 obj") /\ after S ops d (lit "raw.pdf") = Some [] /\ d (lit "notes.txt") = Some (lit "mine") /\ after S ops d (lit "notes.txt") = None.
Proof. exact C116_bad. Qed.
Print Assumptions C116_kept_refuted.

(** It holds if the error is that the input file cannot be opened ... *)
Theorem C116_missing_partial : forall E OD S fuel pw d, s_input S = None -> parse E OD fuel S pw = ([], Ok POpen) /\ forall n, after S (fst (parse E OD fuel S pw)) d n = d n.
Proof. exact missing_kept. Qed.
Print Assumptions C116_missing_partial.

(** ... and never otherwise: after any other error there are only empty files
    in the directory, apart from the messages in errors.txt. *)
Theorem C116_lost_partial : forall E OD S fuel pw d ops e, parse E OD fuel S pw = (ops, Ok e) -> e <> PNone -> e <> POpen ->
  forall n, after S ops d n = None \/ after S ops d n = Some [].
Proof. exact failed_lost. Qed.
Print Assumptions C116_lost_partial.

(** An input file that is not there, and an output file that cannot be made. *)
Example C116_example : s_input SM = None /\ old (lit "notes.txt") = Some (lit "mine") /\
  snd (parse E5 OD1 9 SN guess) = Ok PCreate /\ after SN (fst (parse E5 OD1 9 SN guess)) old (lit "commands.txt") = Some [] /\ after SN (fst (parse E5 OD1 9 SN guess)) old (lit "raw.pdf") = None.
Proof. exact C116_ex. Qed.

(** ** C117: after a run, whatever its result, the output directory has the seven
    output files with what was written to them, the dumped files, each under the
    hash of its content, and nothing else; nothing of it depends on what was in
    the directory before. *)
Theorem C117_directory : forall E OD S fuel pw file d, order_ok OD -> (forall b, List.length (e_md5 E b) = 16%nat) -> s_input S = Some file -> (forall f, s_create S f = true) ->
  let ops := fst (parse E OD fuel S pw) in
  (forall f, f <> FErrors -> after S ops d (out_name f) = Some (content f ops)) /\ after S ops d (out_name FErrors) <> None /\
  (forall n, ~ In n (map out_name [FCommands; FErrors; FFiles; FJavascript; FRaw; FText; FURLs]) -> forall c, after S ops d n = Some c <-> last_dump ops n c) /\
  (forall n c, last_dump ops n c -> hexed (e_md5 E c) n /\ ~ In n (map out_name [FCommands; FErrors; FFiles; FJavascript; FRaw; FText; FURLs])).
Proof. exact directory. Qed.
Print Assumptions C117_directory.
Theorem C117_fresh : forall E OD S fuel pw file d d', s_input S = Some file ->
  forall n, after S (fst (parse E OD fuel S pw)) d n = after S (fst (parse E OD fuel S pw)) d' n.
Proof. exact directory_fresh. Qed.
Print Assumptions C117_fresh.

(** A document with an embedded file. *)
Example C117_example : order_ok OD1 /\ (forall b, List.length (e_md5 E1 b) = 16%nat) /\ s_input S3 <> None /\ (forall f, s_create S3 f = true) /\
  after S3 S3_ops old (lit "900150983cd24fb0d6963f7d28e17f72") = Some (lit "abc") /\ after S3 S3_ops old (lit "notes.txt") = None /\
  exists t, after S3 S3_ops old (lit "files.txt") = Some (lit "900150983cd24fb0d6963f7d28e17f72:" ++ t).
Proof. exact C117_ex. Qed.
