(** DiskEx.v -- output directories (C116, C117). *)
From Verif Require Import Base Msg Num Obj Env Getters Crypt GetObj Load Output Parse SpecOut Security OutEx CryptEx CryptDocEx LockedEx SpecDisk DiskP.
From Coq Require Import Strings.String.

(** The output of an earlier run, and a file that somebody put there. *)
Definition old : disk := put (lit "raw.pdf") (lit "1 0 obj") (put (lit "notes.txt") (lit "mine") (fun _ => None)).
(** The document of C83 with a wrong password, and an output directory. *)
Definition SF : sys := mksys (Some sealed_doc) (fun _ => true) StatExists.
Definition SF_ops : list op := fst (main E5 OD1 9 SF 2 true guess).
Lemma C116_bad : exists E OD fuel S pw ops d, order_ok OD /\ parse E OD fuel S pw = (ops, Ok (PEnc EncryptionPasswordError)) /\ main E OD fuel S 2 true pw = (ops, Ok 0) /\
  d (lit "raw.pdf") = Some (lit "1 0 obj") /\ after S ops d (lit "raw.pdf") = Some [] /\ d (lit "notes.txt") = Some (lit "mine") /\ after S ops d (lit "notes.txt") = None.
Proof.
  exists E5, OD1, 9%nat, SF, guess, SF_ops, old. split; [exact OD1_ok |]. split; [vm_compute; reflexivity |]. split; [vm_compute; reflexivity |].
  split; [reflexivity |]. split; [vm_compute; reflexivity |]. split; [reflexivity |]. vm_compute; reflexivity.
Qed.
Definition SM : sys := mksys None (fun _ => true) StatExists.
Definition SN : sys := mksys (Some sealed_doc) (fun f => match f with FJavascript => false | _ => true end) StatExists.
Lemma C116_ex : s_input SM = None /\ old (lit "notes.txt") = Some (lit "mine") /\
  snd (parse E5 OD1 9 SN guess) = Ok PCreate /\ after SN (fst (parse E5 OD1 9 SN guess)) old (lit "commands.txt") = Some [] /\ after SN (fst (parse E5 OD1 9 SN guess)) old (lit "raw.pdf") = None.
Proof. split; [reflexivity |]. split; [reflexivity |]. split; [vm_compute; reflexivity |]. split; vm_compute; reflexivity. Qed.
Definition S3_ops : list op := fst (parse E1 OD1 20 S3 []).
Lemma C117_ex : order_ok OD1 /\ (forall b, List.length (e_md5 E1 b) = 16%nat) /\ s_input S3 <> None /\ (forall f, s_create S3 f = true) /\
  after S3 S3_ops old (lit "900150983cd24fb0d6963f7d28e17f72") = Some (lit "abc") /\ after S3 S3_ops old (lit "notes.txt") = None /\
  exists t, after S3 S3_ops old (lit "files.txt") = Some (lit "900150983cd24fb0d6963f7d28e17f72:" ++ t).
Proof.
  split; [exact OD1_ok |]. split; [exact md5_16 |]. split; [discriminate |]. split; [reflexivity |]. split; [vm_compute; reflexivity |]. split; [vm_compute; reflexivity |]. eexists. vm_compute. reflexivity.
Qed.
