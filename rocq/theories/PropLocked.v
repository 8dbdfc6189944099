(** PropLocked.v -- C94: encrypted documents are not given out without the
    password. *)
From Verif Require Import Base Msg Reader Num Obj ReadObj Env Getters Crypt GetObj Load Output Parse SpecLex SpecObj SpecFetch SpecStream SpecScan SpecXref SpecCrypt SpecSecurity CryptEx SpecRecover
  SpecCryptDoc CryptDocEx SpecOut OutEx SpecLocked LockedP LockedEx.
From Coq Require Import Strings.String.

(** ** C94.  The newest sections name an encryption dictionary of the standard
    security handler, and the password is not the user password: Parse returns
    the error for passwords, and nothing is written or dumped. *)
Theorem C94_password : forall E OD fuel S file pw ops r x p off secs is enc n0 pr, (2 <= fuel)%nat -> order_ok OD -> (forall x, List.length (e_md5 E x) = 16%nat) ->
  s_input S = Some file -> (forall f, s_create S f = true) -> parse E OD fuel S pw = (ops, Ok r) ->
  load fuel E (o_objects OD) file pw (new_parser file) = Ok (x, p) -> offsets_ok (pxref p) ->
  last_start (last256 file) off -> off < 2 ^ 63 -> chain E file off [] secs ->
  only_at file is -> (forall k, In k is -> exists n, header_at file k n) -> encryption E file is secs enc n0 ->
  locked secs enc pr -> u_full pr -> ~ user_password E pr pw ->
  r = PEnc EncryptionPasswordError /\ forall x, ~ In (OpEv x) ops.
Proof. exact refused. Qed.
Print Assumptions C94_password.

(** The same for handlers that are not known, with any password. *)
Theorem C94_unknown : forall E OD fuel S file pw ops r x p off secs is enc n0, (2 <= fuel)%nat -> order_ok OD ->
  s_input S = Some file -> (forall f, s_create S f = true) -> parse E OD fuel S pw = (ops, Ok r) ->
  load fuel E (o_objects OD) file pw (new_parser file) = Ok (x, p) -> offsets_ok (pxref p) ->
  last_start (last256 file) off -> off < 2 ^ 63 -> chain E file off [] secs ->
  only_at file is -> (forall k, In k is -> exists n, header_at file k n) -> encryption E file is secs enc n0 -> unknown enc ->
  r = PEnc EncryptionUnsupported /\ forall x, ~ In (OpEv x) ops.
Proof. exact refused_unknown. Qed.
Print Assumptions C94_unknown.

Example C94_example : order_ok OD1 /\ (forall x, List.length (e_md5 E5 x) = 16%nat) /\ s_input SL = Some sealed_doc /\ (forall f, s_create SL f = true) /\
  parse E5 OD1 9 SL guess = (guess_ops, Ok (PEnc EncryptionPasswordError)) /\
  load 9 E5 (o_objects OD1) sealed_doc guess (new_parser sealed_doc) = Ok (Some EncryptionPasswordError, guess_p) /\ offsets_ok (pxref guess_p) /\
  last_start (last256 sealed_doc) 199 /\ chain E5 sealed_doc 199 [] [sec2] /\
  only_at sealed_doc [0; 120] /\ (forall k, In k [0; 120] -> exists n, header_at sealed_doc k n) /\
  encryption E5 sealed_doc [0; 120] [sec2] enc2 (Some 1) /\ locked [sec2] enc2 pr2 /\ u_full pr2 /\ ~ user_password E5 pr2 guess /\ user_password E5 pr2 [].
Proof. exact C94_ex. Qed.
Example C94_unknown_example : order_ok OD1 /\ s_input SO = Some opaque /\ (forall f, s_create SO f = true) /\
  parse E5 OD1 9 SO [] = (opaque_ops, Ok (PEnc EncryptionUnsupported)) /\
  load 9 E5 (o_objects OD1) opaque [] (new_parser opaque) = Ok (Some EncryptionUnsupported, opaque_p) /\ offsets_ok (pxref opaque_p) /\
  last_start (last256 opaque) 18 /\ chain E5 opaque 18 [] [opaque_sec] /\
  only_at opaque [0] /\ (forall k, In k [0] -> exists n, header_at opaque k n) /\ encryption E5 opaque [0] [opaque_sec] mine None /\ unknown mine.
Proof. exact C94_unknown_ex. Qed.
