(** PropSeal.v -- C97, C98: encrypted documents that were written. *)
From Verif Require Import Base BaseP Msg Reader Num Obj ReadObj Env Getters GetObj Xref Crypt Security Load Extract Output Parse Errors SpecFetch SpecRead SpecOut SpecPage SpecObj SpecStream SpecXref SpecCrypt SpecSecurity
  SpecRecover SpecTotal SpecCryptDoc SpecWrite SpecFollow SpecSeal SealP SealEx OutEx.
From Coq Require Import Strings.String Sorting.Permutation.

(** ** C97.  The objects [D], encrypted as the parameters [pr] and the user
    password [pw] say, laid out as a document and loaded with [pw], are those
    objects again; with a password that is not a user password the document is
    refused. *)
Theorem C97_sealed : forall E D C tr pr pw, (forall x, List.length (e_md5 E x) = 16%nat) -> sealed_document E D C tr pr pw ->
  forall ord, (forall m, Permutation (ord m) m) -> exists f0, forall fuel, (f0 <= fuel)%nat -> exists p,
    load fuel E ord (w_document C tr) pw (new_parser (w_document C tr)) = Ok (None, p) /\
    (forall o, In o D -> fetched E (w_document C tr) p (inum o) o) /\
    (forall n, ~ In n (map inum D) -> fetched E (w_document C tr) p n {| inum := n; igen := 0; ival := OKw (lit "null"); istream := None |}) /\
    (forall k, entry (ptrailer p) k = entry tr k) /\ errors_txt p = [].
Proof. exact sealed_read. Qed.
Print Assumptions C97_sealed.

Theorem C97_locked : forall E D C tr pr pw pw', (forall x, List.length (e_md5 E x) = 16%nat) -> sealed_document E D C tr pr pw -> ~ user_password E pr pw' ->
  forall ord, (forall m, Permutation (ord m) m) -> exists f0, forall fuel, (f0 <= fuel)%nat -> exists p,
    load fuel E ord (w_document C tr) pw' (new_parser (w_document C tr)) = Ok (Some EncryptionPasswordError, p).
Proof. exact sealed_locked. Qed.
Print Assumptions C97_locked.

(** strings and a stream with RC4, another stream in clear by the filter
    Identity, and the encryption dictionary an object of its own *)
Example C97_example : sealed_document E1 DS CS trS prS pwS /\ (forall x, List.length (e_md5 E1 x) = 16%nat) /\ ~ user_password E1 prS (lit "shut") /\ zlen (w_document CS trS) = 863.
Proof. exact C97_ex. Qed.

(** ** C98.  Parse with the user password writes each object, decrypted, to
    raw.pdf once, and nothing to errors.txt; and it returns, if there is fuel. *)
Theorem C98_raw : forall E D C tr pr OD fuel S pw ops, (forall x, List.length (e_md5 E x) = 16%nat) -> sealed_document E D C tr pr pw -> order_ok OD ->
  s_input S = Some (w_document C tr) -> parse E OD fuel S pw = (ops, Ok PNone) ->
  exists L ts, Permutation L D /\ Forall2 (written_object (e_fmt E)) L ts /\ content FRaw ops = List.concat (map (fun t => t ++ [x0a]) ts).
Proof. exact sealed_out. Qed.
Print Assumptions C98_raw.

Theorem C98_no_errors : forall E D C tr pr OD fuel pw w p, (forall x, List.length (e_md5 E x) = 16%nat) -> sealed_document E D C tr pr pw -> order_ok OD ->
  parse_body E OD fuel (w_document C tr) pw (new_parser (w_document C tr)) = (w, Ok (None, p)) -> errors_txt p = [].
Proof. exact sealed_errors. Qed.
Print Assumptions C98_no_errors.

Theorem C98_returns : forall E D C tr pr OD S pw, (forall x, List.length (e_md5 E x) = 16%nat) -> sealed_document E D C tr pr pw -> direct_kids D -> moderate_maps D -> order_ok OD -> e_verbose E <> None ->
  s_input S = Some (w_document C tr) -> (forall f, s_create S f = true) ->
  exists F, forall fuel, (F <= fuel)%nat -> exists ops, parse E OD fuel S pw = (ops, Ok PNone).
Proof. exact sealed_return. Qed.
Print Assumptions C98_returns.

Example C98_example : direct_kids DS /\ moderate_maps DS /\ order_ok OD1 /\ s_input SS = Some (w_document CS trS) /\ parse E1 OD1 30 SS pwS = (SS_ops, Ok PNone) /\
  content FText SS_ops = lit "x" ++ [x0a] /\ content FURLs SS_ops = lit "http://x.example/(a" ++ [x0a].
Proof. exact C98_ex. Qed.
