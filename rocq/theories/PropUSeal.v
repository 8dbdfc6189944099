(** PropUSeal.v -- C112: encrypted documents with updates. *)
From Verif Require Import Base BaseP Msg Reader Num Obj ReadObj Env Getters GetObj Xref Crypt Security Load Extract Output Parse Errors SpecFetch SpecRead SpecOut SpecPage SpecObj SpecStream SpecXref SpecCrypt SpecSecurity
  SpecRecover SpecTotal SpecCryptDoc SpecWrite SpecFollow SpecSeal SpecUpdate SpecUSeal SpecList USealP ListRunP SealEx USealEx OutEx.
From Coq Require Import Strings.String Sorting.Permutation.

(** ** C112.  The updates [rs], with their objects encrypted as the parameters
    [pr] and the user password [pw] say, loaded with [pw]: every object that is
    neither freed nor replaced later is read as it was before encryption; all
    other numbers stand for null; each key of the trailer has its newest value,
    and further entries come only from the first object of an update, as it is
    in the file; no message is logged. *)
Theorem C112_updates : forall E rs cs pr pw, (forall x, List.length (e_md5 E x) = 16%nat) -> sealed_updates E rs cs pr pw ->
  forall ord, (forall m, Permutation (ord m) m) -> exists f0, forall fuel, (f0 <= fuel)%nat -> exists p,
    load fuel E ord (w_updated cs) pw (new_parser (w_updated cs)) = Ok (None, p) /\
    (forall o, In o (living rs) -> fetched E (w_updated cs) p (inum o) o) /\
    (forall n, ~ In n (map inum (living rs)) -> fetched E (w_updated cs) p n {| inum := n; igen := 0; ival := OKw (lit "null"); istream := None |}) /\
    (forall k v, k <> lit "Prev" -> current_key k rs None = Some v -> entry (ptrailer p) k = Some v) /\
    (forall k v, k <> lit "Prev" -> entry (ptrailer p) k = Some v -> current_key k rs None = Some v \/ exists d, first_of cs d /\ entry d k = Some v) /\ errors_txt p = [].
Proof. exact usealed_read. Qed.
Print Assumptions C112_updates.

(** With a password that is not a user password it is refused. *)
Theorem C112_locked : forall E rs cs pr pw pw', (forall x, List.length (e_md5 E x) = 16%nat) -> sealed_updates E rs cs pr pw -> ~ user_password E pr pw' ->
  forall ord, (forall m, Permutation (ord m) m) -> exists f0, forall fuel, (f0 <= fuel)%nat -> exists p,
    load fuel E ord (w_updated cs) pw' (new_parser (w_updated cs)) = Ok (Some EncryptionPasswordError, p).
Proof. exact usealed_locked. Qed.
Print Assumptions C112_locked.

(** Parse writes every current object once, decrypted ... *)
Theorem C112_raw : forall E rs cs pr pw, (forall x, List.length (e_md5 E x) = 16%nat) -> sealed_updates E rs cs pr pw -> forall OD fuel S ops, order_ok OD ->
  s_input S = Some (w_updated cs) -> parse E OD fuel S pw = (ops, Ok PNone) ->
  exists L ts, Permutation L (living rs) /\ Forall2 (written_object (e_fmt E)) L ts /\ content FRaw ops = List.concat (map (fun t => t ++ [x0a]) ts).
Proof. exact (fun E rs cs pr pw M SU OD fuel S ops => stored_raw E OD fuel S pw ops _ _ (st_usealed E rs cs pr pw M SU)). Qed.
Print Assumptions C112_raw.

(** ... reports nothing ... *)
Theorem C112_no_errors : forall E rs cs pr pw, (forall x, List.length (e_md5 E x) = 16%nat) -> sealed_updates E rs cs pr pw -> forall OD fuel w p, order_ok OD ->
  parse_body E OD fuel (w_updated cs) pw (new_parser (w_updated cs)) = (w, Ok (None, p)) -> errors_txt p = [].
Proof. exact usealed_errors. Qed.
Print Assumptions C112_no_errors.

(** ... and comes back. *)
Theorem C112_returns : forall E rs cs pr pw OD S, (forall x, List.length (e_md5 E x) = 16%nat) -> sealed_updates E rs cs pr pw -> direct_kids (living rs) -> moderate_maps (living rs) -> order_ok OD -> e_verbose E <> None ->
  s_input S = Some (w_updated cs) -> (forall f, s_create S f = true) ->
  exists F, forall fuel, (F <= fuel)%nat -> exists ops, parse E OD fuel S pw = (ops, Ok PNone).
Proof. exact (fun E rs cs pr pw OD S M SU => stored_return E _ pw _ OD S (st_usealed E rs cs pr pw M SU)). Qed.
Print Assumptions C112_returns.

(** The document of C97 with two updates. *)
Example C112_example : sealed_updates E1 VS WS prS pwS /\ (forall x, List.length (e_md5 E1 x) = 16%nat) /\ ~ user_password E1 prS (lit "shut") /\
  living VS = firstn 3 DS ++ [obj_of 5 (ODict encS) None; obj_of 4 (ODict contents) (Some (lit "BT (y) Tj ET"))] /\
  current_key (lit "Info") VS None = Some (ORef 7 0) /\ current_key (lit "Encrypt") VS None = Some (ORef 5 0).
Proof. exact C112_ex. Qed.
Example C112_example_raw : order_ok OD1 /\ s_input SUC = Some (w_updated WS) /\ parse E1 OD1 40 SUC pwS = (SUC_ops, Ok PNone) /\
  content FText SUC_ops = lit "y" ++ [x0a] /\ content FURLs SUC_ops = lit "http://x.example/(a" ++ [x0a].
Proof. exact C112_ex_raw. Qed.
Example C112_example_list : stored E1 (w_updated WS) pwS (living VS) /\ doc_urls 1 (living VS) = Some [lit "http://x.example/(a"] /\ direct_kids (living VS) /\ moderate_maps (living VS) /\ e_verbose E1 <> None /\ (forall f, s_create SUC f = true).
Proof. exact C112_ex_list. Qed.
