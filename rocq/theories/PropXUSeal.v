(** PropXUSeal.v -- C113: encrypted documents with updates that have
    cross-reference streams. *)
From Verif Require Import Base BaseP Msg Reader Num Obj ReadObj Env Getters GetObj Xref Crypt Security Load Extract Output Parse Errors SpecFetch SpecRead SpecOut SpecPage SpecObj SpecStream SpecXref SpecCrypt SpecSecurity
  SpecRecover SpecTotal SpecCryptDoc SpecWrite SpecFollow SpecSeal SpecUpdate SpecUSeal SpecXWrite SpecXUpdate SpecXUSeal SpecList XUPutP XUSealP ListRunP SealEx XUSealEx OutEx.
From Coq Require Import Strings.String Sorting.Permutation.

(** ** C113.  Updates [cs] with cross-reference streams, whose objects are the
    objects [Ds] encrypted as the parameters [pr] and the user password [pw] say,
    loaded with [pw]: every object that is neither freed nor replaced later is
    read as it was before encryption, and the streams that are not replaced are
    read in clear; all other numbers stand for null; each key of the trailer has
    its newest value, and further entries come only from the first object of an
    update, as it is in the file; no message is logged. *)
Theorem C113_updates : forall E Ds cs pr pw, (forall x, List.length (e_md5 E x) = 16%nat) -> sealed_xupdates E Ds cs pr pw ->
  forall ord, (forall m, Permutation (ord m) m) -> exists f0, forall fuel, (f0 <= fuel)%nat -> exists p,
    let rs := clear_updates Ds cs in
    load fuel E ord (w_xupdated cs) pw (new_parser (w_xupdated cs)) = Ok (None, p) /\
    (forall o, In o (living rs) -> fetched E (w_xupdated cs) p (inum o) o) /\
    (forall n, ~ In n (map inum (living rs)) -> fetched E (w_xupdated cs) p n {| inum := n; igen := 0; ival := OKw (lit "null"); istream := None |}) /\
    (forall k v, current_key k rs None = Some v -> entry (ptrailer p) k = Some v) /\
    (forall k v, entry (ptrailer p) k = Some v -> current_key k rs None = Some v \/ exists d, xfirst_of cs d /\ entry d k = Some v) /\ errors_txt p = [].
Proof. exact xusealed_read. Qed.
Print Assumptions C113_updates.

(** With a password that is not a user password it is refused. *)
Theorem C113_locked : forall E Ds cs pr pw pw', (forall x, List.length (e_md5 E x) = 16%nat) -> sealed_xupdates E Ds cs pr pw -> ~ user_password E pr pw' ->
  forall ord, (forall m, Permutation (ord m) m) -> exists f0, forall fuel, (f0 <= fuel)%nat -> exists p,
    load fuel E ord (w_xupdated cs) pw' (new_parser (w_xupdated cs)) = Ok (Some EncryptionPasswordError, p).
Proof. exact xusealed_locked. Qed.
Print Assumptions C113_locked.

(** Parse writes every current object once, decrypted ... *)
Theorem C113_raw : forall E Ds cs pr pw, (forall x, List.length (e_md5 E x) = 16%nat) -> sealed_xupdates E Ds cs pr pw -> forall OD fuel S ops, order_ok OD ->
  s_input S = Some (w_xupdated cs) -> parse E OD fuel S pw = (ops, Ok PNone) ->
  exists L ts, Permutation L (living (clear_updates Ds cs)) /\ Forall2 (written_object (e_fmt E)) L ts /\ content FRaw ops = List.concat (map (fun t => t ++ [x0a]) ts).
Proof. exact (fun E Ds cs pr pw M SU OD fuel S ops => stored_raw E OD fuel S pw ops _ _ (st_xusealed E Ds cs pr pw M SU)). Qed.
Print Assumptions C113_raw.

(** ... reports nothing ... *)
Theorem C113_no_errors : forall E Ds cs pr pw, (forall x, List.length (e_md5 E x) = 16%nat) -> sealed_xupdates E Ds cs pr pw -> forall OD fuel w p, order_ok OD ->
  parse_body E OD fuel (w_xupdated cs) pw (new_parser (w_xupdated cs)) = (w, Ok (None, p)) -> errors_txt p = [].
Proof. exact xusealed_errors. Qed.
Print Assumptions C113_no_errors.

(** ... and comes back. *)
Theorem C113_returns : forall E Ds cs pr pw OD S, (forall x, List.length (e_md5 E x) = 16%nat) -> sealed_xupdates E Ds cs pr pw -> direct_kids (living (clear_updates Ds cs)) -> moderate_maps (living (clear_updates Ds cs)) -> order_ok OD -> e_verbose E <> None ->
  s_input S = Some (w_xupdated cs) -> (forall f, s_create S f = true) ->
  exists F, forall fuel, (F <= fuel)%nat -> exists ops, parse E OD fuel S pw = (ops, Ok PNone).
Proof. exact (fun E Ds cs pr pw OD S M SU => stored_return E _ pw _ OD S (st_xusealed E Ds cs pr pw M SU)). Qed.
Print Assumptions C113_returns.

(** The streams for encrypted objects can be written as those of C111. *)
Theorem C113_written : forall E ps, lay_plans ps -> lay_xupdates E (p_updates ps).
Proof. exact updates_laid. Qed.
Print Assumptions C113_written.

(** The document of C97 with two updates. *)
Example C113_example : lay_plans QS /\ sealed_xupdates E1 XDS XWS prS pwS /\ (forall x, List.length (e_md5 E1 x) = 16%nat) /\ ~ user_password E1 prS (lit "shut") /\
  map inum (living (clear_updates XDS XWS)) = [1; 2; 3; 5; 4; 9; 10; 8] /\
  current_key (lit "Info") (clear_updates XDS XWS) None = Some (ORef 7 0) /\ current_key (lit "Encrypt") (clear_updates XDS XWS) None = Some (ORef 5 0).
Proof. exact C113_ex. Qed.
Example C113_example_raw : order_ok OD1 /\ s_input SXUC = Some (w_xupdated XWS) /\ parse E1 OD1 40 SXUC pwS = (SXUC_ops, Ok PNone) /\
  content FText SXUC_ops = lit "y" ++ [x0a] /\ content FURLs SXUC_ops = lit "http://x.example/(a" ++ [x0a].
Proof. exact C113_ex_raw. Qed.
Example C113_example_list : let D := living (clear_updates XDS XWS) in
  stored E1 (w_xupdated XWS) pwS D /\ doc_urls 1 D = Some [lit "http://x.example/(a"] /\ direct_kids D /\ moderate_maps D /\ e_verbose E1 <> None /\ (forall f, s_create SXUC f = true).
Proof. exact C113_ex_list. Qed.
