(** PropXSeal.v -- C109: encrypted documents with a cross-reference stream. *)
From Verif Require Import Base BaseP Msg Reader Num Obj ReadObj Env Getters GetObj Xref Crypt Security Load Extract Output Parse Errors SpecFetch SpecRead SpecOut SpecPage SpecObj SpecStream SpecXref SpecCrypt SpecSecurity
  SpecRecover SpecTotal SpecCryptDoc SpecWrite SpecFollow SpecSeal SpecXWrite SpecXSeal SpecList XOutP XSealP ListRunP SealEx XSealEx OutEx.
From Coq Require Import Strings.String Sorting.Permutation.

(** ** C109.  The objects [D], encrypted as the parameters [pr] and the user
    password [pw] say, laid out with a cross-reference stream and loaded with
    [pw], are those objects again, and the stream is read in clear; all other
    numbers stand for null; the dictionary of the stream is the trailer; no
    message is logged. *)
Theorem C109_sealed : forall E D C xs d data pr pw, (forall x, List.length (e_md5 E x) = 16%nat) -> sealed_xdocument E D C xs d data pr pw ->
  forall ord, (forall m, Permutation (ord m) m) -> exists f0, forall fuel, (f0 <= fuel)%nat -> exists p,
    load fuel E ord (w_xdocument C xs) pw (new_parser (w_xdocument C xs)) = Ok (None, p) /\
    (forall o, In o D -> fetched E (w_xdocument C xs) p (inum o) o) /\ fetched E (w_xdocument C xs) p (inum xs) (x_read xs data) /\
    (forall n, ~ In n (map inum (D ++ [xs])) -> fetched E (w_xdocument C xs) p n {| inum := n; igen := 0; ival := OKw (lit "null"); istream := None |}) /\
    (forall k, entry (ptrailer p) k = entry d k) /\ errors_txt p = [].
Proof. exact xsealed_read. Qed.
Print Assumptions C109_sealed.

(** With a password that is not a user password it is refused. *)
Theorem C109_locked : forall E D C xs d data pr pw pw', (forall x, List.length (e_md5 E x) = 16%nat) -> sealed_xdocument E D C xs d data pr pw -> ~ user_password E pr pw' ->
  forall ord, (forall m, Permutation (ord m) m) -> exists f0, forall fuel, (f0 <= fuel)%nat -> exists p,
    load fuel E ord (w_xdocument C xs) pw' (new_parser (w_xdocument C xs)) = Ok (Some EncryptionPasswordError, p).
Proof. exact xsealed_locked. Qed.
Print Assumptions C109_locked.

(** Parse writes every object once, decrypted ... *)
Theorem C109_raw : forall E D C xs d data pr pw, (forall x, List.length (e_md5 E x) = 16%nat) -> sealed_xdocument E D C xs d data pr pw -> forall OD fuel S ops, order_ok OD ->
  s_input S = Some (w_xdocument C xs) -> parse E OD fuel S pw = (ops, Ok PNone) ->
  exists L ts, Permutation L (D ++ [x_read xs data]) /\ Forall2 (written_object (e_fmt E)) L ts /\ content FRaw ops = List.concat (map (fun t => t ++ [x0a]) ts).
Proof. exact (fun E D C xs d data pr pw M SX OD fuel S ops => stored_raw E OD fuel S pw ops _ _ (st_xsealed E D C xs d data pr pw M SX)). Qed.
Print Assumptions C109_raw.

(** ... and reports nothing. *)
Theorem C109_no_errors : forall E D C xs d data pr pw, (forall x, List.length (e_md5 E x) = 16%nat) -> sealed_xdocument E D C xs d data pr pw -> forall OD fuel w p, order_ok OD ->
  parse_body E OD fuel (w_xdocument C xs) pw (new_parser (w_xdocument C xs)) = (w, Ok (None, p)) -> errors_txt p = [].
Proof. exact xsealed_errors. Qed.
Print Assumptions C109_no_errors.

(** Every document of C97 can be written like this, if its trailer fits into the
    dictionary of a stream. *)
Theorem C109_written : forall E D C tr pr pw n, sealed_document E D C tr pr pw -> lay_trailer C n tr ->
  exists d, sealed_xdocument E D C (w_xstream C n tr) d (w_xdata C n) pr pw /\ (forall k, In k (map fst tr) -> entry d k = entry tr k).
Proof. exact xsealed_written. Qed.
Print Assumptions C109_written.

Example C109_example : sealed_document E1 DS CS trS prS pwS /\ lay_trailer CS 7 trS /\ (forall x, List.length (e_md5 E1 x) = 16%nat) /\ ~ user_password E1 prS (lit "shut") /\ zlen (w_xdocument CS XC) = 812.
Proof. exact C109_ex. Qed.
Example C109_example_raw : (exists d, sealed_xdocument E1 DS CS XC d (w_xdata CS 7) prS pwS) /\ order_ok OD1 /\ s_input SXC = Some (w_xdocument CS XC) /\ parse E1 OD1 30 SXC pwS = (SXC_ops, Ok PNone) /\
  content FText SXC_ops = lit "x" ++ [x0a] /\ content FURLs SXC_ops = lit "http://x.example/(a" ++ [x0a].
Proof. exact C109_ex_raw. Qed.
Example C109_example_list : stored E1 (w_xdocument CS XC) pwS (DS ++ [x_read XC (w_xdata CS 7)]) /\ doc_urls 1 (DS ++ [x_read XC (w_xdata CS 7)]) = Some [lit "http://x.example/(a"].
Proof. exact C109_ex_list. Qed.
