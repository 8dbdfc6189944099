(** PropTotal.v -- C89: Parse returns. *)
From Verif Require Import Base Reader Num Obj ReadObj Env GetObj Output Load Parse SpecFetch SpecLook SpecTree SpecStream SpecOut SpecSource SpecText SpecTotal
  OutEx TotalP TotalEx.
From Coq Require Import Strings.String.

(** ** C89.  Full statement: if the output files can be created, Parse returns:
    forall E OD S file pw, order_ok OD -> e_verbose E <> None -> s_input S = Some file ->
      (forall f, s_create S f = true) ->
      exists F, forall fuel, F <= fuel -> snd (parse E OD fuel S pw) <> OutOfFuel.
    It is false, although loading ends: *)
Theorem C89_parse_returns_refuted : exists E OD S file, order_ok OD /\ e_verbose E <> None /\ s_input S = Some file /\ (forall f, s_create S f = true) /\
  (exists p, load 9 E (o_objects OD) file [] (new_parser file) = Ok (None, p)) /\
  forall fuel, snd (parse E OD fuel S []) = OutOfFuel.
Proof. exact parse_never_ends. Qed.
Print Assumptions C89_parse_returns_refuted.

(** A loaded document for which every reference can be followed, the name trees
    are as C47 wants them and the character maps as C45 wants them: Parse
    returns, and without an error.  Missing: documents that do not load, or for
    which following a reference panics. *)
Theorem C89_parse_returns_partial : forall E OD S pw file p f0, order_ok OD -> e_verbose E <> None -> s_input S = Some file -> (forall f, s_create S f = true) ->
  load f0 E (o_objects OD) file pw (new_parser file) = Ok (None, p) -> offsets_ok (pxref p) -> (forall n, exists o, target E file p n o) ->
  names_end E file p -> maps_end E file p -> exists F, forall fuel, (F <= fuel)%nat -> exists ops, parse E OD fuel S pw = (ops, Ok PNone).
Proof. exact parse_returns. Qed.
Print Assumptions C89_parse_returns_partial.

(** References can be followed if no stream can be reached from itself (C15)
    and nothing panics. *)
Theorem C89_ranked_partial : forall E OD S pw file p f0 rank, order_ok OD -> e_verbose E <> None -> s_input S = Some file -> (forall f, s_create S f = true) ->
  load f0 E (o_objects OD) file pw (new_parser file) = Ok (None, p) -> offsets_ok (pxref p) ->
  (forall n v st m, stored E file p n v st -> refers m v -> (rank m <= rank n)%nat /\ (st -> (rank m < rank n)%nat)) ->
  (forall f n, Resolve f E file n p <> Panic) ->
  names_end E file p -> maps_end E file p -> exists F, forall fuel, (F <= fuel)%nat -> exists ops, parse E OD fuel S pw = (ops, Ok PNone).
Proof. exact ranked_returns. Qed.
Print Assumptions C89_ranked_partial.

(** A file without the word stream: Parse returns whether or not the document
    loads, if the loaded document is not encrypted and its name trees are as
    C47 wants them. *)
Theorem C89_streamless_partial : forall E OD S pw file, order_ok OD -> e_verbose E <> None -> s_input S = Some file -> ~ occurs (lit "stream") file ->
  (forall f p, load f E (o_objects OD) file pw (new_parser file) = Ok (None, p) -> sh_string (psh p) = CFNone /\ offsets_ok (pxref p) /\ names_end E file p) ->
  exists F, forall fuel, (F <= fuel)%nat -> snd (parse E OD fuel S pw) <> OutOfFuel.
Proof. exact streamless_ends. Qed.
Print Assumptions C89_streamless_partial.

Example C89_example : order_ok OD1 /\ e_verbose E1 <> None /\ s_input Sfull = Some full /\ (forall f, s_create Sfull f = true) /\
  load 30 E1 (o_objects OD1) full [] (new_parser full) = Ok (None, full_p) /\ offsets_ok (pxref full_p) /\
  (forall n, exists o, target E1 full full_p n o) /\ names_end E1 full full_p /\ maps_end E1 full full_p /\
  font_map E1 full full_p (lit "1 beginbfchar<78><79>endbfchar") /\
  In (OpEv (EWrite FText (lit "y"))) (fst (parse E1 OD1 30 Sfull [])).
Proof. exact C89_ex. Qed.
Example C89_ranked_example : (forall n v st m, stored E1 full full_p n v st -> refers m v -> ((fun _ => 0%nat) m <= (fun _ => 0%nat) n)%nat /\ (st -> ((fun _ => 0%nat) m < (fun _ => 0%nat) n)%nat)) /\
  forall f n, Resolve f E1 full n full_p <> Panic.
Proof. exact (conj full_ranks full_no_panic). Qed.
Example C89_streamless_example : order_ok OD1 /\ e_verbose E1 <> None /\ s_input Sbare = Some bare /\ ~ occurs (lit "stream") bare /\
  (forall f p, load f E1 (o_objects OD1) bare [] (new_parser bare) = Ok (None, p) -> sh_string (psh p) = CFNone /\ offsets_ok (pxref p) /\ names_end E1 bare p) /\
  In (OpEv (EWrite FURLs (lit "u" ++ [x0a]))) (fst (parse E1 OD1 30 Sbare [])).
Proof. exact C89_bare_ex. Qed.
