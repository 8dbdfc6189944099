(** PropList.v -- the output for documents that are lists of objects (C100). *)
From Verif Require Import Base Msg Reader Num Obj ReadObj Env Getters GetObj Xref Load Extract Output Parse SpecFetch SpecLook SpecOut SpecTree SpecSource SpecText SpecPage SpecPages SpecObj SpecStream SpecWrite SpecUpdate SpecSeal
  SpecExact SpecFollow Errors SpecRecover SpecList ListP ListRunP OutEx WriteEx UpdateEx SealEx ListEx.
From Coq Require Import Strings.String Sorting.Permutation.

(** ** C100.  For a file with the objects [D] (written, updated, encrypted, or with a
    cross-reference stream)
    the lines of javascript.js, urls.txt, files.txt and contents.txt, and the
    files that are dumped, are those that the functions of SpecList find in the
    list, each as often. *)
Theorem C100_scripts : forall E OD fuel S pw ops file D, stored E file pw D -> order_ok OD -> s_input S = Some file -> parse E OD fuel S pw = (ops, Ok PNone) ->
  exists l, Permutation l (doc_scripts D) /\ content FJavascript ops = in_lines l.
Proof. exact list_scripts. Qed.
Print Assumptions C100_scripts.
Theorem C100_urls : forall E OD fuel S pw ops file D, stored E file pw D -> order_ok OD -> s_input S = Some file -> parse E OD fuel S pw = (ops, Ok PNone) ->
  forall k r, doc_urls k D = Some r -> exists l, Permutation l r /\ content FURLs ops = in_lines l.
Proof. exact list_urls. Qed.
Print Assumptions C100_urls.
Theorem C100_files : forall E OD fuel S pw ops file D, stored E file pw D -> order_ok OD -> s_input S = Some file -> parse E OD fuel S pw = (ops, Ok PNone) ->
  forall k r, doc_items k D = Some r -> exists l ts, Permutation l r /\ Forall2 (item_line (e_md5 E)) l ts /\ content FFiles ops = List.concat ts /\
    Forall2 (fun data nd => hexed (e_md5 E data) (fst nd) /\ snd nd = data) (insides l) (dumps ops).
Proof. exact list_files. Qed.
Print Assumptions C100_files.
Theorem C100_text : forall E OD fuel S pw ops file D, stored E file pw D -> order_ok OD -> s_input S = Some file -> parse E OD fuel S pw = (ops, Ok PNone) ->
  forall k lss, Forall2 (l_texts D k) (l_dicts D) lss -> exists lss', Permutation lss' lss /\ content FText ops = in_lines (List.concat lss').
Proof. exact list_text. Qed.
Print Assumptions C100_text.
(** References in the file lead where they lead in the list; and what the
    function says about them is what the rules say. *)
Theorem C100_references : forall E file pw D, stored E file pw D -> forall ord fuel p, (forall m, Permutation (ord m) m) -> load fuel E ord file pw (new_parser file) = Ok (None, p) ->
  forall n o, target E file p n o <-> follows D [] n o.
Proof. exact stored_followed. Qed.
Print Assumptions C100_references.
Theorem C100_followed : forall D n o, follows D [] n o <-> o = followed D n.
Proof. exact followed_follows. Qed.
Print Assumptions C100_followed.

(** Parse returns without an error if kids are listed in their nodes (C47) and no
    character map has the largest number in it (C45); raw.pdf holds the objects
    of the list, each once; errors.txt stays empty. *)
Theorem C100_returns : forall E file pw D OD S, stored E file pw D -> direct_kids D -> moderate_maps D -> order_ok OD -> e_verbose E <> None ->
  s_input S = Some file -> (forall f, s_create S f = true) ->
  exists F, forall fuel, (F <= fuel)%nat -> exists ops, parse E OD fuel S pw = (ops, Ok PNone).
Proof. exact stored_return. Qed.
Print Assumptions C100_returns.
Theorem C100_raw : forall E OD fuel S pw ops file D, stored E file pw D -> order_ok OD -> s_input S = Some file -> parse E OD fuel S pw = (ops, Ok PNone) ->
  exists L ts, Permutation L D /\ Forall2 (written_object (e_fmt E)) L ts /\ content FRaw ops = List.concat (map (fun t => t ++ [x0a]) ts).
Proof. exact stored_raw. Qed.
Print Assumptions C100_raw.
Theorem C100_no_errors : forall E OD fuel pw w p file D, stored E file pw D -> order_ok OD -> parse_body E OD fuel file pw (new_parser file) = (w, Ok (None, p)) -> errors_txt p = [].
Proof. exact stored_errors. Qed.
Print Assumptions C100_no_errors.

Example C100_example : stored E1 (w_document DL trL) [] (map as_written DL) /\ order_ok OD1 /\ s_input SL = Some (w_document DL trL) /\ parse E1 OD1 30 SL [] = (SL_ops, Ok PNone) /\
  doc_scripts (map as_written DL) = [lit "go"; ldata] /\
  doc_urls 3 (map as_written DL) = Some [lit "http://k"; lit "http://u"] /\
  doc_items 3 (map as_written DL) = Some [Outside (lit "calc"); Outside (lit "o.txt"); Inside (lit "a.txt") ldata; Inside (lit "form.xml") (ldata ++ ldata)] /\
  exists lss, Forall2 (l_texts (map as_written DL) 4) (l_dicts (map as_written DL)) lss /\ List.concat lss = [lit "x"].
Proof. exact C100_ex. Qed.
Example C100_example_followed : followed (map as_written DL) 8 = as_written (s_of 5 "an endobj") /\ followed (map as_written DL) 14 = null_object 14 /\ followed (map as_written DL) 99 = null_object 99.
Proof. exact C100_ex_followed. Qed.
Example C100_example_others : stored E1 (w_updated RS) [] (map as_written (living RS)) /\ doc_urls 1 (map as_written (living RS)) = Some [lit "http://x.example/(a"] /\
  stored E1 (w_document CS trS) pwS DS /\ doc_urls 1 DS = Some [lit "http://x.example/(a"].
Proof. exact C100_ex_others. Qed.
Example C100_example_returns : direct_kids (map as_written DL) /\ moderate_maps (map as_written DL).
Proof. exact C100_ex_returns. Qed.
