(** PropExact.v -- the output files hold what the document says, each thing as
    often as it occurs, and nothing else (C99). *)
From Verif Require Import Base Msg Reader Num Lexer Obj Env Getters Crypt GetObj Load Tree Output Parse SpecRead FetchP SpecFetch SpecLook SpecTree SpecOut OutEx SpecSource SpecText SpecPage SpecPages PagesEx SpecExact ExactP ExactEx.
From Coq Require Import Strings.String Sorting.Permutation.

(** ** C99: the lines are those of the dictionaries, counted. *)
Theorem C99_scripts : forall E OD fuel S pw ops file p objs, order_ok OD -> s_input S = Some file ->
  parse E OD fuel S pw = (ops, Ok PNone) -> load fuel E (o_objects OD) file pw (new_parser file) = Ok (None, p) -> offsets_ok (pxref p) -> all_objects E file p objs ->
  forall lss, Forall2 (scripts E file p) (dictionaries objs) lss -> exists l, Permutation l (List.concat lss) /\ content FJavascript ops = in_lines l.
Proof. exact exact_scripts. Qed.
Print Assumptions C99_scripts.
Theorem C99_urls : forall E OD fuel S pw ops file p objs, order_ok OD -> s_input S = Some file ->
  parse E OD fuel S pw = (ops, Ok PNone) -> load fuel E (o_objects OD) file pw (new_parser file) = Ok (None, p) -> offsets_ok (pxref p) -> all_objects E file p objs ->
  forall lss, Forall2 (urls E file p) (dictionaries objs) lss -> exists l, Permutation l (List.concat lss) /\ content FURLs ops = in_lines l.
Proof. exact exact_urls. Qed.
Print Assumptions C99_urls.
Theorem C99_files : forall E OD fuel S pw ops file p objs, order_ok OD -> s_input S = Some file ->
  parse E OD fuel S pw = (ops, Ok PNone) -> load fuel E (o_objects OD) file pw (new_parser file) = Ok (None, p) -> offsets_ok (pxref p) -> all_objects E file p objs ->
  forall lss, Forall2 (items_of E file p) (dictionaries objs) lss -> exists l ts, Permutation l (List.concat lss) /\
    Forall2 (item_line (e_md5 E)) l ts /\ content FFiles ops = List.concat ts /\
    Forall2 (fun data nd => hexed (e_md5 E data) (fst nd) /\ snd nd = data) (insides l) (dumps ops).
Proof. exact exact_items. Qed.
Print Assumptions C99_files.
(** The text below one dictionary stays together and in order. *)
Theorem C99_text : forall E OD fuel S pw ops file p objs, order_ok OD -> s_input S = Some file ->
  parse E OD fuel S pw = (ops, Ok PNone) -> load fuel E (o_objects OD) file pw (new_parser file) = Ok (None, p) -> offsets_ok (pxref p) -> all_objects E file p objs ->
  forall lss, Forall2 (texts E file p) (dictionaries objs) lss -> exists lss', Permutation lss' lss /\ content FText ops = in_lines (List.concat lss').
Proof. exact exact_text. Qed.
Print Assumptions C99_text.
(** If one dictionary has all the text, the file is that text. *)
Theorem C99_one_text : forall E OD fuel S pw ops file p objs, order_ok OD -> s_input S = Some file ->
  parse E OD fuel S pw = (ops, Ok PNone) -> load fuel E (o_objects OD) file pw (new_parser file) = Ok (None, p) -> offsets_ok (pxref p) -> all_objects E file p objs ->
  forall a ls b, Forall2 (texts E file p) (dictionaries objs) (a ++ ls :: b) -> Forall (fun x => x = []) a -> Forall (fun x => x = []) b -> content FText ops = in_lines ls.
Proof. exact exact_one_text. Qed.
Print Assumptions C99_one_text.
Example C99_example : order_ok OD1 /\ s_input S9 = Some full /\ parse E1 OD1 20 S9 [] = (full_ops, Ok PNone) /\
  load 20 E1 (o_objects OD1) full [] (new_parser full) = Ok (None, full_p) /\ offsets_ok (pxref full_p) /\ all_objects E1 full full_p full_objs /\
  (exists lss, Forall2 (scripts E1 full full_p) (dictionaries full_objs) lss /\ List.concat lss = [lit "go"]) /\
  (exists lss, Forall2 (urls E1 full full_p) (dictionaries full_objs) lss /\ List.concat lss = [lit "http://k"; lit "http://u"; lit "http://f"]) /\
  (exists lss, Forall2 (items_of E1 full full_p) (dictionaries full_objs) lss /\
    List.concat lss = [Outside (lit "calc"); Inside (lit "a.txt") (lit "abc"); Outside (lit "o.txt"); Inside (lit "form.xml") (lit "abc"); Outside (lit "w.exe")]).
Proof. exact C99_ex. Qed.
Example C99_text_example : order_ok OD1 /\ s_input S6 = Some book /\ parse E1 OD1 30 S6 [] = (book_ops, Ok PNone) /\
  load 30 E1 (o_objects OD1) book [] (new_parser book) = Ok (None, book_p) /\ offsets_ok (pxref book_p) /\ all_objects E1 book book_p book_objs /\
  exists lss, Forall2 (texts E1 book book_p) (dictionaries book_objs) lss /\ List.concat lss = [lit "A"; [x01]; lit "x"].
Proof. exact C99_text_ex. Qed.
