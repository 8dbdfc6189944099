(** PropRead.v -- property theorems C01-C12 and C36 (reading objects).
    Statements only; proofs are in ReadP.v.  The vocabulary is that of SpecLex.v,
    SpecObj.v and SpecRead.v.  [wf file s] says that reader state [s] is one of
    [file]: every state reached by opening, seeking and reading is (C01_reachable). *)
From Verif Require Import Base Msg Reader ReaderP Num Lexer Obj ReadObj SpecLex SpecObj SpecRead ReadP ReadEx.
From Coq Require Import Strings.String QArith.
Local Open Scope Z_scope.

(** ** C01 *)

(** A fresh reader and a reader after Seek are well-formed, at any position. *)
Theorem C01_reachable : forall file,
  wf file (open_rd file) /\
  (forall s off, wf file s -> wf file (seek file off s)) /\
  (forall s off, wf file s -> 0 <= off -> pos (seek file off s) = off /\ rest (seek file off s) = zdrop off file).
Proof. exact reachable_wf. Qed.
Print Assumptions C01_reachable.

(** ReadObject returns; ReadError means that only white space and comments were
    left; otherwise at least one byte was consumed. *)
Theorem C01_read_object : forall file dec s, wf file s -> total dec ->
  exists o e s', ReadObject file dec s = Ok ((o, e), s') /\ wf file s' /\ (exists ms, log s' = log s ++ ms) /\
    (e = EReadError <-> blank (rest s)) /\
    (e = EReadError -> o = OKw (lit "null") /\ rest s' = []) /\
    (e <> EReadError -> pos s < pos s' <= pos s + zlen (rest s)).
Proof. exact read_object_returns. Qed.
Print Assumptions C01_read_object.

Theorem C01_read_array : forall file dec s, wf file s -> total dec ->
  exists a s', ReadArray file dec s = Ok (a, s') /\ wf file s'.
Proof. exact read_array_returns. Qed.
Print Assumptions C01_read_array.

Theorem C01_read_dictionary : forall file dec s, wf file s -> total dec ->
  exists d s', ReadDictionary file dec s = Ok (d, s') /\ wf file s'.
Proof. exact read_dictionary_returns. Qed.
Print Assumptions C01_read_dictionary.

Theorem C01_read_command : forall file s, wf file s ->
  exists x s', ReadCommand file s = Ok (x, s') /\ wf file s'.
Proof. exact read_command_returns. Qed.
Print Assumptions C01_read_command.

(** an unterminated nested structure behind a comment, read from offset 3 *)
Example C01_example :
  let file := lit "1 0 %x" ++ x0a :: lit "[<</A[(b" in
  let s := seek file 3 (open_rd file) in
  wf file s /\ total no_decryptor /\ rest s = lit " %x" ++ x0a :: lit "[<</A[(b".
Proof. exact C01_ex. Qed.

(** ** C02 *)
Theorem C02_gap_insignificant : forall dec, (forall v, dec v <> OutOfFuel) ->
  forall f1 f2 s1 s2 g, wf f1 s1 -> wf f2 s2 -> gap g ->
  rest s1 = g ++ rest s2 -> same_outcome s1 s2 (ReadObject f1 dec s1) (ReadObject f2 dec s2).
Proof. exact gap_same_outcome. Qed.
Print Assumptions C02_gap_insignificant.

Example C02_example :
  gap (lit " %c<<" ++ x0d :: x0a :: lit "%" ++ x0a :: x00 :: x0c :: []) /\
  rest (open_rd (lit "<</A 1>>")) = lit "<</A 1>>".
Proof. exact C02_ex. Qed.

(** ** C03 *)
Theorem C03_string : forall file dec s g t v k r w, wf file s -> gap g -> str_body t v k -> dec v = Ok w ->
  rest s = g ++ "("%byte :: t ++ ")"%byte :: r ->
  exists s', read_string dec s = Ok (w, s') /\ moved file s s' r (repeat UnnecessaryEscapeString k).
Proof. exact read_string_exact. Qed.
Print Assumptions C03_string.

Theorem C03_string_object : forall file dec s g t v k r w, wf file s -> gap g -> str_body t v k -> dec v = Ok w ->
  rest s = g ++ "("%byte :: t ++ ")"%byte :: r ->
  exists s', ReadObject file dec s = Ok ((OStr w, ENone), s') /\
    moved file s s' r (repeat UnnecessaryEscapeString k).
Proof. exact read_object_string. Qed.
Print Assumptions C03_string_object.

Theorem C03_every_string_writable : forall v, exists t, str_body t v 0.
Proof. exact SpecLexP.str_writable. Qed.
Print Assumptions C03_every_string_writable.

Example C03_example : str_body (lit "a(b\)c)\n\101\0" ++ "\"%byte :: x0d :: x0a :: lit "\q")
  (lit "a(b)c)" ++ x0a :: lit "A" ++ x00 :: lit "q") 1.
Proof. exact C03_ex. Qed.

(** ** C04 *)
Theorem C04_hex_string : forall file dec s g t ds k v r w, wf file s -> gap g ->
  hex_digits t ds k -> hex_pairs ds v -> dec v = Ok w ->
  rest s = g ++ "<"%byte :: t ++ ">"%byte :: r ->
  exists s', read_hex_string dec s = Ok (w, s') /\ moved file s s' r (repeat InvalidHexStringChar k).
Proof. exact read_hex_exact. Qed.
Print Assumptions C04_hex_string.

(** ReadObject chooses it unless a second '<' follows at once *)
Theorem C04_hex_string_object : forall file dec s g t ds k v r w, wf file s -> gap g ->
  hex_digits t ds k -> hex_pairs ds v -> dec v = Ok w -> (forall t', t <> "<"%byte :: t') ->
  rest s = g ++ "<"%byte :: t ++ ">"%byte :: r ->
  exists s', ReadObject file dec s = Ok ((OStr w, ENone), s') /\
    moved file s s' r (repeat InvalidHexStringChar k).
Proof. exact read_object_hex. Qed.
Print Assumptions C04_hex_string_object.

Theorem C04_every_string_writable : forall v, exists t ds, hex_digits t ds 0 /\ hex_pairs ds v.
Proof. exact SpecLexP.hex_writable. Qed.
Print Assumptions C04_every_string_writable.

Example C04_example : hex_digits (lit "4 1z" ++ x0a :: lit "fF9") [4; 1; 15; 15; 9]%nat 1 /\
  hex_pairs [4; 1; 15; 15; 9]%nat [x41; xff; x90].
Proof. exact C04_ex. Qed.

(** ** C05 *)
Theorem C05_name : forall file s g t v k r, wf file s -> gap g -> name_body t v k -> ends_token r ->
  rest s = g ++ "/"%byte :: t ++ r ->
  exists s', read_name s = (v, s') /\ moved file s s' r (repeat UnnecessaryEscapeName k).
Proof. exact read_name_exact. Qed.
Print Assumptions C05_name.

Theorem C05_name_object : forall file dec s g t v k r, wf file s -> total dec -> gap g -> name_body t v k ->
  ends_token r -> rest s = g ++ "/"%byte :: t ++ r ->
  exists s', ReadObject file dec s = Ok ((OName v, ENone), s') /\
    moved file s s' r (repeat UnnecessaryEscapeName k).
Proof. exact read_object_name. Qed.
Print Assumptions C05_name_object.

Theorem C05_every_name_writable : forall v, exists t, name_body t v 0.
Proof. exact SpecLexP.name_writable. Qed.
Print Assumptions C05_every_name_writable.

Example C05_example : name_body (lit "A#42#20;") (lit "AB ;") 1 /\ ends_token (lit "/next").
Proof. exact C05_ex. Qed.

(** ** C06 *)
Theorem C06_read_number : forall file s g t z r, wf file s -> gap g -> int_text t z -> - 2 ^ 53 <= z <= 2 ^ 53 ->
  ends_number r -> rest s = g ++ t ++ r ->
  exists v s', read_number s = (v, s') /\ float_is v z /\ num_int v = z /\ moved file s s' r [].
Proof. exact read_number_exact. Qed.
Print Assumptions C06_read_number.

(** [num_int] is Go's conversion in GetInt / GetInt64 (C17). *)
Theorem C06_read_object : forall file dec s g t z r, wf file s -> total dec -> gap g -> int_text t z ->
  - 2 ^ 53 <= z <= 2 ^ 53 -> ends_number r -> (forall n r', ~ ref_tail r n r') -> rest s = g ++ t ++ r ->
  exists v s', ReadObject file dec s = Ok ((ONum v, ENone), s') /\ float_is v z /\ num_int v = z /\
    moved file s s' r [].
Proof. exact read_object_int. Qed.
Print Assumptions C06_read_object.

Example C06_example : int_text (lit "-0009007199254740992") (- 2 ^ 53) /\
  ends_number (lit " 5 obj") /\ (forall n r, ~ ref_tail (lit " 5 obj") n r).
Proof. exact C06_ex. Qed.

(** ** C07: the full statement is
    [forall file s g t q r, wf file s -> gap g -> real_text t q -> ends_number r ->
     rest s = g ++ t ++ r -> exists v s', read_number s = (v, s') /\ float_near v q (1 # 1000)];
    it is false already for 1.25, which is off by 1/5. *)
Theorem C07_real_value_refuted : exists file t q v s', file = t /\ real_text t q /\ q == 5 # 4 /\
  read_number (open_rd file) = (v, s') /\ ~ float_near v q (1 # 6).
Proof. exact real_refuted. Qed.
Print Assumptions C07_real_value_refuted.

(** What holds: fractions of zeros. *)
Theorem C07_zero_fraction_partial : forall file s g sign t n k r, wf file s -> gap g ->
  (sign = [] \/ sign = ["+"%byte] \/ sign = ["-"%byte]) -> nat_text t n -> n <= 2 ^ 53 -> 10 * Z.of_nat (S k) <= 2 ^ 53 ->
  (forall b r', r = b :: r' -> forall d, ~ decdigit b d) ->
  rest s = g ++ sign ++ t ++ "."%byte :: repeat "0"%byte k ++ r ->
  exists v s', read_number s = (v, s') /\ float_is v (if bseq sign ["-"%byte] then - n else n) /\ moved file s s' r [].
Proof. exact read_real_zeros. Qed.
Print Assumptions C07_zero_fraction_partial.

Example C07_example : nat_text (lit "612") 612 /\ (forall b r', lit " Tf" = b :: r' -> forall d, ~ decdigit b d).
Proof. exact C07_ex. Qed.

(** ** C08 *)

(** Every text that denotes an object tree is read as that tree, without
    messages, whatever follows; strings pass through the decryptor. *)
Theorem C08_read_text : forall file dec f s g t o r, wf file s -> (forall v, dec v = Ok (f v)) ->
  gap g -> obj_text t o -> may_follow o r -> rest s = g ++ t ++ r ->
  exists s', ReadObject file dec s = Ok ((map_strings f o, ENone), s') /\ moved file s s' r [].
Proof. exact read_object_text. Qed.
Print Assumptions C08_read_text.

Theorem C08_read_text_plain : forall file s g t o r, wf file s ->
  gap g -> obj_text t o -> may_follow o r -> rest s = g ++ t ++ r ->
  exists s', ReadObject file no_decryptor s = Ok ((o, ENone), s') /\ moved file s s' r [].
Proof. exact read_object_text_plain. Qed.
Print Assumptions C08_read_text_plain.

(** Every writable tree has such a text. *)
Theorem C08_every_tree_writable : forall o, writable o -> exists t, obj_text t o.
Proof. exact SpecObjP.obj_text_exists. Qed.
Print Assumptions C08_every_tree_writable.

Example C08_example :
  obj_text (lit "<</K[1 2 0 R(s)]/N<41>>>")
    (ODict [(lit "K", OArr [ONum (num_of_Z 1); ORef 2 0; OStr (lit "s")]); (lit "N", OStr (lit "A"))]) /\
  writable (ODict [(lit "K", OArr [ONum (num_of_Z 1); ORef 2 0; OStr (lit "s")]); (lit "N", OStr (lit "A"))]).
Proof. exact C08_ex. Qed.

(** ** C09 *)
Theorem C09_last_value_wins : forall file dec f s g t kvs r, wf file s -> (forall v, dec v = Ok (f v)) ->
  gap g -> items t (flatten kvs) -> rest s = g ++ lit "<<" ++ t ++ lit ">>" ++ r ->
  exists d s', ReadObject file dec s = Ok ((ODict d, ENone), s') /\ moved file s s' r [] /\
    NoDup (map fst d) /\ (forall k, In k (map fst d) <-> In k (map fst kvs)) /\
    (forall k v, dget k d = Some v <-> exists w, given_last k w kvs /\ v = map_strings f w).
Proof. exact read_dictionary_last. Qed.
Print Assumptions C09_last_value_wins.

Example C09_example :
  items (lit "/A 1/B 2/A 3") (flatten [(lit "A", ONum (num_of_Z 1)); (lit "B", ONum (num_of_Z 2)); (lit "A", ONum (num_of_Z 3))]) /\
  given_last (lit "A") (ONum (num_of_Z 3)) [(lit "A", ONum (num_of_Z 1)); (lit "B", ONum (num_of_Z 2)); (lit "A", ONum (num_of_Z 3))].
Proof. exact C09_ex. Qed.

(** ** C10 *)
Theorem C10_truncated_containers : forall file dec f s g t o cs, wf file s -> (forall v, dec v = Ok (f v)) ->
  gap g -> cut_text t o cs -> rest s = g ++ t ->
  exists s', ReadObject file dec s = Ok ((map_strings f o, ENone), s') /\
    moved file s s' [] (map (fun c => match c with
                                      | CutArray => UnclosedArray
                                      | CutDict => UnclosedDictionary
                                      | CutValue => MissingDictionaryValue
                                      end) cs).
Proof. exact read_cut. Qed.
Print Assumptions C10_truncated_containers.

Example C10_example : cut_text (lit "[1<</A(x)/B[2 ")
  (OArr [ONum (num_of_Z 1); ODict [(lit "A", OStr (lit "x")); (lit "B", OArr [ONum (num_of_Z 2)])]])
  [CutArray; CutDict; CutArray].
Proof. exact C10_ex. Qed.

(** ** C11.  Canonical text logs nothing: C08.  Superfluous codes and skipped
    hexadecimal characters are logged once each: C03, C04, C05.  Unclosed
    containers and missing values: C10.  The remaining anomalies: *)
Theorem C11_unclosed_string : forall file dec s g t v k c w ms, wf file s -> total dec -> gap g ->
  str_body t v k -> open_end c w ms -> rest s = g ++ "("%byte :: t ++ c ->
  exists s' u, dec (v ++ w) = Ok u /\ ReadObject file dec s = Ok ((OStr u, ENone), s') /\
    moved file s s' [] (repeat UnnecessaryEscapeString k ++ ms).
Proof. exact read_open_string. Qed.
Print Assumptions C11_unclosed_string.

Theorem C11_invalid_octal : forall file dec s g t1 v1 k1 a b c x y z w j t2 v2 k2 r, wf file s -> total dec -> gap g ->
  str_body t1 v1 k1 -> octdigit a x -> octdigit b y -> octdigit c z -> (64 * x + 8 * y + z > 255)%nat ->
  bv w = Z.of_nat (8 * x + y) -> code_count (lit "\()") w j -> str_body t2 v2 k2 ->
  rest s = g ++ "("%byte :: t1 ++ "\"%byte :: a :: b :: c :: t2 ++ ")"%byte :: r ->
  exists s' u, dec (v1 ++ w :: c :: v2) = Ok u /\ ReadObject file dec s = Ok ((OStr u, ENone), s') /\
    moved file s s' r (repeat UnnecessaryEscapeString k1 ++ InvalidOctal ::
                       repeat UnnecessaryEscapeString j ++ repeat UnnecessaryEscapeString k2).
Proof. exact read_invalid_octal. Qed.
Print Assumptions C11_invalid_octal.

Theorem C11_unclosed_hex_string : forall file dec s g t ds k v, wf file s -> total dec -> gap g ->
  hex_digits t ds k -> hex_pairs ds v -> (forall r, t <> "<"%byte :: r) -> rest s = g ++ "<"%byte :: t ->
  exists s' u, dec v = Ok u /\ ReadObject file dec s = Ok ((OStr u, ENone), s') /\
    moved file s s' [] (repeat InvalidHexStringChar k ++ [UnclosedHexString]).
Proof. exact read_open_hex. Qed.
Print Assumptions C11_unclosed_hex_string.

Theorem C11_invalid_name_escape : forall file dec s g t v k r, wf file s -> total dec -> gap g ->
  name_body t v k -> bad_escape r -> rest s = g ++ "/"%byte :: t ++ r ->
  exists n s', ReadObject file dec s = Ok ((OName (v ++ n), ENone), s') /\ n <> [] /\
    exists ms, log s' = log s ++ repeat UnnecessaryEscapeName k ++ InvalidNameEscapeChar :: ms.
Proof. exact read_bad_name. Qed.
Print Assumptions C11_invalid_name_escape.

Theorem C11_invalid_key : forall file dec s g t kvs o l c, wf file s -> total dec -> gap g ->
  items t (flatten kvs ++ o :: l) -> (forall k, o <> OName k) ->
  (c = [] \/ exists b r, c = b :: r /\ delim_byte b /\ b <> "%"%byte) ->
  rest s = g ++ lit "<<" ++ t ++ c ->
  exists d s' ms, ReadObject file dec s = Ok ((ODict d, ENone), s') /\ wf file s' /\
    log s' = log s ++ InvalidDictionaryKeyType :: ms.
Proof. exact read_bad_key. Qed.
Print Assumptions C11_invalid_key.

Example C11_example :
  open_end (lit "\10") [x08] [UnclosedStringOctal; UnclosedString] /\
  (octdigit "7" 7 /\ code_count (lit "\()") "?" 1 /\ bv "?"%byte = Z.of_nat (8 * 7 + 7)) /\
  bad_escape (lit "#4x ") /\
  items (lit "/A 1(k)2") (flatten [(lit "A", ONum (num_of_Z 1))] ++ OStr (lit "k") :: [ONum (num_of_Z 2)]).
Proof. exact C11_ex. Qed.

(** ** C12 *)
Theorem C12_reference_lookahead : forall t, number_text t -> exists v,
  (forall z, int_text t z -> - 2 ^ 53 <= z <= 2 ^ 53 -> num_int v = z /\ float_is v z) /\
  forall file dec s g r, wf file s -> total dec -> gap g -> ends_number r -> rest s = g ++ t ++ r ->
   ((forall n r', ~ ref_tail r n r') ->
      exists s', ReadObject file dec s = Ok ((ONum v, ENone), s') /\ moved file s s' r []) /\
   (forall n r', ref_tail r n r' ->
      exists s', ReadObject file dec s = Ok ((ORef (num_int v) (wrap64 n), ENone), s') /\ moved file s s' r' []).
Proof. exact number_lookahead. Qed.
Print Assumptions C12_reference_lookahead.

Example C12_example : number_text (lit "12") /\ ref_tail (lit " 3%c" ++ x0a :: lit "R]") 3 (lit "]") /\
  (forall n r, ~ ref_tail (lit " 3 Rx") n r).
Proof. exact C12_ex. Qed.

(** ** C36 *)

(** ReadObject: the outcome depends on the unread bytes alone. *)
Theorem C36_read_object_unbuffered : forall dec, (forall v, dec v <> OutOfFuel) ->
  forall f1 f2 s1 s2, wf f1 s1 -> wf f2 s2 -> rest s1 = rest s2 ->
  same_outcome s1 s2 (ReadObject f1 dec s1) (ReadObject f2 dec s2).
Proof. exact object_same_outcome. Qed.
Print Assumptions C36_read_object_unbuffered.

(** ReadDictionary called directly (as for trailers) reads its two-byte marker
    with one Read: the full statement
    [rest s1 = rest s2 -> same_outcome s1 s2 (ReadDictionary f1 dec s1) (ReadDictionary f2 dec s2)]
    fails when the buffer ends between the two bytes. *)
Theorem C36_read_dictionary_refuted : exists f1 f2 s1 s2, wf f1 s1 /\ wf f2 s2 /\
  f1 = repeat x20 4095 ++ f2 /\ s1 = consume_ws (open_rd f1) /\ s2 = open_rd f2 /\
  rest s1 = rest s2 /\
  ~ same_outcome s1 s2 (ReadDictionary f1 no_decryptor s1) (ReadDictionary f2 no_decryptor s2).
Proof. exact dictionary_refuted. Qed.
Print Assumptions C36_read_dictionary_refuted.

(** It holds when the marker is not split. *)
Theorem C36_read_dictionary_partial : forall dec, (forall v, dec v <> OutOfFuel) -> forall f1 f2 s1 s2 l,
  wf f1 s1 -> wf f2 s2 ->
  rest (consume_ws s1) = "<"%byte :: "<"%byte :: l -> rest (consume_ws s2) = "<"%byte :: "<"%byte :: l ->
  buf (consume_ws s1) <> 1 -> buf (consume_ws s2) <> 1 ->
  same_outcome s1 s2 (ReadDictionary f1 dec s1) (ReadDictionary f2 dec s2).
Proof. exact dictionary_same_outcome. Qed.
Print Assumptions C36_read_dictionary_partial.

Example C36_example : exists f s, wf f s /\ rest (consume_ws s) = lit "<</A 1>>" /\ buf (consume_ws s) = 8.
Proof. exact C36_ex. Qed.
