(** SpecTolerant.v -- a grammar for all texts, well-formed or not: what the
    next object of a text is, what is left behind it, and which anomalies are
    to be reported (errors.txt in README.md), in the order of the text.  Written
    without reference to the readers of the model. *)
From Verif Require Import Base Msg Num Obj SpecLex SpecObj.
From Coq Require Import Strings.String.

(** ** Literal strings: [str_in n t v ms r].  Behind the opening parenthesis and
    [n] further open ones, [t] holds the bytes [v]; [r] is left behind the
    closing parenthesis. *)
Inductive str_in : nat -> bytes -> bytes -> list msg -> bytes -> Prop :=
| si_end : forall n, str_in n [] [] [UnclosedString] []
| si_close : forall r, str_in 0 (")"%byte :: r) [] [] r
| si_inner : forall n t v ms r, str_in n t v ms r -> str_in (S n) (")"%byte :: t) (")"%byte :: v) ms r
| si_open : forall n t v ms r, str_in (S n) t v ms r -> str_in n ("("%byte :: t) ("("%byte :: v) ms r
| si_plain : forall n b t v ms r, b <> "\"%byte -> b <> "("%byte -> b <> ")"%byte ->
    str_in n t v ms r -> str_in n (b :: t) (b :: v) ms r
| si_letter : forall n c b t v ms r, esc_letter c b -> str_in n t v ms r ->
    str_in n ("\"%byte :: c :: t) (b :: v) ms r
| si_unknown : forall n c t v ms r, (forall b, ~ esc_letter c b) -> (forall d, ~ octdigit c d) -> ~ eol_byte c ->
    str_in n t v ms r -> str_in n ("\"%byte :: c :: t) (c :: v) ms r
| si_lf : forall n t v ms r, str_in n t v ms r -> str_in n ("\"%byte :: x0a :: t) v ms r
| si_crlf : forall n t v ms r, str_in n t v ms r -> str_in n ("\"%byte :: x0d :: x0a :: t) v ms r
| si_cr : forall n t v ms r, t <> [] -> ~ starts_with_lf t -> str_in n t v ms r ->
    str_in n ("\"%byte :: x0d :: t) v ms r
| si_octal3 : forall n a b c x y z w j t v ms r, octdigit a x -> octdigit b y -> octdigit c z ->
    bv w = Z.of_nat (64 * x + 8 * y + z) -> code_count (lit "\()") w j -> str_in n t v ms r ->
    str_in n ("\"%byte :: a :: b :: c :: t) (w :: v) (repeat UnnecessaryEscapeString j ++ ms) r
| si_octal2 : forall n a b x y w j t v ms r, octdigit a x -> octdigit b y -> t <> [] -> ~ starts_with_octal t ->
    bv w = Z.of_nat (8 * x + y) -> code_count (lit "\()") w j -> str_in n t v ms r ->
    str_in n ("\"%byte :: a :: b :: t) (w :: v) (repeat UnnecessaryEscapeString j ++ ms) r
| si_octal1 : forall n a x w j t v ms r, octdigit a x -> t <> [] -> ~ starts_with_octal t ->
    bv w = Z.of_nat x -> code_count (lit "\()") w j -> str_in n t v ms r ->
    str_in n ("\"%byte :: a :: t) (w :: v) (repeat UnnecessaryEscapeString j ++ ms) r
(** three digits above 255: the code has two digits and the third is text *)
| si_octal_large : forall n a b c x y z w j t v ms r, octdigit a x -> octdigit b y -> octdigit c z ->
    (64 * x + 8 * y + z > 255)%nat ->
    bv w = Z.of_nat (8 * x + y) -> code_count (lit "\()") w j -> str_in n (c :: t) v ms r ->
    str_in n ("\"%byte :: a :: b :: c :: t) (w :: v)
      (InvalidOctal :: repeat UnnecessaryEscapeString j ++ ms) r
(** the end of the file inside an escape *)
| si_escape_end : forall n, str_in n ["\"%byte] ["\"%byte] [UnclosedStringEscape] []
| si_cr_end : forall n, str_in n ["\"%byte; x0d] [] [UnclosedStringEscape] []
| si_octal1_end : forall n a x w j, octdigit a x -> bv w = Z.of_nat x -> code_count (lit "\()") w j ->
    str_in n ["\"%byte; a] [w] (UnclosedStringOctal :: repeat UnnecessaryEscapeString j ++ [UnclosedString]) []
| si_octal2_end : forall n a b x y w j, octdigit a x -> octdigit b y -> bv w = Z.of_nat (8 * x + y) ->
    code_count (lit "\()") w j ->
    str_in n ["\"%byte; a; b] [w] (UnclosedStringOctal :: repeat UnnecessaryEscapeString j ++ [UnclosedString]) [].

(** ** Hexadecimal strings: [hex_in t ds ms r] behind the '<' *)
Inductive hex_in : bytes -> list nat -> list msg -> bytes -> Prop :=
| hi_end : forall t, blank t -> hex_in t [] [UnclosedHexString] []
| hi_close : forall g r, gap g -> hex_in (g ++ ">"%byte :: r) [] [] r
| hi_digit : forall g b v t ds ms r, gap g -> hexdigit b v -> hex_in t ds ms r ->
    hex_in (g ++ b :: t) (v :: ds) ms r
| hi_skip : forall g b t ds ms r, gap g -> (forall v, ~ hexdigit b v) -> ~ ws_byte b -> b <> "%"%byte -> b <> ">"%byte ->
    hex_in t ds ms r -> hex_in (g ++ b :: t) ds (InvalidHexStringChar :: ms) r.

(** ** Names: [name_in t v ms r] behind the slash *)
Inductive name_in : bytes -> bytes -> list msg -> bytes -> Prop :=
| ni_end : forall r, ends_token r -> name_in r [] [] r
| ni_char : forall b t v ms r, regular_byte b -> b <> "#"%byte -> name_in t v ms r ->
    name_in (b :: t) (b :: v) ms r
| ni_code : forall a b x y w j t v ms r, hexdigit a x -> hexdigit b y ->
    bv w = Z.of_nat (16 * x + y) -> code_count (lit "#()<>[]/%") w j -> name_in t v ms r ->
    name_in ("#"%byte :: a :: b :: t) (w :: v) (repeat UnnecessaryEscapeName j ++ ms) r
(** a missing digit counts as 0 *)
| ni_no_digit : forall c t v ms r, (forall x, ~ hexdigit c x) -> name_in (c :: t) v ms r ->
    name_in ("#"%byte :: c :: t) (x00 :: v) (InvalidNameEscapeChar :: ms) r
| ni_one_digit : forall a x w j c t v ms r, hexdigit a x -> (forall y, ~ hexdigit c y) ->
    bv w = Z.of_nat (16 * x) -> code_count (lit "#()<>[]/%") w j -> name_in (c :: t) v ms r ->
    name_in ("#"%byte :: a :: c :: t) (w :: v) (InvalidNameEscapeChar :: repeat UnnecessaryEscapeName j ++ ms) r
| ni_no_digit_end : name_in ["#"%byte] [x00] [] []
| ni_one_digit_end : forall a x w j, hexdigit a x -> bv w = Z.of_nat (16 * x) ->
    code_count (lit "#()<>[]/%") w j ->
    name_in ["#"%byte; a] [w] (repeat UnnecessaryEscapeName j) [].

(** ** Numbers: the longest number token at the start of a text *)
Definition number_in (t tok r : bytes) : Prop :=
  t = tok ++ r /\ number_text tok /\
  forall b r', r = b :: r' -> ~ In b (lit "0123456789") /\ (b = "."%byte -> In "."%byte tok).

(** ** Objects *)

(** closing delimiters met where an object might start *)
Inductive mark : Set := MArray | MString | MDict | MHex.
Definition mark_text (m : mark) : bytes :=
  match m with MArray => lit "]" | MString => lit ")" | MDict => lit ">>" | MHex => lit ">" end.
Inductive item : Set := IObj (o : obj) | IMark (m : mark) | INone.

(** what an item counts as inside a container that it does not close *)
Inductive counts_as : item -> obj -> Prop :=
| ca_obj : forall o, counts_as (IObj o) o
| ca_mark : forall m, counts_as (IMark m) (OKw (lit "null")).

(** the entries of a dictionary after assignments in order; an entry keeps the
    place of the first assignment to its key *)
Inductive assigned : list (bytes * obj) -> list (bytes * obj) -> Prop :=
| as_none : assigned [] []
| as_new : forall kvs d k v, assigned kvs d -> ~ In k (map fst d) -> assigned (kvs ++ [(k, v)]) (d ++ [(k, v)])
| as_again : forall kvs a k w b v, assigned kvs (a ++ (k, w) :: b) -> ~ In k (map fst a) ->
    assigned (kvs ++ [(k, v)]) (a ++ (k, v) :: b).

Section Objects.
  (** the values of number tokens *)
  Variable value : bytes -> num.

  (** [scan t x ms r]: the first item of [t] is [x]; [r] is left behind it.
      [array_in t l ms r], [dict_in t kvs ms r]: the same for the inside of an
      array or dictionary up to its end. *)
  Inductive scan : bytes -> item -> list msg -> bytes -> Prop :=
  | sc_none : forall t, blank t -> scan t INone [] []
  | sc_name : forall g t v ms r, gap g -> name_in t v ms r ->
      scan (g ++ "/"%byte :: t) (IObj (OName v)) ms r
  | sc_str : forall g t v ms r, gap g -> str_in 0 t v ms r ->
      scan (g ++ "("%byte :: t) (IObj (OStr v)) ms r
  | sc_hex : forall g t ds v ms r, gap g -> (forall u, t <> "<"%byte :: u) -> hex_in t ds ms r -> hex_pairs ds v ->
      scan (g ++ "<"%byte :: t) (IObj (OStr v)) ms r
  | sc_num : forall g t tok r, gap g -> number_in t tok r -> (forall n r', ~ ref_tail r n r') ->
      scan (g ++ t) (IObj (ONum (value tok))) [] r
  | sc_ref : forall g t tok r n r', gap g -> number_in t tok r -> ref_tail r n r' ->
      scan (g ++ t) (IObj (ORef (num_int (value tok)) (wrap64 n))) [] r'
  | sc_kw : forall g t r, gap g -> kw_text t -> ends_token r -> scan (g ++ t ++ r) (IObj (OKw t)) [] r
  | sc_mark : forall g m r, gap g -> (m = MHex -> forall u, r <> ">"%byte :: u) ->
      scan (g ++ mark_text m ++ r) (IMark m) [] r
  | sc_array : forall g t l ms r, gap g -> array_in t l ms r ->
      scan (g ++ "["%byte :: t) (IObj (OArr l)) ms r
  | sc_dict : forall g t kvs d ms r, gap g -> dict_in t kvs ms r -> assigned kvs d ->
      scan (g ++ "<"%byte :: "<"%byte :: t) (IObj (ODict d)) ms r
  with array_in : bytes -> list obj -> list msg -> bytes -> Prop :=
  | ai_end : forall t ms r, scan t INone ms r -> array_in t [] (ms ++ [UnclosedArray]) r
  | ai_close : forall t ms r, scan t (IMark MArray) ms r -> array_in t [] ms r
  | ai_more : forall t x o ms u l ms' r, scan t x ms u -> counts_as x o -> x <> IMark MArray ->
      array_in u l ms' r -> array_in t (o :: l) (ms ++ ms') r
  with dict_in : bytes -> list (bytes * obj) -> list msg -> bytes -> Prop :=
  | di_end : forall t ms r, scan t INone ms r -> dict_in t [] (ms ++ [UnclosedDictionary]) r
  | di_close : forall t ms r, scan t (IMark MDict) ms r -> dict_in t [] ms r
  | di_bad_key : forall t x o ms u kvs ms' r, scan t x ms u -> counts_as x o -> x <> IMark MDict ->
      (forall k, o <> OName k) -> dict_in u kvs ms' r ->
      dict_in t kvs (ms ++ InvalidDictionaryKeyType :: ms') r
  | di_no_value : forall t k ms u x ms' r, scan t (IObj (OName k)) ms u -> scan u x ms' r ->
      x = INone \/ x = IMark MDict -> dict_in t [] (ms ++ ms' ++ [MissingDictionaryValue]) r
  | di_pair : forall t k ms u x o ms' w kvs ms'' r, scan t (IObj (OName k)) ms u -> scan u x ms' w ->
      counts_as x o -> x <> IMark MDict -> dict_in w kvs ms'' r ->
      dict_in t ((k, o) :: kvs) (ms ++ ms' ++ ms'') r.

  Scheme scan_mut := Minimality for scan Sort Prop
    with array_in_mut := Minimality for array_in Sort Prop
    with dict_in_mut := Minimality for dict_in Sort Prop.
  Combined Scheme scan_all_ind from scan_mut, array_in_mut, dict_in_mut.
End Objects.

(** what ReadObject returns for an item *)
Definition item_value (x : item) : obj :=
  match x with IObj o => o | _ => OKw (lit "null") end.
Definition item_error (x : item) : oerr :=
  match x with
  | IObj _ => ENone
  | IMark MArray => EEndOfArray
  | IMark MString => EEndOfString
  | IMark MDict => EEndOfDictionary
  | IMark MHex => EEndOfHexString
  | INone => EReadError
  end.
