(** SpecLex.v -- PDF lexical syntax (ISO 32000-1, 7.2 and 7.3) as relations
    between text and meaning, written without reference to the readers of the
    model.  Only [byte], [bytes], [lit] and [bv] are shared with it. *)
From Verif Require Import Base.
From Coq Require Import Strings.String.

(** White space: NUL, TAB, LF, FF, CR, SPACE (7.2.2, table 1). *)
Definition ws_byte (b : byte) : Prop := In b [x00; x09; x0a; x0c; x0d; x20].
Definition eol_byte (b : byte) : Prop := b = x0a \/ b = x0d.
(** Delimiters (7.2.2, table 2) without the braces, which only matter inside
    PostScript calculator functions. *)
Definition delim_byte (b : byte) : Prop := In b (lit "()<>[]/%").
Definition regular_byte (b : byte) : Prop := ~ ws_byte b /\ ~ delim_byte b.

(** White space and complete comments, in any mixture. *)
Inductive gap : bytes -> Prop :=
| gap_nil : gap []
| gap_ws : forall b g, ws_byte b -> gap g -> gap (b :: g)
| gap_comment : forall c eol g, (forall b, In b c -> ~ eol_byte b) -> eol_byte eol -> gap g ->
    gap ("%"%byte :: c ++ eol :: g).

(** Text that holds no token: a gap, possibly with an unterminated comment. *)
Inductive blank : bytes -> Prop :=
| blank_gap : forall g, gap g -> blank g
| blank_open : forall g c, gap g -> (forall b, In b c -> ~ eol_byte b) -> blank (g ++ "%"%byte :: c).

(** What may follow a token made of regular characters. *)
Definition ends_token (r : bytes) : Prop :=
  r = [] \/ exists b r', r = b :: r' /\ (ws_byte b \/ delim_byte b).

(** Digits by position in the list of digit characters. *)
Definition digit (base : string) (b : byte) (v : nat) : Prop := nth_error (lit base) v = Some b.
Definition octdigit (b : byte) (v : nat) : Prop := digit "01234567" b v.
Definition decdigit (b : byte) (v : nat) : Prop := digit "0123456789" b v.
Definition hexdigit (b : byte) (v : nat) : Prop :=
  digit "0123456789abcdef" b v \/ digit "0123456789ABCDEF" b v.

(** ** Literal strings (7.3.4.2) *)

(** single-character escapes of table 3 *)
Inductive esc_letter : byte -> byte -> Prop :=
| esc_n : esc_letter "n" x0a
| esc_r : esc_letter "r" x0d
| esc_t : esc_letter "t" x09
| esc_b : esc_letter "b" x08
| esc_f : esc_letter "f" x0c
| esc_open : esc_letter "(" "("
| esc_close : esc_letter ")" ")"
| esc_backslash : esc_letter "\" "\".

Definition starts_with_octal (t : bytes) : Prop := exists b r v, t = b :: r /\ octdigit b v.
Definition starts_with_lf (t : bytes) : Prop := exists r, t = x0a :: r.

(** Visible ASCII characters; writing one of them as a numeric code is
    superfluous unless the character is special ([ex]). *)
Definition needless (ex : bytes) (b : byte) : Prop := 33 <= bv b <= 126 /\ ~ In b ex.
(** [count ex b k]: [b] written as a code adds [k] superfluous codes *)
Inductive code_count (ex : bytes) (b : byte) : nat -> Prop :=
| cc_needed : ~ needless ex b -> code_count ex b 0
| cc_needless : needless ex b -> code_count ex b 1.

(** [str_body t v k]: between its parentheses the text [t] denotes the bytes
    [v]; [k] of its octal codes are superfluous. *)
Inductive str_body : bytes -> bytes -> nat -> Prop :=
| sb_nil : str_body [] [] 0
| sb_plain : forall b t v k, b <> "\"%byte -> b <> "("%byte -> b <> ")"%byte -> b <> x0d ->
    str_body t v k -> str_body (b :: t) (b :: v) k
| sb_nested : forall t1 v1 k1 t2 v2 k2, str_body t1 v1 k1 -> str_body t2 v2 k2 ->
    str_body ("("%byte :: t1 ++ ")"%byte :: t2) ("("%byte :: v1 ++ ")"%byte :: v2) (k1 + k2)
| sb_letter : forall c b t v k, esc_letter c b -> str_body t v k ->
    str_body ("\"%byte :: c :: t) (b :: v) k
| sb_unknown : forall c t v k, (forall b, ~ esc_letter c b) -> (forall d, ~ octdigit c d) -> ~ eol_byte c ->
    str_body t v k -> str_body ("\"%byte :: c :: t) (c :: v) k
| sb_octal3 : forall a b c x y z w t v j k, octdigit a x -> octdigit b y -> octdigit c z ->
    bv w = Z.of_nat (64 * x + 8 * y + z) -> code_count (lit "\()") w j -> str_body t v k ->
    str_body ("\"%byte :: a :: b :: c :: t) (w :: v) (j + k)
| sb_octal2 : forall a b x y w t v j k, octdigit a x -> octdigit b y -> ~ starts_with_octal t ->
    bv w = Z.of_nat (8 * x + y) -> code_count (lit "\()") w j -> str_body t v k ->
    str_body ("\"%byte :: a :: b :: t) (w :: v) (j + k)
| sb_octal1 : forall a x w t v j k, octdigit a x -> ~ starts_with_octal t ->
    bv w = Z.of_nat x -> code_count (lit "\()") w j -> str_body t v k ->
    str_body ("\"%byte :: a :: t) (w :: v) (j + k)
| sb_lf : forall t v k, str_body t v k -> str_body ("\"%byte :: x0a :: t) v k
| sb_crlf : forall t v k, str_body t v k -> str_body ("\"%byte :: x0d :: x0a :: t) v k
| sb_cr : forall t v k, ~ starts_with_lf t -> str_body t v k -> str_body ("\"%byte :: x0d :: t) v k.

(** ** Hexadecimal strings (7.3.4.3) *)

(** [hex_digits t ds k]: the values of the digits of a text; white space is
    skipped, and so are (as in the code) the [k] bytes that are neither.
    [%] and [>] cannot occur. *)
Inductive hex_digits : bytes -> list nat -> nat -> Prop :=
| hd_nil : hex_digits [] [] 0
| hd_ws : forall b t ds k, ws_byte b -> hex_digits t ds k -> hex_digits (b :: t) ds k
| hd_skip : forall b t ds k, (forall v, ~ hexdigit b v) -> ~ ws_byte b -> b <> "%"%byte -> b <> ">"%byte ->
    hex_digits t ds k -> hex_digits (b :: t) ds (S k)
| hd_digit : forall b v t ds k, hexdigit b v -> hex_digits t ds k -> hex_digits (b :: t) (v :: ds) k.

(** consecutive pairs, a missing last digit counting as 0 *)
Inductive hex_pairs : list nat -> bytes -> Prop :=
| hp_nil : hex_pairs [] []
| hp_odd : forall x w, bv w = Z.of_nat (16 * x) -> hex_pairs [x] [w]
| hp_pair : forall x y w ds v, bv w = Z.of_nat (16 * x + y) -> hex_pairs ds v ->
    hex_pairs (x :: y :: ds) (w :: v).

(** ** Names (7.3.5) *)

(** [name_body t v k]: the text [t] behind the slash denotes [v]; [k] of its
    codes are superfluous. *)
Inductive name_body : bytes -> bytes -> nat -> Prop :=
| nb_nil : name_body [] [] 0
| nb_char : forall b t v k, regular_byte b -> b <> "#"%byte -> name_body t v k ->
    name_body (b :: t) (b :: v) k
| nb_escape : forall a b x y w t v j k, hexdigit a x -> hexdigit b y ->
    bv w = Z.of_nat (16 * x + y) -> code_count (lit "#()<>[]/%") w j -> name_body t v k ->
    name_body ("#"%byte :: a :: b :: t) (w :: v) (j + k).

(** ** Integers (7.3.3) *)
Inductive dec_digits : bytes -> list nat -> Prop :=
| dd_nil : dec_digits [] []
| dd_cons : forall b d t ds, decdigit b d -> dec_digits t ds -> dec_digits (b :: t) (d :: ds).

Definition dec_value (ds : list nat) : Z := fold_left (fun v d => 10 * v + Z.of_nat d) ds 0.

(** an unsigned integer literal *)
Definition nat_text (t : bytes) (n : Z) : Prop :=
  exists ds, dec_digits t ds /\ ds <> [] /\ dec_value ds = n.

Inductive int_text : bytes -> Z -> Prop :=
| it_plain : forall t n, nat_text t n -> int_text t n
| it_plus : forall t n, nat_text t n -> int_text ("+"%byte :: t) n
| it_minus : forall t n, nat_text t n -> int_text ("-"%byte :: t) (- n).

(** keywords and operators: regular characters, not starting like a number *)
Definition kw_text (t : bytes) : Prop :=
  exists b r, t = b :: r /\ (forall c, In c t -> regular_byte c) /\
    ~ In b (lit "0123456789+-.").
