(** SpecLines.v -- literal strings as ISO 32000-1, 7.3.4.2 has them, with line
    ends and octal codes that are too large (C103).  The relation [str_body] of
    SpecLex leaves both out. *)
From Verif Require Import Base SpecLex.
From Coq Require Import Strings.String.

(** [std_body t w]: between its parentheses the text [t] denotes the bytes [w].
    A line end that is not escaped denotes a line feed, however it is written;
    of an octal code above 255 the high-order bit is ignored. *)
Inductive std_body : bytes -> bytes -> Prop :=
| sd_nil : std_body [] []
| sd_plain : forall b t w, b <> "\"%byte -> b <> "("%byte -> b <> ")"%byte -> b <> x0d -> std_body t w -> std_body (b :: t) (b :: w)
| sd_line_crlf : forall t w, std_body t w -> std_body (x0d :: x0a :: t) (x0a :: w)
| sd_line_cr : forall t w, ~ starts_with_lf t -> std_body t w -> std_body (x0d :: t) (x0a :: w)
| sd_nested : forall t1 w1 t2 w2, std_body t1 w1 -> std_body t2 w2 -> std_body ("("%byte :: t1 ++ ")"%byte :: t2) ("("%byte :: w1 ++ ")"%byte :: w2)
| sd_letter : forall c b t w, esc_letter c b -> std_body t w -> std_body ("\"%byte :: c :: t) (b :: w)
| sd_unknown : forall c t w, (forall b, ~ esc_letter c b) -> (forall d, ~ octdigit c d) -> ~ eol_byte c -> std_body t w -> std_body ("\"%byte :: c :: t) (c :: w)
| sd_octal3 : forall a b c x y z o t w, octdigit a x -> octdigit b y -> octdigit c z -> bv o = Z.of_nat (64 * x + 8 * y + z) mod 256 -> std_body t w ->
    std_body ("\"%byte :: a :: b :: c :: t) (o :: w)
| sd_octal2 : forall a b x y o t w, octdigit a x -> octdigit b y -> ~ starts_with_octal t -> bv o = Z.of_nat (8 * x + y) -> std_body t w ->
    std_body ("\"%byte :: a :: b :: t) (o :: w)
| sd_octal1 : forall a x o t w, octdigit a x -> ~ starts_with_octal t -> bv o = Z.of_nat x -> std_body t w -> std_body ("\"%byte :: a :: t) (o :: w)
| sd_lf : forall t w, std_body t w -> std_body ("\"%byte :: x0a :: t) w
| sd_crlf : forall t w, std_body t w -> std_body ("\"%byte :: x0d :: x0a :: t) w
| sd_cr : forall t w, ~ starts_with_lf t -> std_body t w -> std_body ("\"%byte :: x0d :: t) w.

(** [near v w]: the bytes [v] are [w] but for line ends and octal codes: a
    carriage return in place of the line feed or before it; the first two digits'
    value and the third digit in place of the value of an octal code. *)
Inductive near : bytes -> bytes -> Prop :=
| nr_nil : near [] []
| nr_same : forall b v w, near v w -> near (b :: v) (b :: w)
| nr_crlf : forall v w, near v w -> near (x0d :: x0a :: v) (x0a :: w)
| nr_cr : forall v w, near v w -> near (x0d :: v) (x0a :: w)
| nr_octal : forall a c x y z o v w, (x < 8)%nat -> (y < 8)%nat -> octdigit c z -> (255 < 64 * x + 8 * y + z)%nat -> bv a = Z.of_nat (8 * x + y) -> bv o = Z.of_nat (64 * x + 8 * y + z) - 256 ->
    near v w -> near (a :: c :: v) (o :: w).
