(** SpecRead.v -- vocabulary for statements about the reading functions. *)
From Verif Require Import Base Msg Reader ReaderP Num Obj SpecLex SpecObj.
From Coq Require Import Strings.String Floats.SpecFloat QArith.
Local Open Scope Z_scope.

(** From [s] the reader moved forward until [l] was left, writing [ms]. *)
Definition moved (file : bytes) (s s' : rd) (l : bytes) (ms : list msg) : Prop :=
  wf file s' /\ rest s' = l /\ pos s' = pos s + (zlen (rest s) - zlen l) /\ log s' = log s ++ ms.

(** A decryptor that returns for every string. *)
Definition total (dec : decryptor) : Prop := forall v, exists w, dec v = Ok w.

(** The object tree with [f] applied to each string. *)
Fixpoint map_strings (f : bytes -> bytes) (o : obj) : obj :=
  match o with
  | OStr v => OStr (f v)
  | OArr l => OArr (map (map_strings f) l)
  | ODict d => ODict (map (fun kv => (fst kv, map_strings f (snd kv))) d)
  | _ => o
  end.

(** Two runs with the same result, unread bytes and messages. *)
Definition same_outcome {A} (s1 s2 : rd) (x1 x2 : res (A * rd)) : Prop :=
  match x1, x2 with
  | Ok (a1, t1), Ok (a2, t2) =>
      a1 = a2 /\ rest t1 = rest t2 /\ exists ms, log t1 = log s1 ++ ms /\ log t2 = log s2 ++ ms
  | Panic, Panic => True
  | _, _ => False
  end.

(** [v] is the last value given for [k]. *)
Definition given_last (k : bytes) (v : obj) (kvs : list (bytes * obj)) : Prop :=
  exists a b, kvs = a ++ (k, v) :: b /\ ~ In k (map fst b).

(** Real literals and their values: sign, digits, point, digits. *)
Inductive real_text : bytes -> Q -> Prop :=
| rt_plain : forall a da f df, dec_digits a da -> dec_digits f df -> a ++ f <> [] ->
    real_text (a ++ "."%byte :: f) (dec_value (da ++ df) # Z.to_pos (10 ^ Z.of_nat (List.length df)))
| rt_plus : forall t q, real_text t q -> (forall x r, t = x :: r -> ~ In x (lit "+-")) -> real_text ("+"%byte :: t) q
| rt_minus : forall t q, real_text t q -> (forall x r, t = x :: r -> ~ In x (lit "+-")) -> real_text ("-"%byte :: t) (- q).

(** the rational value of a float *)
Definition float_Q (v : spec_float) : option Q :=
  match v with
  | S754_zero _ => Some 0%Q
  | S754_finite s m e =>
      let a := ((if 0 <=? e then Zpos m * 2 ^ e else Zpos m) # (if 0 <=? e then 1%positive else Z.to_pos (2 ^ (- e)))) in
      Some (if s then Qopp a else a)
  | _ => None
  end.
(** within [eps] of [q] *)
Definition float_near (v : spec_float) (q eps : Q) : Prop :=
  exists w, float_Q v = Some w /\ (w - q <= eps)%Q /\ (q - w <= eps)%Q.

(** ** Anomalies and their messages *)

(** End of file inside a literal string: what is left of the text, what it
    contributes to the value, and the messages due. *)
Inductive open_end : bytes -> bytes -> list msg -> Prop :=
| oe_byte : forall b, b <> "\"%byte -> b <> ")"%byte -> b <> x0a -> (forall d, ~ octdigit b d) ->
    open_end [b] [b] [UnclosedString]
| oe_escape : open_end ["\"%byte] ["\"%byte] [UnclosedStringEscape]
| oe_escape_cr : open_end ["\"%byte; x0d] [] [UnclosedStringEscape]
| oe_octal1 : forall a x w j, octdigit a x -> bv w = Z.of_nat x -> code_count (lit "\()") w j ->
    open_end ["\"%byte; a] [w] (UnclosedStringOctal :: repeat UnnecessaryEscapeString j ++ [UnclosedString])
| oe_octal2 : forall a b x y w j, octdigit a x -> octdigit b y -> bv w = Z.of_nat (8 * x + y) ->
    code_count (lit "\()") w j ->
    open_end ["\"%byte; a; b] [w] (UnclosedStringOctal :: repeat UnnecessaryEscapeString j ++ [UnclosedString]).

(** A '#' that is not followed by two hexadecimal digits. *)
Inductive bad_escape : bytes -> Prop :=
| be_first : forall c r, (forall v, ~ hexdigit c v) -> bad_escape ("#"%byte :: c :: r)
| be_second : forall a x c r, hexdigit a x -> (forall v, ~ hexdigit c v) -> bad_escape ("#"%byte :: a :: c :: r).
