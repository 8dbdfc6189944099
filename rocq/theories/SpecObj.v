(** SpecObj.v -- the syntax of PDF objects (ISO 32000-1, 7.3) as a relation
    between texts and object trees, written without reference to the readers. *)
From Verif Require Import Base Num Obj SpecLex.
From Coq Require Import Strings.String Floats.SpecFloat.

(** [float_is v z]: the float [v] has exactly the integer value [z]. *)
Definition float_is (v : spec_float) (z : Z) : Prop :=
  match v with
  | S754_zero _ => z = 0
  | S754_finite s m e =>
      if 0 <=? e then z = (if s then -1 else 1) * Zpos m * 2 ^ e
      else z * 2 ^ (- e) = (if s then -1 else 1) * Zpos m
  | _ => False
  end.

(** A reference tail: an integer and the keyword R behind a number. *)
Inductive ref_tail : bytes -> Z -> bytes -> Prop :=
| rt_intro : forall g1 t n g2 r, gap g1 -> nat_text t n -> gap g2 -> ends_token r ->
    ref_tail (g1 ++ t ++ g2 ++ "R"%byte :: r) n r.

(** Number tokens: an optional sign, digits, optionally a point and digits. *)
Inductive number_text : bytes -> Prop :=
| nt_intro : forall sign a frac da,
    (sign = [] \/ sign = ["+"%byte] \/ sign = ["-"%byte]) ->
    dec_digits a da ->
    (frac = [] \/ exists f df, dec_digits f df /\ frac = "."%byte :: f) ->
    sign ++ a ++ frac <> [] ->
    number_text (sign ++ a ++ frac).
(** ... which end where neither a digit nor a further point follows *)
Definition ends_number (r : bytes) : Prop :=
  r = [] \/ exists b r', r = b :: r' /\ ~ In b (lit "0123456789.").

(** Objects whose text ends with a delimiter of its own. *)
Definition self_delimited (o : obj) : Prop :=
  match o with OStr _ | OArr _ | ODict _ => True | _ => False end.

(** keys and values of a dictionary in writing order *)
Fixpoint flatten (kvs : list (bytes * obj)) : list obj :=
  match kvs with [] => [] | (k, v) :: r => OName k :: v :: flatten r end.

(** [obj_text t o]: the text [t] denotes the object tree [o] (canonically:
    without superfluous codes or invalid characters).
    [items t l]: [t] is a sequence of objects with gaps where needed. *)
Inductive obj_text : bytes -> obj -> Prop :=
| ot_int : forall t z, int_text t z -> - 2 ^ 53 <= z <= 2 ^ 53 ->
    (z = 0 -> nat_text t 0) -> obj_text t (ONum (num_of_Z z))
| ot_str : forall t v, str_body t v 0 -> obj_text ("("%byte :: t ++ [")"%byte]) (OStr v)
| ot_hex : forall t ds v, hex_digits t ds 0 -> hex_pairs ds v ->
    obj_text ("<"%byte :: t ++ [">"%byte]) (OStr v)
| ot_name : forall t v, name_body t v 0 -> obj_text ("/"%byte :: t) (OName v)
| ot_kw : forall t, kw_text t -> t <> lit "R" -> obj_text t (OKw t)
| ot_ref : forall a n g1 b g g2, nat_text a n -> n <= 2 ^ 53 -> gap g1 -> g1 <> [] ->
    nat_text b g -> g < 2 ^ 63 -> gap g2 -> g2 <> [] ->
    obj_text (a ++ g1 ++ b ++ g2 ++ lit "R") (ORef n g)
| ot_arr : forall t l, items t l -> obj_text ("["%byte :: t ++ ["]"%byte]) (OArr l)
| ot_dict : forall t kvs, items t (flatten kvs) -> NoDup (map fst kvs) ->
    obj_text ("<"%byte :: "<"%byte :: t ++ [">"%byte; ">"%byte]) (ODict kvs)
with items : bytes -> list obj -> Prop :=
| it_nil : forall g, gap g -> items g []
| it_cons : forall g t o r l, gap g -> obj_text t o -> items r l ->
    self_delimited o \/ ends_token r -> items (g ++ t ++ r) (o :: l).

Scheme obj_text_mut := Induction for obj_text Sort Prop
  with items_mut := Induction for items Sort Prop.
Combined Scheme obj_items_ind from obj_text_mut, items_mut.

(** Trees that can be written: integers up to 2^53, keywords that are tokens
    other than R, references with non-negative numbers, distinct keys. *)
Fixpoint writable (o : obj) : Prop :=
  match o with
  | ONum v => exists z, - 2 ^ 53 <= z <= 2 ^ 53 /\ v = num_of_Z z
  | OStr _ | OName _ => True
  | OKw t => kw_text t /\ t <> lit "R"
  | ORef n g => 0 <= n <= 2 ^ 53 /\ 0 <= g < 2 ^ 63
  | OArr l => (fix all (l : list obj) : Prop := match l with [] => True | x :: r => writable x /\ all r end) l
  | ODict d => NoDup (map fst d) /\
      (fix all (d : list (bytes * obj)) : Prop :=
         match d with [] => True | (_, x) :: r => writable x /\ all r end) d
  end.

(** What may follow an object so that it is read as that object. *)
Definition may_follow (o : obj) (r : bytes) : Prop :=
  match o with
  | OStr _ | OArr _ | ODict _ => True
  | ONum _ => ends_token r /\ (forall n r', ~ ref_tail r n r')
  | _ => ends_token r
  end.

(** Text cut off inside a container: what was complete (or, inside a nested
    container, what was complete of that), and how often each kind of container
    was left open, innermost first. *)
Inductive cut : Set := CutArray | CutDict | CutValue.
Inductive cut_text : bytes -> obj -> list cut -> Prop :=
| ct_arr : forall t l, items t l -> cut_text ("["%byte :: t) (OArr l) [CutArray]
| ct_arr_in : forall t l u o cs, items t l -> cut_text u o cs ->
    cut_text ("["%byte :: t ++ u) (OArr (l ++ [o])) (cs ++ [CutArray])
| ct_dict : forall t kvs, items t (flatten kvs) -> NoDup (map fst kvs) ->
    cut_text ("<"%byte :: "<"%byte :: t) (ODict kvs) [CutDict]
| ct_value : forall t kvs k, items t (flatten kvs ++ [OName k]) -> NoDup (map fst kvs) ->
    cut_text ("<"%byte :: "<"%byte :: t) (ODict kvs) [CutValue]
| ct_dict_in : forall t kvs k u o cs, items t (flatten kvs ++ [OName k]) ->
    NoDup (map fst (kvs ++ [(k, o)])) -> cut_text u o cs ->
    cut_text ("<"%byte :: "<"%byte :: t ++ u) (ODict (kvs ++ [(k, o)])) (cs ++ [CutDict]).
