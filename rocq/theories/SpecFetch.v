(** SpecFetch.v -- vocabulary for statements about GetObject, Resolve and the
    getters. *)
From Verif Require Import Base Msg Reader ReaderP Num Lexer Obj ReadObj Env Getters Crypt GetObj SpecRead.
From Coq Require Import Strings.String.

(** The reader of [p] is one of [file]. *)
Definition reads (file : bytes) (p : pst) : Prop := wf file (prd p).

(** Nothing but the log has changed. *)
Definition stays (file : bytes) (p p' : pst) : Prop :=
  reads file p' /\ pos (prd p') = pos (prd p) /\ rest (prd p') = rest (prd p) /\
  pxref p' = pxref p /\ ptrailer p' = ptrailer p /\ psh p' = psh p.

(** Running [m] changes nothing but the log. *)
Definition still {A} (file : bytes) (m : M A) : Prop := 
  forall p a p', reads file p -> m p = Ok (a, p') -> stays file p p'.

(** The cross-reference table points into the file. *)
Definition offsets_ok (x : xmap) : Prop :=
  forall n e, xget n x = Some e -> x_type e = 1 -> 0 <= x_off e.

(** ... at least for object [n] *)
Definition entry_ok (n : Z) (p : pst) : Prop := forall e, xget n (pxref p) = Some e -> x_type e = 1 -> 0 <= x_off e.

(** Object [n] can be fetched and is [o]. *)
Definition fetched (E : env) (file : bytes) (p : pst) (n : Z) (o : iobj) : Prop :=
  exists fuel p', GetObject fuel E file n p = Ok (o, p').

(** [hops n l m]: starting from [n] the objects [l] are references leading to [m]. *)
Inductive hops (E : env) (file : bytes) (p : pst) : Z -> list Z -> Z -> Prop :=
| hop_here : forall n, hops E file p n [] n
| hop_next : forall n o n' g l m, fetched E file p n o -> ival o = ORef n' g -> hops E file p n' l m ->
    hops E file p n (n :: l) m.

(** [m] occurs as a reference in the object. *)
Inductive refers (m : Z) : obj -> Prop :=
| rf_ref : forall g, refers m (ORef m g)
| rf_arr : forall o l, In o l -> refers m o -> refers m (OArr l)
| rf_dict : forall k o d, In (k, o) d -> refers m o -> refers m (ODict d).

(** In-use object [n] has value [v] in the file; [st]: the keyword "stream" follows. *)
Definition stored (E : env) (file : bytes) (p : pst) (n : Z) (v : obj) (st : Prop) : Prop :=
  exists e er s, xget n (pxref p) = Some e /\ x_type e = 1 /\
    ReadObject file (new_decryptor E (if x_enc e then sh_string (psh p) else CFNone) n (x_gen e))
      (snd (read_object_header (seek file (x_off e) (prd p)))) = Ok ((v, er), s) /\
    (st <-> fst (read_keyword s) = lit "stream").

(** ** Getters *)
(** the value an entry stands for, after looking it up *)
Definition looked_up (rs : Z -> M iobj) (x : obj) (p : pst) (v : obj) (p' : pst) : Prop :=
  match x with
  | ORef n _ => exists o, rs n p = Ok (o, p') /\ v = ival o
  | _ => v = x /\ p' = p
  end.

(** A getter for values of which [is] says what they are, on an entry that may
    or may not be there. *)
Definition reports {A} (is : obj -> A -> Prop) (zero : A) (rs : Z -> M iobj) (entry : option obj) (m : M (A * bool)) : Prop :=
  match entry with
  | None => forall p, m p = Ok ((zero, false), p)
  | Some x => forall p v p', looked_up rs x p v p' ->
      (forall a, is v a -> m p = Ok ((a, true), p')) /\
      ((forall a, ~ is v a) -> m p = Ok ((zero, false), p'))
  end.
(** The same for GetStream, which reports a stream for every reference. *)
Definition reports_stream (rs : Z -> M iobj) (entry : option obj) (m : M (option bytes * bool)) : Prop :=
  match entry with
  | Some (ORef n _) => forall p o p', rs n p = Ok (o, p') -> m p = Ok ((istream o, true), p')
  | _ => forall p, m p = Ok ((Some [], false), p)
  end.

Definition is_object (v : obj) (a : obj) : Prop := a = v.
Definition is_array (v : obj) (a : list obj) : Prop := v = OArr a.
Definition is_dict (v : obj) (a : dict) : Prop := v = ODict a.
Definition is_name (v : obj) (a : bytes) : Prop := v = OName a.
Definition is_string (v : obj) (a : bytes) : Prop := v = OStr a.
Definition is_number (v : obj) (a : num) : Prop := v = ONum a.
Definition is_int (v : obj) (a : Z) : Prop := exists q, v = ONum q /\ a = num_int q.
Definition is_bool (v : obj) (a : bool) : Prop := v = OKw (if a then lit "true" else lit "false").

(** the element at an index, which may be negative or too large *)
Definition element (l : list obj) (i : Z) : option obj :=
  if i <? 0 then None else nth_error l (Z.to_nat i).
(** the entry for a key: the first pair with it (keys are distinct, C09) *)
Fixpoint entry (d : dict) (k : bytes) : option obj :=
  match d with
  | [] => None
  | (k', v) :: d' => if list_eq_dec Byte.byte_eq_dec k k' then Some v else entry d' k
  end.
