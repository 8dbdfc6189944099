(** SpecIndirect.v -- the filters of a stream where references lead to them
    (ISO 32000-1, 7.3.10: any object may be given as a reference), written
    without reference to the readers (C123). *)
From Verif Require Import Base Num Obj Reader Env SpecFetch SpecLook SpecStream.
From Coq Require Import Strings.String.

Section Through.
  Variables (E : env) (file : bytes) (p : pst).

  (** The list of filters, and the list of their parameters. *)
  Inductive filters_through (d : dict) : list obj -> Prop :=
  | fh_array : forall l, typed E file p is_array (entry d (lit "Filter")) l -> filters_through d l
  | fh_name : forall n, typed E file p is_name (entry d (lit "Filter")) n -> filters_through d [OName n]
  | fh_none : untyped E file p is_array (entry d (lit "Filter")) -> untyped E file p is_name (entry d (lit "Filter")) -> filters_through d [].
  Inductive parms_through (d : dict) : list obj -> Prop :=
  | ph_array : forall l, typed E file p is_array (entry d (lit "DecodeParms")) l -> parms_through d l
  | ph_dict : forall pm, typed E file p is_dict (entry d (lit "DecodeParms")) pm -> parms_through d [ODict pm]
  | ph_none : untyped E file p is_array (entry d (lit "DecodeParms")) -> untyped E file p is_dict (entry d (lit "DecodeParms")) -> parms_through d [].
  (** The data after all filters; each name and each dictionary of parameters
      may be a reference itself. *)
  Inductive decoded_through : list obj -> list obj -> option bytes -> option bytes -> Prop :=
  | dt_nil : forall pl x, decoded_through [] pl x x
  | dt_cons : forall f fl pl nm pm x y z, typed_or E file p is_name (Some f) [] nm -> typed_or E file p is_dict (hd_error pl) [] pm ->
      stage E nm pm x y -> decoded_through fl (tl pl) y z -> decoded_through (f :: fl) pl x z.
  (** The crypt filter of a stream that names none. *)
  Inductive crypt_through (h : sechandler) (d : dict) (fl : list obj) : bool -> cfilter -> Prop :=
  | ch_plain : crypt_through h d fl false CFNone
  | ch_file : typed E file p is_name (entry d (lit "Type")) (lit "EmbeddedFile") ->
      (forall f r, fl = f :: r -> ~ typed E file p is_name (Some f) (lit "Crypt")) ->
      crypt_through h d fl true (sh_file h)
  | ch_stream : forall t, typed_or E file p is_name (entry d (lit "Type")) [] t -> t <> lit "EmbeddedFile" ->
      (forall f r, fl = f :: r -> ~ typed E file p is_name (Some f) (lit "Crypt")) ->
      crypt_through h d fl true (sh_stream h).
End Through.
(** The entry is a reference. *)
Definition refers (d : dict) (k : bytes) : Prop := exists n g, entry d k = Some (ORef n g).
