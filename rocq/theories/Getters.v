(** Getters.v -- the typed getters of pdf/dictionary.go and pdf/array.go over a
    given implementation of Reference.Resolve / ResolveStream. *)
From Verif Require Import Base Msg Reader Num Lexer Obj Env.
From Coq Require Import Strings.String.
Local Open Scope m_scope.

Section Getters.
  (** Reference.Resolve and ResolveStream, pdf/reference.go:22-48: the resolved
      indirect object, of which they return Value and Stream respectively. *)
  Variable rs : Z -> M iobj.

  (** Dictionary.GetObject, pdf/dictionary.go:117-125 *)
  Definition d_object (d : dict) (k : bytes) : M (obj * bool) :=
    match dget k d with
    | Some (ORef n _) => o <- rs n ;; ret (ival o, true)
    | Some o => ret (o, true)
    | None => ret (KEYWORD_NULL, false)
    end.

  (** Array.GetObject, pdf/array.go:86-95 *)
  Definition a_object (a : list obj) (i : Z) : M (obj * bool) :=
    match zget a i with
    | Some (ORef n _) => o <- rs n ;; ret (ival o, true)
    | Some o => ret (o, true)
    | None => ret (KEYWORD_NULL, false)
    end.

  (** The type switches shared by both files: the value and ok result for each
      type, given GetObject's result. *)
  (** dictionary.go:22-29, array.go:22-29 *)
  Definition as_array (x : obj * bool) : list obj * bool :=
    match x with (OArr l, true) => (l, true) | _ => ([], false) end.
  (** dictionary.go:31-42, array.go:31-42 *)
  Definition as_bool (x : obj * bool) : bool * bool :=
    match x with
    | (OKw k, true) =>
        if bseq k (lit "true") then (true, true)
        else if bseq k (lit "false") then (false, true) else (false, false)
    | _ => (false, false)
    end.
  (** dictionary.go:49-56, array.go:49-56 *)
  Definition as_dict (x : obj * bool) : dict * bool :=
    match x with (ODict d, true) => (d, true) | _ => ([], false) end.
  (** dictionary.go:68-75, array.go:68-75 *)
  Definition as_name (x : obj * bool) : bytes * bool :=
    match x with (OName v, true) => (v, true) | _ => ([], false) end.
  (** dictionary.go:108-115, array.go:77-84 *)
  Definition as_number (x : obj * bool) : num * bool :=
    match x with (ONum v, true) => (v, true) | _ => (num_zero, false) end.
  (** dictionary.go:175-182, array.go:106-113 *)
  Definition as_string (x : obj * bool) : bytes * bool :=
    match x with (OStr v, true) => (v, true) | _ => ([], false) end.
  (** dictionary.go:58-66, array.go:58-66 *)
  Definition as_int (x : obj * bool) : Z * bool :=
    let '(v, ok) := as_number x in (num_int v, ok).

  (** Dictionary getters, pdf/dictionary.go:22-75,108-115,175-182.  GetBytes
      (44-47) is GetString, GetInt64 (63-66) is GetInt. *)
  Definition d_array d k : M (list obj * bool) := x <- d_object d k ;; ret (as_array x).
  Definition d_bool d k : M (bool * bool) := x <- d_object d k ;; ret (as_bool x).
  Definition d_dict d k : M (dict * bool) := x <- d_object d k ;; ret (as_dict x).
  Definition d_name d k : M (bytes * bool) := x <- d_object d k ;; ret (as_name x).
  Definition d_number d k : M (num * bool) := x <- d_object d k ;; ret (as_number x).
  Definition d_int d k : M (Z * bool) := x <- d_object d k ;; ret (as_int x).
  Definition d_string d k : M (bytes * bool) := x <- d_object d k ;; ret (as_string x).

  (** Dictionary.GetStream, pdf/dictionary.go:166-173 *)
  Definition d_stream (d : dict) (k : bytes) : M (option bytes * bool) :=
    match dget k d with
    | Some (ORef n _) => o <- rs n ;; ret (istream o, true)
    | _ => ret (Some [], false)
    end.

  (** Dictionary.GetReference, pdf/dictionary.go:157-164 *)
  Definition d_reference (d : dict) (k : bytes) : option (Z * Z) :=
    match dget k d with Some (ORef n g) => Some (n, g) | _ => None end.

  (** Array getters, pdf/array.go:22-84,106-113. *)
  Definition a_array a i : M (list obj * bool) := x <- a_object a i ;; ret (as_array x).
  Definition a_bool a i : M (bool * bool) := x <- a_object a i ;; ret (as_bool x).
  Definition a_dict a i : M (dict * bool) := x <- a_object a i ;; ret (as_dict x).
  Definition a_name a i : M (bytes * bool) := x <- a_object a i ;; ret (as_name x).
  Definition a_number a i : M (num * bool) := x <- a_object a i ;; ret (as_number x).
  Definition a_int a i : M (Z * bool) := x <- a_object a i ;; ret (as_int x).
  Definition a_string a i : M (bytes * bool) := x <- a_object a i ;; ret (as_string x).

  (** Array.GetStream, pdf/array.go:97-104 *)
  Definition a_stream (a : list obj) (i : Z) : M (option bytes * bool) :=
    match zget a i with
    | Some (ORef n _) => o <- rs n ;; ret (istream o, true)
    | _ => ret (Some [], false)
    end.
End Getters.
