(** Obj.v -- PDF objects (pdf/object.go, number.go, string.go, name.go,
    keyword.go, reference.go, array.go, dictionary.go). *)
From Verif Require Import Base Msg Reader Num.
From Coq Require Import Strings.String.

(** The implementations of interface Object (pdf/object.go:8-10).
    [ORef n g] is a *Reference to the parser the object was read from
    (pdf/reference.go:8-12).  A Dictionary (pdf/dictionary.go:7) is an
    association list with distinct keys in order of first insertion; Go's map
    has no order. *)
Inductive obj : Type :=
| ONum (v : num)
| OStr (v : bytes)
| OName (v : bytes)
| OKw (v : bytes)
| ORef (n g : Z)
| OArr (l : list obj)
| ODict (d : list (bytes * obj)).

Definition dict := list (bytes * obj).

(** d[key] and d[key] = v on a Dictionary. *)
Definition dget (k : bytes) (d : dict) : option obj := mget bseq k d.
Definition dset (k : bytes) (v : obj) (d : dict) : dict := mset bseq k v d.

(** pdf/keyword.go:10-12 *)
Definition KEYWORD_NULL : obj := OKw (lit "null").

(** IndirectObject, pdf/object.go:12-17; [istream = None] is a nil Stream. *)
Record iobj := mkiobj {
  inum : Z;
  igen : Z;
  ival : obj;
  istream : option bytes
}.

(** NewIndirectObject, pdf/object.go:19-21 *)
Definition new_iobj (n : Z) : iobj :=
  {| inum := n; igen := 0; ival := KEYWORD_NULL; istream := None |}.

(** Decryptor, pdf/encryption.go:18-20: in-place decryption as a function to
    the new contents; it may panic. *)
Definition decryptor := bytes -> res bytes.

(** DecryptorNone, pdf/encryption.go:29-31 *)
Definition no_decryptor : decryptor := fun d => Ok d.
