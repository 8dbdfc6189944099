(** SpecOut.v -- what extraction is expected to write. *)
From Verif Require Import Base Msg Reader ReaderP Num Lexer Obj Env Getters GetObj Output Parse SpecFetch SpecLook.
From Coq Require Import Strings.String Sorting.Permutation.

(** ** Names of files *)
Definition fixed_names : list bytes :=
  [lit "commands.txt"; lit "errors.txt"; lit "files.txt"; lit "javascript.js"; lit "raw.pdf"; lit "contents.txt"; lit "urls.txt"].
Definition hash_name (b : bytes) : Prop :=
  List.length b = 32%nat /\ forall c, In c b -> In c (lit "0123456789abcdef").

(** the entry of the output directory that an operation is about; [None] is
    the directory itself *)
Definition touched (o : op) : option bytes :=
  match o with
  | OpRemoveAll | OpMkdirAll => None
  | OpCreate f | OpClose f => Some (ofile_name f)
  | OpEv (EWrite f _) => Some (ofile_name f)
  | OpEv (EDump n _) => Some n
  end.
Definition inside (o : op) : Prop :=
  match touched o with None => True | Some n => In n fixed_names \/ hash_name n end.

(** ** Dumped files *)
(** each byte as two digits, the high one first *)
Definition hexdigit_of (v : Z) (c : byte) : Prop := nth_error (lit "0123456789abcdef") (Z.to_nat v) = Some c.
Inductive hexed : bytes -> bytes -> Prop :=
| hx_nil : hexed [] []
| hx_cons : forall b h l d s, hexdigit_of (bv b / 16) h -> hexdigit_of (bv b mod 16) l -> hexed d s -> hexed (b :: d) (h :: l :: s).

(** Files are written only right behind their line in the manifest, under the
    hash of their content. *)
Inductive manifested (md5 : bytes -> bytes) : list ev -> Prop :=
| mf_nil : manifested md5 []
| mf_write : forall f b w, manifested md5 w -> manifested md5 (EWrite f b :: w)
| mf_dump : forall name data h w, hexed (md5 data) h -> manifested md5 w ->
    manifested md5 (EWrite FFiles (h ++ lit ":" ++ name ++ [x0a]) :: EDump h data :: w).

(** ** Iteration orders: every map is iterated completely *)
Definition order_ok (OD : order) : Prop :=
  (forall st A l, Permutation l (o_map OD st A l)) /\ (forall x, Permutation x (o_objects OD x)) /\ (forall x, Permutation x (o_xref OD x)).

(** ** Objects inside objects *)
(** the dictionary [d] is [o] or is nested in it (not through references) *)
Inductive holds : obj -> dict -> Prop :=
| hd_here : forall d, holds (ODict d) d
| hd_dict : forall k x d e, In (k, x) d -> holds x e -> holds (ODict d) e
| hd_array : forall x l e, In x l -> holds x e -> holds (OArr l) e.

Section Doc.
  Variables (E : env) (file : bytes) (p : pst).

  (** The entry is a reference to a stream with decoded content [s]. *)
  Definition streamed (x : option obj) (s : bytes) : Prop :=
    exists n g o, x = Some (ORef n g) /\ target E file p n o /\ istream o = Some s.

  (** the addresses and scripts of a dictionary *)
  Inductive uri_of (d : dict) : bytes -> Prop :=
  | ur_string : forall u, typed E file p is_string (entry d (lit "URI")) u -> uri_of d u
  | ur_base : forall b u, typed E file p is_dict (entry d (lit "URI")) b -> typed E file p is_string (entry b (lit "Base")) u -> uri_of d u.
  Inductive script_of (d : dict) : bytes -> Prop :=
  | sc_string : forall s, typed E file p is_string (entry d (lit "JS")) s -> script_of d s
  | sc_stream : forall s, untyped E file p is_string (entry d (lit "JS")) -> streamed (entry d (lit "JS")) s -> script_of d s.

  (** ** Actions *)
  (** the actions that a dictionary triggers *)
  Inductive action_of (d : dict) : dict -> Prop :=
  | ac_a : forall a, typed E file p is_dict (entry d (lit "A")) a -> action_of d a
  | ac_open : forall a, typed E file p is_dict (entry d (lit "OpenAction")) a -> action_of d a
  | ac_additional : forall aa k a, typed E file p is_dict (entry d (lit "AA")) aa -> In k (map fst aa) ->
      typed E file p is_dict (entry aa k) a -> action_of d a.
  Definition launch (a : dict) : Prop := typed E file p is_name (entry a (lit "S")) (lit "Launch").

  (** A file specification that names a file outside of the document *)
  Definition names_file (fs : dict) (f : bytes) : Prop :=
    typed E file p is_string (entry fs (lit "F")) f /\
    (forall u, typed E file p is_string (entry fs (lit "FS")) u -> u <> lit "URL") /\
    untyped E file p is_dict (entry fs (lit "EF")).
  (** and the parameters for it *)
  Definition parameters (fs : dict) (a : bytes) : Prop := typed_or E file p is_string (entry fs (lit "P")) [] a.

  (** the command of a launch action *)
  Inductive command_of (a : dict) : bytes -> Prop :=
  | cm_string : forall f, typed E file p is_string (entry a (lit "F")) f -> command_of a f
  | cm_file : forall fs f par, typed E file p is_dict (entry a (lit "F")) fs -> names_file fs f -> parameters fs par ->
      command_of a (f ++ lit " " ++ par)
  | cm_win : forall fs f par, typed E file p is_dict (entry a (lit "Win")) fs -> names_file fs f -> parameters fs par ->
      command_of a (f ++ lit " " ++ par).
  (** those in which the file is not given as a plain string *)
  Inductive command_in_spec (a : dict) : bytes -> Prop :=
  | cs_file : forall fs f par, typed E file p is_dict (entry a (lit "F")) fs -> names_file fs f -> parameters fs par ->
      command_in_spec a (f ++ lit " " ++ par)
  | cs_win : forall fs f par, typed E file p is_dict (entry a (lit "Win")) fs -> names_file fs f -> parameters fs par ->
      command_in_spec a (f ++ lit " " ++ par).
End Doc.

(** ** raw.pdf *)
(** decimal notation *)
Definition digit_of (v : Z) (c : byte) : Prop := 0 <= v < 10 /\ bv c = 48 + v.
Inductive natural : Z -> bytes -> Prop :=
| nt_digit : forall v c, digit_of v c -> natural v [c]
| nt_next : forall v t d c, natural v t -> 0 < v -> digit_of d c -> natural (10 * v + d) (t ++ [c]).
Inductive decimal : Z -> bytes -> Prop :=
| dc_pos : forall v t, natural v t -> decimal v t
| dc_neg : forall v t, natural v t -> 0 < v -> decimal (- v) (lit "-" ++ t).
Section Raw.
  Variable fmt : num -> bytes.
  Fixpoint spaced (l : list bytes) : bytes :=
    match l with [] => [] | [x] => x | x :: l' => x ++ lit " " ++ spaced l' end.
  (** PDF syntax for an object, dictionaries in any order *)
  Inductive written : obj -> bytes -> Prop :=
  | wr_num : forall v, written (ONum v) (fmt v)
  | wr_str : forall v, written (OStr v) (lit "(" ++ v ++ lit ")")
  | wr_name : forall v, written (OName v) (lit "/" ++ v)
  | wr_kw : forall v, written (OKw v) v
  | wr_ref : forall n g tn tg, decimal n tn -> decimal g tg -> written (ORef n g) (tn ++ lit " " ++ tg ++ lit " R")
  | wr_arr : forall l ts, Forall2 written l ts -> written (OArr l) (lit "[" ++ spaced ts ++ lit "]")
  | wr_dict : forall d ts ts', Forall2 (fun kv t => exists t', written (snd kv) t' /\ t = lit "/" ++ fst kv ++ lit " " ++ t') d ts ->
      Permutation ts ts' -> written (ODict d) (lit "<<" ++ List.concat ts' ++ lit ">>").
  Definition stream_text (s : option bytes) : bytes :=
    match s with Some d => lit "stream" ++ [x0a] ++ d ++ [x0a] ++ lit "endstream" ++ [x0a] | None => [] end.
  Definition written_object (o : iobj) (t : bytes) : Prop := exists tn tg v, decimal (inum o) tn /\ decimal (igen o) tg /\ written (ival o) v /\
    t = tn ++ lit " " ++ tg ++ lit " obj" ++ [x0a] ++ v ++ [x0a] ++ stream_text (istream o) ++ lit "endobj" ++ [x0a].
End Raw.

(** the content of an output file after the operations *)
Definition appended (f : ofile) (o : op) : bytes :=
  match o with OpEv (EWrite g b) => if ofile_eqb f g then b else [] | _ => [] end.
Definition content (f : ofile) (ops : list op) : bytes := List.concat (map (appended f) ops).

(** what an open output file receives: the in-use objects, each once *)
Definition in_use (p : pst) (n : Z) : Prop := exists e, xget n (pxref p) = Some e /\ x_type e = 1.
Definition raw_of (E : env) (file : bytes) (p : pst) (raw : bytes) : Prop :=
  exists (objs : list (Z * iobj)) ts,
    NoDup (map fst objs) /\ (forall n, In n (map fst objs) <-> in_use p n) /\
    Forall (fun no => inum (snd no) = fst no /\ exists q, kept file p q /\ fetched E file q (fst no) (snd no)) objs /\
    Forall2 (fun no t => written_object (e_fmt E) (snd no) t) objs ts /\
    raw = List.concat (map (fun t => t ++ [x0a]) ts).
