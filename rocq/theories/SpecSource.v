(** SpecSource.v -- where the lines of the output files may come from. *)
From Verif Require Import Base Msg Reader ReaderP Num Lexer Obj Env Getters GetObj Output Parse SpecFetch SpecLook SpecTree SpecOut.
From Coq Require Import Strings.String.

Section Doc.
  Variables (E : env) (file : bytes) (p : pst).

  (** The entry is a reference; [s] is the decoded content of the stream it
      leads to, empty if there is none. *)
  Definition stream_of (o : iobj) : bytes := match istream o with Some s => s | None => [] end.
  Definition referred (x : option obj) (s : bytes) : Prop :=
    exists n g o, x = Some (ORef n g) /\ target E file p n o /\ s = stream_of o.
  Definition no_reference (x : option obj) : Prop := forall n g, x <> Some (ORef n g).

  (** the nodes of a name tree *)
  Inductive tree_node : dict -> dict -> Prop :=
  | tn_root : forall d, tree_node d d
  | tn_kid : forall d ks k e n, array_at E file p d "Kids" ks -> In k ks -> node E file p k e -> tree_node e n -> tree_node d n.
  (** a list put together from the Names arrays of nodes of the tree *)
  Definition of_tree (root : dict) (l : list obj) : Prop :=
    exists ls, l = List.concat ls /\ Forall (fun a => exists n, tree_node root n /\ array_at E file p n "Names" a) ls.
  (** In such a list keys and values alternate. *)
  Definition key_in (d : dict) (k : string) (x : obj) : Prop :=
    exists root l i, typed E file p is_dict (entry d (lit k)) root /\ of_tree root l /\ nth_error l (2 * i) = Some x.
  Definition value_in (d : dict) (k : string) (x : obj) : Prop :=
    exists root l i, typed E file p is_dict (entry d (lit k)) root /\ of_tree root l /\ nth_error l (2 * i + 1) = Some x.

  (** ** File specifications *)
  Inductive file_of (a : dict) : dict -> Prop :=
  | fo_f : forall fs, typed E file p is_dict (entry a (lit "F")) fs -> file_of a fs
  | fo_win : forall fs, typed E file p is_dict (entry a (lit "Win")) fs -> file_of a fs.
  Inductive mentioned (d : dict) : dict -> Prop :=
  | mn_action : forall a fs, action_of E file p d a -> file_of a fs -> mentioned d fs
  | mn_attached : forall x fs, value_in d "EmbeddedFiles" x -> typed E file p is_dict (Some x) fs -> mentioned d fs.
  Definition is_url (fs : dict) : Prop := typed E file p is_string (entry fs (lit "FS")) (lit "URL").

  (** ** Lines *)
  Inductive url_of (d : dict) : bytes -> Prop :=
  | uo_uri : forall u, uri_of E file p d u -> url_of d u
  | uo_tree : forall x u, key_in d "URLS" x -> typed E file p is_string (Some x) u -> url_of d u
  | uo_file : forall fs u, mentioned d fs -> is_url fs -> typed E file p is_string (entry fs (lit "F")) u -> url_of d u.

  Inductive command_line (d : dict) : bytes -> Prop :=
  | cl_launch : forall a fs f par, action_of E file p d a -> launch E file p a -> file_of a fs ->
      names_file E file p fs f -> parameters E file p fs par -> command_line d (f ++ lit " " ++ par)
  | cl_parameters : forall fs f par, mentioned d fs -> names_file E file p fs f -> typed E file p is_string (entry fs (lit "P")) par ->
      command_line d (f ++ lit " " ++ par).

  Inductive script_line (d : dict) : bytes -> Prop :=
  | sl_string : forall s, typed E file p is_string (entry d (lit "JS")) s -> script_line d s
  | sl_stream : forall s, untyped E file p is_string (entry d (lit "JS")) -> referred (entry d (lit "JS")) s -> script_line d s.

  (** ** Files *)
  Definition zeros : bytes := lit "00000000000000000000000000000000".
  (** the streams of a list of objects, one after the other *)
  Inductive joined : list obj -> bytes -> Prop :=
  | jn_nil : joined [] []
  | jn_stream : forall x l s t, referred (Some x) s -> joined l t -> joined (x :: l) (s ++ t)
  | jn_other : forall x l t, no_reference (Some x) -> joined l t -> joined (x :: l) t.
  Inductive embedded (d : dict) : bytes -> bytes -> Prop :=
  | em_file : forall fs ef name data, mentioned d fs -> ~ is_url fs -> typed E file p is_dict (entry fs (lit "EF")) ef ->
      typed_or E file p is_string (entry fs (lit "F")) zeros name ->
      referred (entry ef (lit "F")) data \/ (no_reference (entry ef (lit "F")) /\ data = []) -> embedded d name data
  | em_form : forall data, referred (entry d (lit "XFA")) data -> embedded d (lit "form.xml") data
  | em_forms : forall l data, no_reference (entry d (lit "XFA")) -> typed E file p is_array (entry d (lit "XFA")) l -> joined l data ->
      embedded d (lit "form.xml") data.
  (** files outside of the document *)
  Inductive external (d : dict) : bytes -> Prop :=
  | ex_action : forall a f, action_of E file p d a -> typed E file p is_string (entry a (lit "F")) f -> external d f
  | ex_file : forall fs f, mentioned d fs -> names_file E file p fs f -> external d f
  | ex_tree : forall x f, value_in d "EmbeddedFiles" x -> typed E file p is_string (Some x) f -> external d f.

  (** ** Everything that is written about a dictionary *)
  Inductive told (d : dict) : ev -> Prop :=
  | td_url : forall u, url_of d u -> told d (EWrite FURLs (u ++ [x0a]))
  | td_command : forall c, command_line d c -> told d (EWrite FCommands (c ++ [x0a]))
  | td_script : forall s, script_line d s -> told d (EWrite FJavascript (s ++ [x0a]))
  | td_dump_line : forall name data h, embedded d name data -> hexed (e_md5 E data) h -> told d (EWrite FFiles (h ++ lit ":" ++ name ++ [x0a]))
  | td_dump : forall name data h, embedded d name data -> hexed (e_md5 E data) h -> told d (EDump h data)
  | td_external : forall f, external d f -> told d (EWrite FFiles (zeros ++ lit ":" ++ f ++ [x0a]))
  | td_text : forall t, told d (EWrite FText t).

  (** the dictionaries of the document: those in the objects in use *)
  Definition of_document (h : dict) : Prop :=
    exists n o d, in_use p n /\ fetched E file p n o /\ ival o = ODict d /\ holds (ODict d) h.

  (** ** What has to be written *)
  (** the pairs of a key and a value in a finite name tree *)
  Fixpoint flat (prs : list (obj * obj)) : list obj :=
    match prs with [] => [] | (k, x) :: l => k :: x :: flat l end.
  Definition pairs_of (d : dict) (k : string) (prs : list (obj * obj)) : Prop :=
    exists root ns, typed E file p is_dict (entry d (lit k)) root /\ names_below E file p root ns (flat prs) /\ NoDup ns.
  (** the file specifications of a dictionary: of its actions and of its tree
      of embedded files *)
  Inductive attached (d : dict) : dict -> Prop :=
  | at_action : forall a fs, action_of E file p d a -> file_of a fs -> attached d fs
  | at_tree : forall prs k x fs, pairs_of d "EmbeddedFiles" prs -> In (k, x) prs -> typed E file p is_dict (Some x) fs -> attached d fs.
  (** A file specification with an embedded file *)
  Definition carries (fs : dict) (name data : bytes) : Prop :=
    ~ is_url fs /\ exists ef, typed E file p is_dict (entry fs (lit "EF")) ef /\ streamed E file p (entry ef (lit "F")) data /\
      typed_or E file p is_string (entry fs (lit "F")) zeros name.
  (** The XFA entry of a dictionary: a stream, or an array of streams *)
  Inductive form_of (d : dict) : bytes -> Prop :=
  | fm_stream : forall data, referred (entry d (lit "XFA")) data -> form_of d data
  | fm_array : forall l data, entry d (lit "XFA") = Some (OArr l) -> joined l data -> form_of d data.
  (** Files outside of the document *)
  Inductive outside (d : dict) : bytes -> Prop :=
  | os_action : forall a f, action_of E file p d a -> typed E file p is_string (entry a (lit "F")) f -> outside d f
  | os_file : forall fs f, attached d fs -> names_file E file p fs f -> outside d f
  | os_tree : forall prs k x f, pairs_of d "EmbeddedFiles" prs -> In (k, x) prs -> typed E file p is_string (Some x) f -> outside d f.
  (** Addresses in the tree of addresses and in file specifications *)
  Inductive listed_url (d : dict) : bytes -> Prop :=
  | lu_tree : forall prs k x u, pairs_of d "URLS" prs -> In (k, x) prs -> typed E file p is_string (Some k) u -> listed_url d u
  | lu_file : forall fs u, attached d fs -> is_url fs -> typed E file p is_string (entry fs (lit "F")) u -> listed_url d u.
End Doc.

(** ** Reading files.txt *)
(** a line of files.txt: hash and name *)
Definition entry_line (x : bytes * bytes) : bytes := fst x ++ lit ":" ++ snd x ++ [x0a].
Definition one_line (b : bytes) : Prop := ~ In x0a b.
(** what a line of files.txt has to stand for *)
Definition about_file (E : env) (file : bytes) (p : pst) (x : bytes * bytes) : Prop :=
  exists h, of_document E file p h /\
    ((exists data, embedded E file p h (snd x) data /\ hexed (e_md5 E data) (fst x)) \/ (fst x = zeros /\ external E file p h (snd x))).
