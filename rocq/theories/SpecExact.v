(** SpecExact.v -- all that the output files have to hold, counted (C99). *)
From Verif Require Import Base Msg Reader ReaderP Num Lexer Obj Env Getters GetObj Output Parse SpecFetch SpecLook SpecTree SpecOut SpecSource SpecText SpecPage SpecPages.
From Coq Require Import Strings.String Sorting.Permutation.

(** an object's dictionaries, itself and nested ones, each as often as it
    occurs (not through references) *)
Fixpoint nested (o : obj) : list dict :=
  match o with
  | OArr l => flat_map nested l
  | ODict d => d :: flat_map (fun kv => nested (snd kv)) d
  | _ => []
  end.
(** the dictionaries of the objects that are dictionaries *)
Definition dictionaries (objs : list (Z * iobj)) : list dict :=
  flat_map (fun no => match ival (snd no) with ODict d => nested (ODict d) | _ => [] end) objs.
(** one line for each string *)
Definition in_lines (ls : list bytes) : bytes := List.concat (map (fun t => t ++ [x0a]) ls).

(** a file in the document or outside of it *)
Inductive item := Inside (name data : bytes) | Outside (name : bytes).
(** the line in files.txt *)
Inductive item_line (md5 : bytes -> bytes) : item -> bytes -> Prop :=
| il_inside : forall name data h, hexed (md5 data) h -> item_line md5 (Inside name data) (h ++ lit ":" ++ name ++ [x0a])
| il_outside : forall name, item_line md5 (Outside name) (zeros ++ lit ":" ++ name ++ [x0a]).
(** the files that are dumped *)
Fixpoint dumps (ops : list op) : list (bytes * bytes) :=
  match ops with
  | [] => []
  | OpEv (EDump n d) :: ops' => (n, d) :: dumps ops'
  | _ :: ops' => dumps ops'
  end.
Definition insides (l : list item) : list bytes := flat_map (fun i => match i with Inside _ data => [data] | Outside _ => [] end) l.

Section Doc.
  Variables (E : env) (file : bytes) (p : pst).

  (** the objects in use, each once *)
  Definition all_objects (objs : list (Z * iobj)) : Prop :=
    NoDup (map fst objs) /\ (forall n, In n (map fst objs) <-> in_use p n) /\ Forall (fun no => fetched E file p (fst no) (snd no)) objs.

  (** what [R] says about the thing of a kind that an entry stands for; nothing
      if it stands for no such thing *)
  Inductive of_entry {A B} (is : obj -> A -> Prop) (R : A -> list B -> Prop) (x : option obj) : list B -> Prop :=
  | oe_some : forall a l, typed E file p is x a -> R a l -> of_entry is R x l
  | oe_none : untyped E file p is x -> of_entry is R x [].
  (** what [R] says about each element, one after the other *)
  Definition of_each {A B} (R : A -> list B -> Prop) (l : list A) (r : list B) : Prop := exists ls, Forall2 R l ls /\ r = List.concat ls.
  (** what [R] says about the pairs of a finite name tree *)
  Inductive of_names {B} (R : obj * obj -> list B -> Prop) (d : dict) (k : string) : list B -> Prop :=
  | on_tree : forall prs l, pairs_of E file p d k prs -> of_each R prs l -> of_names R d k l
  | on_none : untyped E file p is_dict (entry d (lit k)) -> of_names R d k [].
  (** what [R] says about the actions of a dictionary *)
  Definition of_actions {B} (R : dict -> list B -> Prop) (d : dict) (l : list B) : Prop := exists l1 l2 l3,
    of_entry is_dict R (entry d (lit "A")) l1 /\ of_entry is_dict R (entry d (lit "OpenAction")) l2 /\
    of_entry is_dict (fun aa => of_each (fun k => of_entry is_dict R (entry aa k)) (map fst aa)) (entry d (lit "AA")) l3 /\ l = l1 ++ l2 ++ l3.
  Definition one {A} (a : A) (l : list A) : Prop := l = [a].

  (** ** scripts *)
  Inductive scripts (d : dict) : list bytes -> Prop :=
  | ss_some : forall s, script_line E file p d s -> scripts d [s]
  | ss_none : untyped E file p is_string (entry d (lit "JS")) -> no_reference (entry d (lit "JS")) -> scripts d [].

  (** ** addresses *)
  Inductive file_urls (fs : dict) : list bytes -> Prop :=
  | fu_url : forall l, is_url E file p fs -> of_entry is_string one (entry fs (lit "F")) l -> file_urls fs l
  | fu_none : ~ is_url E file p fs -> file_urls fs [].
  Definition action_urls (a : dict) (l : list bytes) : Prop := exists l1 l2,
    of_entry is_dict file_urls (entry a (lit "F")) l1 /\ of_entry is_dict file_urls (entry a (lit "Win")) l2 /\ l = l1 ++ l2.
  Inductive uri (d : dict) : list bytes -> Prop :=
  | ui_some : forall u, uri_of E file p d u -> uri d [u]
  | ui_none : (forall u, ~ uri_of E file p d u) -> uri d [].
  Definition urls (d : dict) (l : list bytes) : Prop := exists l1 l2 l3 l4,
    of_actions action_urls d l1 /\ of_names (fun kx => of_entry is_dict file_urls (Some (snd kx))) d "EmbeddedFiles" l2 /\
    uri d l3 /\ of_names (fun kx => of_entry is_string one (Some (fst kx))) d "URLS" l4 /\ l = l1 ++ l2 ++ l3 ++ l4.

  (** ** text *)
  Inductive texts (d : dict) : list bytes -> Prop :=
  | tx_pages : forall pages lss, pages_of E file p d pages -> Forall2 (page_lines E file p) pages lss -> texts d (List.concat lss)
  | tx_none : untyped E file p is_dict (entry d (lit "Pages")) -> texts d [].

  (** ** files *)
  Inductive file_items (fs : dict) : list item -> Prop :=
  | fi_url : is_url E file p fs -> file_items fs []
  | fi_inside : forall ef name data, ~ is_url E file p fs -> typed E file p is_dict (entry fs (lit "EF")) ef ->
      typed_or E file p is_string (entry fs (lit "F")) zeros name -> stream_at E file p ef (lit "F") data -> file_items fs [Inside name data]
  | fi_outside : forall f, names_file E file p fs f -> file_items fs [Outside f]
  | fi_none : ~ is_url E file p fs -> untyped E file p is_dict (entry fs (lit "EF")) -> untyped E file p is_string (entry fs (lit "F")) -> file_items fs [].
  (** a file specification may be a mere string *)
  Definition spec_items (x : option obj) (l : list item) : Prop := exists l1 l2,
    of_entry is_string (fun f => one (Outside f)) x l1 /\ of_entry is_dict file_items x l2 /\ l = l1 ++ l2.
  Definition action_items (a : dict) (l : list item) : Prop := exists l1 l2,
    spec_items (entry a (lit "F")) l1 /\ of_entry is_dict file_items (entry a (lit "Win")) l2 /\ l = l1 ++ l2.
  Inductive form_items (d : dict) : list item -> Prop :=
  | fm_stream : forall data, referred E file p (entry d (lit "XFA")) data -> form_items d [Inside (lit "form.xml") data]
  | fm_array : forall a data, no_reference (entry d (lit "XFA")) -> typed E file p is_array (entry d (lit "XFA")) a -> joined E file p a data -> form_items d [Inside (lit "form.xml") data]
  | fm_none : no_reference (entry d (lit "XFA")) -> untyped E file p is_array (entry d (lit "XFA")) -> form_items d [].
  Definition items_of (d : dict) (l : list item) : Prop := exists l1 l2 l3,
    of_actions action_items d l1 /\ form_items d l2 /\ of_names (fun kx => spec_items (Some (snd kx))) d "EmbeddedFiles" l3 /\ l = l1 ++ l2 ++ l3.
End Doc.
