(** SpecList.v -- a document as a list of objects, and what the output files
    have to hold for it (C100).  These are functions of the list alone: nothing
    is read from a file here. *)
From Verif Require Import Base Num Obj Env SpecFetch SpecTree SpecSource SpecText SpecPages SpecWrite SpecUpdate SpecCryptDoc SpecSeal SpecExact SpecXWrite SpecXSeal SpecXUpdate SpecUSeal SpecXUSeal SpecWrong SpecLinear.
From Coq Require Import Strings.String.

Section Doc.
  Variable D : list iobj.

  (** ** References *)
  Definition null_object (n : Z) : iobj := {| inum := n; igen := 0; ival := OKw (lit "null"); istream := None |}.
  Definition object (n : Z) : iobj := match find (fun o => inum o =? n) D with Some o => o | None => null_object n end.
  (** Following references from the number [n] on, with the numbers [seen]
      behind: a number that is met again stands for null. *)
  Inductive follows (seen : list Z) (n : Z) : iobj -> Prop :=
  | fl_circle : In n seen -> follows seen n (null_object n)
  | fl_value : ~ In n seen -> (forall m g, ival (object n) <> ORef m g) -> follows seen n (object n)
  | fl_next : forall m g o, ~ In n seen -> ival (object n) = ORef m g -> follows (n :: seen) m o -> follows seen n o.
  (** The same as a function; the case [O] is not met if [k] is the number of
      objects (C100_followed). *)
  Fixpoint follow (k : nat) (seen : list Z) (n : Z) : iobj :=
    if in_dec Z.eq_dec n seen then null_object n
    else match ival (object n), k with
         | ORef m _, S k' => follow k' (n :: seen) m
         | ORef m _, O => null_object n
         | _, _ => object n
         end.
  Definition followed (n : Z) : iobj := follow (List.length D) [] n.

  (** ** Entries *)
  (** what an entry stands for *)
  Definition stands (x : option obj) : option obj := match x with Some (ORef n _) => Some (ival (followed n)) | _ => x end.
  Definition dict_in (x : option obj) : option dict := match stands x with Some (ODict d) => Some d | _ => None end.
  Definition text_in (x : option obj) : option bytes := match stands x with Some (OStr s) => Some s | _ => None end.
  Definition array_in (x : option obj) : list obj := match stands x with Some (OArr a) => a | _ => [] end.
  Definition from_dict {B} (f : dict -> list B) (x : option obj) : list B := match dict_in x with Some d => f d | None => [] end.
  Definition from_text {B} (f : bytes -> list B) (x : option obj) : list B := match text_in x with Some s => f s | None => [] end.
  Definition dict_or (x : option obj) : dict := match dict_in x with Some d => d | None => [] end.
  (** the data of the stream that a reference leads to *)
  Definition data_in (x : option obj) : option bytes :=
    match x with Some (ORef n _) => Some (match istream (followed n) with Some s => s | None => [] end) | _ => None end.
  Definition data_or (x : option obj) : bytes := match data_in x with Some s => s | None => [] end.

  (** ** Name trees of at most [k] levels *)
  (** the references in the tree and its names *)
  Fixpoint tree (k : nat) (d : dict) : option (list Z * list obj) :=
    match k with
    | O => None
    | S k' =>
        let fix kids (ks : list obj) : option (list Z * list obj) :=
          match ks with
          | [] => Some ([], [])
          | x :: ks' =>
              match tree k' (dict_or (Some x)), kids ks' with
              | Some (n1, l1), Some (n2, l2) => Some (match x with ORef n _ => [n] | _ => [] end ++ n1 ++ n2, l1 ++ l2)
              | _, _ => None
              end
          end in
        match kids (array_in (entry d (lit "Kids"))) with
        | Some (ns, l) => Some (ns, array_in (entry d (lit "Names")) ++ l)
        | None => None
        end
    end.
  Fixpoint distinct (l : list Z) : bool := match l with [] => true | n :: l' => negb (existsb (Z.eqb n) l') && distinct l' end.
  Fixpoint paired (l : list obj) : option (list (obj * obj)) :=
    match l with
    | [] => Some []
    | [_] => None
    | k :: x :: l' => match paired l' with Some prs => Some ((k, x) :: prs) | None => None end
    end.
  (** the pairs of a finite name tree, if it is one *)
  Definition pairs (k : nat) (d : dict) (key : string) : option (list (obj * obj)) :=
    match dict_in (entry d (lit key)) with
    | None => Some []
    | Some root => match tree k root with Some (ns, l) => if distinct ns then paired l else None | None => None end
    end.

  (** ** Actions *)
  Definition from_actions {B} (f : dict -> list B) (d : dict) : list B :=
    from_dict f (entry d (lit "A")) ++ from_dict f (entry d (lit "OpenAction")) ++
    from_dict (fun aa => flat_map (fun k => from_dict f (entry aa k)) (map fst aa)) (entry d (lit "AA")).

  (** ** Scripts *)
  Definition l_scripts (d : dict) : list bytes :=
    match text_in (entry d (lit "JS")), data_in (entry d (lit "JS")) with
    | Some s, _ => [s]
    | None, Some s => [s]
    | None, None => []
    end.

  (** ** Addresses *)
  Definition address (fs : dict) : bool :=
    match text_in (entry fs (lit "FS")) with Some u => if list_eq_dec Byte.byte_eq_dec u (lit "URL") then true else false | None => false end.
  Definition alone {A} (a : A) : list A := [a].
  Definition l_file_urls (fs : dict) : list bytes := if address fs then from_text alone (entry fs (lit "F")) else [].
  Definition l_action_urls (a : dict) : list bytes := from_dict l_file_urls (entry a (lit "F")) ++ from_dict l_file_urls (entry a (lit "Win")).
  Definition l_uri (d : dict) : list bytes :=
    match stands (entry d (lit "URI")) with
    | Some (OStr u) => [u]
    | Some (ODict b) => from_text alone (entry b (lit "Base"))
    | _ => []
    end.
  Definition l_urls (k : nat) (d : dict) : option (list bytes) :=
    match pairs k d "EmbeddedFiles", pairs k d "URLS" with
    | Some fs, Some us => Some (from_actions l_action_urls d ++ flat_map (fun kx => from_dict l_file_urls (Some (snd kx))) fs ++
        l_uri d ++ flat_map (fun kx => from_text alone (Some (fst kx))) us)
    | _, _ => None
    end.

  (** ** Files *)
  Definition l_file_items (fs : dict) : list item :=
    if address fs then []
    else match dict_in (entry fs (lit "EF")) with
         | Some ef => [Inside (match text_in (entry fs (lit "F")) with Some s => s | None => zeros end) (data_or (entry ef (lit "F")))]
         | None => from_text (fun f => [Outside f]) (entry fs (lit "F"))
         end.
  Definition l_spec_items (x : option obj) : list item := from_text (fun f => [Outside f]) x ++ from_dict l_file_items x.
  Definition l_action_items (a : dict) : list item := l_spec_items (entry a (lit "F")) ++ from_dict l_file_items (entry a (lit "Win")).
  Definition l_form (d : dict) : list item :=
    match entry d (lit "XFA") with
    | Some (ORef n g) => [Inside (lit "form.xml") (data_or (Some (ORef n g)))]
    | Some (OArr a) => [Inside (lit "form.xml") (flat_map (fun x => data_or (Some x)) a)]
    | _ => []
    end.
  Definition l_items (k : nat) (d : dict) : option (list item) :=
    match pairs k d "EmbeddedFiles" with
    | Some fs => Some (from_actions l_action_items d ++ l_form d ++ flat_map (fun kx => l_spec_items (Some (snd kx))) fs)
    | None => None
    end.

  (** ** Text *)
  (** page trees, unfolded to at most [k] levels *)
  Fixpoint page_tree (k : nat) (path : list Z) (ks : list obj) : option (list ptree) :=
    match k with
    | O => None
    | S k' =>
        (fix kids (ks : list obj) : option (list ptree) :=
          match ks with
          | [] => Some []
          | ORef n _ :: ks' =>
              match ival (followed n) with
              | ODict d =>
                  if in_dec Z.eq_dec n path then kids ks'
                  else match page_tree k' (n :: path) (array_in (entry d (lit "Kids"))), kids ks' with
                       | Some sub, Some ts => Some (PT n d sub :: ts)
                       | _, _ => None
                       end
              | _ => kids ks'
              end
          | _ :: ks' => kids ks'
          end) ks
    end.
  Definition l_pages (k : nat) (d : dict) : option (list dict) :=
    match dict_in (entry d (lit "Pages")) with
    | None => Some []
    | Some root => match page_tree k [] (array_in (entry root (lit "Kids"))) with
                   | Some ts => Some (root :: map snd (firsts [] (preorder ts)))
                   | None => None
                   end
    end.
  Definition l_contents (page : dict) : list bytes :=
    match entry page (lit "Contents") with
    | Some (ORef n g) => [data_or (Some (ORef n g))]
    | Some (OArr a) => flat_map (fun x => match data_in (Some x) with Some s => [s] | None => [] end) a
    | _ => []
    end.
  (** a font whose ToUnicode map is well-formed and lists single codes *)
  Definition l_font (info : dict) (v : (Z -> option bytes) * Z) : Prop :=
    exists ms, cmap_text (data_or (entry info (lit "ToUnicode"))) ms /\ Forall bounded ms /\ Forall single ms /\
      snd v = width_of ms /\ forall x, mapped (fun m => says m x) ms x (fst v x).
  Definition l_fonts (page : dict) (fs : bytes -> option ((Z -> option bytes) * Z)) : Prop :=
    let fonts := dict_or (entry (dict_or (entry page (lit "Resources"))) (lit "Font")) in
    forall n, (In n (map fst fonts) /\ exists v, fs n = Some v /\ l_font (dict_or (entry fonts n)) v) \/ (~ In n (map fst fonts) /\ fs n = None).
  Definition l_page_lines (page : dict) (ls : list bytes) : Prop :=
    exists fs lss, l_fonts page fs /\ Forall2 (stream_lines fs) (l_contents page) lss /\ ls = List.concat lss.
  Definition l_texts (k : nat) (d : dict) (ls : list bytes) : Prop :=
    exists pages lss, l_pages k d = Some pages /\ Forall2 l_page_lines pages lss /\ ls = List.concat lss.

  (** ** The whole document *)
  Definition l_dicts : list dict := flat_map (fun o => match ival o with ODict d => nested (ODict d) | _ => [] end) D.
  Fixpoint gathered {A B} (f : A -> option (list B)) (l : list A) : option (list B) :=
    match l with
    | [] => Some []
    | a :: l' => match f a, gathered f l' with Some x, Some y => Some (x ++ y) | _, _ => None end
    end.
End Doc.
Definition doc_scripts (D : list iobj) : list bytes := flat_map (l_scripts D) (l_dicts D).
Definition doc_urls (k : nat) (D : list iobj) : option (list bytes) := gathered (l_urls D k) (l_dicts D).
Definition doc_items (k : nat) (D : list iobj) : option (list item) := gathered (l_items D k) (l_dicts D).

(** ** Files with a list of objects in them *)
(** [stored E file pw D]: written (C90), written with updates (C95), written
    encrypted with the user password [pw], without updates (C97) or with them
    (C112), or written with a cross-reference stream, which is one of the
    objects, in clear (C101), encrypted (C109), with updates (C111) or both
    (C113), or written in clear with offsets that are wrong but do not mislead
    (C114), with quiet bytes in front and behind (C115), or linearized (C118). *)
Inductive stored (E : env) : bytes -> bytes -> list iobj -> Prop :=
| st_written : forall D tr pw, good_document D tr -> stored E (w_document D tr) pw (map as_written D)
| st_updated : forall rs pw, good_updates rs -> stored E (w_updated rs) pw (map as_written (living rs))
| st_sealed : forall D C tr pr pw, (forall x, List.length (e_md5 E x) = 16%nat) -> sealed_document E D C tr pr pw -> stored E (w_document C tr) pw D
| st_xref : forall D xs d data pw, good_xdocument E D xs d data -> stored E (w_xdocument D xs) pw (map as_written D ++ [x_read xs data])
| st_xsealed : forall D C xs d data pr pw, (forall x, List.length (e_md5 E x) = 16%nat) -> sealed_xdocument E D C xs d data pr pw -> stored E (w_xdocument C xs) pw (D ++ [x_read xs data])
| st_xupdated : forall rs pw, good_xupdates E rs -> stored E (w_xupdated rs) pw (xliving rs)
| st_usealed : forall rs cs pr pw, (forall x, List.length (e_md5 E x) = 16%nat) -> sealed_updates E rs cs pr pw -> stored E (w_updated cs) pw (living rs)
| st_xusealed : forall Ds cs pr pw, (forall x, List.length (e_md5 E x) = 16%nat) -> sealed_xupdates E Ds cs pr pw -> stored E (w_xupdated cs) pw (living (clear_updates Ds cs))
| st_wrong : forall front D l tr off back pw, wrong_document front D l tr off back -> stored E (w_wrong front D l tr off back) pw (map as_written D)
| st_linear : forall x pw, good_linear x -> stored E (w_linear x) pw (map as_written (ln_objects x)).
