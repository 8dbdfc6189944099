(** SpecPages.v -- the text of the pages of a document. *)
From Verif Require Import Base Msg Reader ReaderP Num Lexer Obj Env Getters GetObj Output Parse SpecFetch SpecLook SpecTree SpecOut SpecSource SpecObj SpecText SpecPage.
From Coq Require Import Strings.String.

(** a line of a character map that is about one code *)
Definition single (m : mapping) : Prop := match m with MChar _ _ => True | MRange lo hi v => code lo = code hi /\ v <> [] end.

Section Doc.
  Variables (E : env) (file : bytes) (p : pst).

  (** the dictionary under a key, empty where there is none *)
  Definition dict_at (d : dict) (k : bytes) (e : dict) : Prop := typed_or E file p is_dict (entry d k) [] e.
  (** the stream that the reference under a key leads to, empty where there is none *)
  Definition stream_at (d : dict) (k : bytes) (s : bytes) : Prop :=
    referred E file p (entry d k) s \/ (no_reference (entry d k) /\ s = []).

  (** A font: its ToUnicode map is well-formed and lists single codes. *)
  Definition font_at (fonts : dict) (n : bytes) (v : (Z -> option bytes) * Z) : Prop :=
    exists info c ms, dict_at fonts n info /\ stream_at info (lit "ToUnicode") c /\ cmap_text c ms /\ Forall bounded ms /\ Forall single ms /\
      snd v = width_of ms /\ forall x, mapped (fun m => says m x) ms x (fst v x).
  (** the fonts in a resource dictionary, and in a page's own one *)
  Definition fonts_in (res : dict) (fs : bytes -> option ((Z -> option bytes) * Z)) : Prop :=
    exists fonts, dict_at res (lit "Font") fonts /\
      forall n, (In n (map fst fonts) /\ exists v, fs n = Some v /\ font_at fonts n v) \/ (~ In n (map fst fonts) /\ fs n = None).
  Definition fonts_of (page : dict) (fs : bytes -> option ((Z -> option bytes) * Z)) : Prop :=
    exists res, dict_at page (lit "Resources") res /\ fonts_in res fs.
  (** the resources of a page: its own, or those of the nearest node above that has some *)
  Inductive resources (page : dict) : dict -> Prop :=
  | rs_own : forall res, typed E file p is_dict (entry page (lit "Resources")) res -> resources page res
  | rs_above : forall up res, untyped E file p is_dict (entry page (lit "Resources")) ->
      typed E file p is_dict (entry page (lit "Parent")) up -> resources up res -> resources page res.

  (** the streams that the elements of an array refer to *)
  Inductive streams_in : list obj -> list bytes -> Prop :=
  | si_nil : streams_in [] []
  | si_ref : forall x l s ss, referred E file p (Some x) s -> streams_in l ss -> streams_in (x :: l) (s :: ss)
  | si_other : forall x l ss, no_reference (Some x) -> streams_in l ss -> streams_in (x :: l) ss.
  (** the content streams of a page: a reference to one, or an array *)
  Inductive contents_of (page : dict) : list bytes -> Prop :=
  | ct_stream : forall s, referred E file p (entry page (lit "Contents")) s -> contents_of page [s]
  | ct_array : forall a ss, entry page (lit "Contents") = Some (OArr a) -> streams_in a ss -> contents_of page ss
  | ct_none : no_reference (entry page (lit "Contents")) -> untyped E file p is_array (entry page (lit "Contents")) -> contents_of page [].

  (** the lines of a content stream; in its TJ operators strings and numbers alternate *)
  Definition stream_lines (fs : bytes -> option ((Z -> option bytes) * Z)) (s : bytes) (ls : list bytes) : Prop :=
    exists l cs, tokens s l /\ commands l cs /\ Forall alternating cs /\ text fs all_strings None cs ls.
  (** the lines of a page *)
  Definition page_lines (page : dict) (ls : list bytes) : Prop :=
    exists fs ss lss, fonts_of page fs /\ contents_of page ss /\ Forall2 (stream_lines fs) ss lss /\ ls = List.concat lss.

  (** the pages of a dictionary with a page tree: the root, then each page
      below it where it is met first *)
  Definition pages_of (h : dict) (pages : list dict) : Prop :=
    exists root ks ts, typed E file p is_dict (entry h (lit "Pages")) root /\ array_at E file p root "Kids" ks /\
      unfolded E file p [] ks ts /\ pages = root :: map snd (firsts [] (preorder ts)).
End Doc.

(** ** The font as part of the graphics state *)
Section Graphics.
  Variable fonts : bytes -> option ((Z -> option bytes) * Z).
  (** [graphics tj inside f saved cs ls]: the lines of the operators [cs] with
      the current font [f], also outside of text objects, where q saves it and
      Q restores it. *)
  Inductive graphics (tj : list obj -> bytes) : bool -> (Z -> option bytes) * Z -> list ((Z -> option bytes) * Z) -> list (bytes * list obj) -> list bytes -> Prop :=
  | gr_end : forall i f st, graphics tj i f st [] []
  | gr_begin : forall f st ops cs ls, graphics tj true f st cs ls -> graphics tj false f st ((lit "BT", ops) :: cs) ls
  | gr_finish : forall f st ops cs ls, graphics tj false f st cs ls -> graphics tj true f st ((lit "ET", ops) :: cs) ls
  | gr_font : forall i f st ops cs ls, graphics tj i (font_named fonts (name_of (from_end ops 1))) st cs ls -> graphics tj i f st ((lit "Tf", ops) :: cs) ls
  | gr_save : forall f st ops cs ls, graphics tj false f (f :: st) cs ls -> graphics tj false f st ((lit "q", ops) :: cs) ls
  | gr_restore : forall f g st ops cs ls, graphics tj false g st cs ls -> graphics tj false f (g :: st) ((lit "Q", ops) :: cs) ls
  | gr_line : forall f st k ops t cs ls, line tj f k ops t -> graphics tj true f st cs ls -> graphics tj true f st ((k, ops) :: cs) (t :: ls)
  | gr_silent : forall f st k ops cs ls, silent k -> graphics tj true f st cs ls -> graphics tj true f st ((k, ops) :: cs) ls
  | gr_other : forall f st k ops cs ls, k <> lit "BT" -> k <> lit "Tf" -> k <> lit "q" -> k <> lit "Q" ->
      graphics tj false f st cs ls -> graphics tj false f st ((k, ops) :: cs) ls.
End Graphics.
(** Before text is shown its text object has selected a font. *)
Definition selecting (cs : list (bytes * list obj)) : Prop :=
  forall a k ops b, cs = a ++ (k, ops) :: b -> shows k \/ k = lit "TJ" ->
    exists a1 o a2, a = a1 ++ (lit "Tf", o) :: a2 /\ Forall (fun c => fst c <> lit "BT") a2.

(** ** Streams read as one *)
Definition joint (ss : list bytes) : bytes := List.concat (map (fun s => s ++ [x0a]) ss).
(** complete text objects with anything in between *)
Inductive closed : list (bytes * list obj) -> Prop :=
| cl_nil : closed []
| cl_outside : forall k ops cs, k <> lit "BT" -> closed cs -> closed ((k, ops) :: cs)
| cl_object : forall o body o' cs, Forall (fun c => fst c <> lit "ET") body -> closed cs -> closed ((lit "BT", o) :: body ++ (lit "ET", o') :: cs).
(** a well-formed stream of complete commands and complete text objects *)
Definition whole (s : bytes) : Prop :=
  exists l cs, items s l /\ commands l cs /\ (l = [] \/ exists a k, l = a ++ [OKw k]) /\ closed cs.

(** [w] is written as it is, without anything in between *)
Definition written_out (w : list ev) (ops : list op) : Prop := exists a b, ops = a ++ map OpEv w ++ b.
