(** SpecContents.v -- where the text in contents.txt may come from. *)
From Verif Require Import Base Msg Reader ReaderP Num Lexer Obj Env Getters GetObj Output Parse SpecFetch SpecLook SpecTree SpecOut SpecSource SpecObj SpecText SpecPage SpecPages.
From Coq Require Import Strings.String.

Section Doc.
  Variables (E : env) (file : bytes) (p : pst).

  (** a page of the page tree of a dictionary: the root or what is below it *)
  Inductive page_under (h : dict) : dict -> Prop :=
  | pu_root : forall root, typed E file p is_dict (entry h (lit "Pages")) root -> page_under h root
  | pu_below : forall root ks n d, typed E file p is_dict (entry h (lit "Pages")) root -> array_at E file p root "Kids" ks -> reachable E file p ks n d -> page_under h d.
  (** a content stream of a page *)
  Inductive content_stream (page : dict) : bytes -> Prop :=
  | cn_stream : forall s, referred E file p (entry page (lit "Contents")) s -> content_stream page s
  | cn_array : forall a x s, entry page (lit "Contents") = Some (OArr a) -> In x a -> referred E file p (Some x) s -> content_stream page s.
  (** Text of a dictionary with a page tree: if the fonts of the page and the
      content stream it is from are well-formed, a line that is shown there. *)
  Definition text_of (h : dict) (t : bytes) : Prop :=
    exists page s, page_under h page /\ content_stream page s /\
      forall fs ls, fonts_of E file p page fs -> stream_lines fs s ls -> In t ls.
End Doc.
