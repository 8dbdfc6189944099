(** SpecTotal.v -- what a document must be like for Parse to return (C89). *)
From Verif Require Import Base Msg Reader ReaderP Num Lexer Obj Env Getters GetObj Output Parse SpecFetch SpecLook SpecTree SpecOut SpecSource SpecObj SpecText SpecPage SpecPages SpecContents.
From Coq Require Import Strings.String.

Section Doc.
  Variables (E : env) (file : bytes) (p : pst).

  (** the character maps of the fonts of the pages *)
  Inductive font_map : bytes -> Prop :=
  | fm_page : forall h page res fonts k info c, of_document E file p h -> page_under E file p h page ->
      dict_at E file p page (lit "Resources") res -> dict_at E file p res (lit "Font") fonts -> dict_at E file p fonts k info ->
      referred E file p (entry info (lit "ToUnicode")) c -> font_map c.
  (** loading them ends (C45) *)
  Definition maps_end : Prop := forall c, font_map c -> moderate c.
  (** going through the name trees of the document ends (C47) *)
  Definition names_end : Prop := exists good, kids_sane E file p good /\
    forall h k root, of_document E file p h -> k = "EmbeddedFiles"%string \/ k = "URLS"%string -> typed E file p is_dict (entry h (lit k)) root -> good root.
End Doc.
