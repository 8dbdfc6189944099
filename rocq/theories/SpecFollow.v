(** SpecFollow.v -- following references in a list of objects, and the lists
    for which Parse returns (C92). *)
From Verif Require Import Base Obj SpecFetch SpecOut SpecPage SpecWrite.
From Coq Require Import Strings.String.

Section Follow.
  Variable D : list iobj.
  (** Following the references from object [n] on ends with [o]. *)
  Inductive leads : Z -> iobj -> Prop :=
  | ld_here : forall o, In o D -> (forall m g, ival o <> ORef m g) -> leads (inum o) o
  | ld_next : forall o m g o', In o D -> ival o = ORef m g -> leads m o' -> leads (inum o) o'.
  (** the dictionaries in the objects *)
  Definition within (h : dict) : Prop := exists o, In o D /\ holds (ival o) h.
  (** The kids of a node are listed in the node (C47), and no character map has
      the largest number in it (C45). *)
  Definition direct_kids : Prop := forall h n g, within h -> entry h (lit "Kids") <> Some (ORef n g).
  Definition moderate_maps : Prop := forall h n g o s, within h -> entry h (lit "ToUnicode") = Some (ORef n g) -> leads n o -> istream o = Some s -> moderate s.
End Follow.
