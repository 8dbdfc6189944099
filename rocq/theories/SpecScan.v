(** SpecScan.v -- what Load looks for in the raw bytes of a file: object
    markers, the keyword xref, and startxref at the end. *)
From Verif Require Import Base Reader Num Obj Env SpecLex SpecObj SpecStream SpecFetch.
From Coq Require Import Strings.String.

(** White space and comments; a comment may be cut short, as nothing says
    where it ends. *)
Inductive sep : bytes -> Prop :=
| sep_ws : forall b, ws_byte b -> sep [b]
| sep_comment : forall c, (forall b, In b c -> ~ eol_byte b) -> sep ("%"%byte :: c)
| sep_app : forall s t, sep s -> sep t -> sep (s ++ t).
(** the text [n g obj] *)
Inductive obj_marker : bytes -> Prop :=
| om_intro : forall a n s b g s', nat_text a n -> sep s -> nat_text b g -> sep s' -> obj_marker (a ++ s ++ b ++ s' ++ lit "obj").

(** A text of the kind [P] starts at [i]. *)
Definition starts (P : bytes -> Prop) (file : bytes) (i : Z) : Prop :=
  0 <= i <= zlen file /\ exists t r, zdrop i file = t ++ r /\ P t.
(** [(i, j)]: such a text lies from [i] to [j]. *)
Definition spans (P : bytes -> Prop) (file : bytes) (i j : Z) : Prop :=
  0 <= i <= zlen file /\ exists t r, zdrop i file = t ++ r /\ P t /\ j = i + zlen t.
(** All such texts from [off] on, from left to right, each search continuing
    behind the text found. *)
Inductive scan (P : bytes -> Prop) (file : bytes) : Z -> list (Z * Z) -> Prop :=
| scan_end : forall off, (forall i, off <= i -> ~ starts P file i) -> scan P file off []
| scan_next : forall off i j l, off <= i -> spans P file i j -> (forall i', off <= i' < i -> ~ starts P file i') ->
    scan P file j l -> scan P file off ((i, j) :: l).

(** The digits at [i], as many as there are, denote [n]. *)
Definition number_at (file : bytes) (i n : Z) : Prop :=
  exists t r, zdrop i file = t ++ r /\ nat_text t n /\ forall b r' d, r = b :: r' -> ~ decdigit b d.

(** What is recorded for the marker at [i]: its number, as an int, and an entry
    with the position, the generation and whether the dictionary behind it is
    that of a cross-reference stream.  The first two bytes of the dictionary
    must not be separated by the end of a 4096 byte chunk (C36). *)
Record marker_entry (file : bytes) (i n : Z) (e : xentry) : Prop := {
  me_num : exists k, number_at file i k /\ n = wrap64 k;
  me_off : x_off e = i;
  me_type : x_type e = 1;
  me_enc : x_enc e = negb (x_stm e);
  me_gen : forall h k g r, zdrop i file = h ++ r -> object_head h k g -> ends_token r -> x_gen e = wrap64 g;
  me_stm : forall h k g g1 t d r, zdrop i file = h ++ g1 ++ t ++ r -> object_head h k g -> gap g1 -> obj_text t (ODict d) ->
    zlen (h ++ g1) mod bufsize <> bufsize - 1 -> (x_stm e = true <-> entry d (lit "Type") = Some (OName (lit "XRef")));
  me_plain : forall h k g g1 b r, zdrop i file = h ++ g1 ++ b :: r -> object_head h k g -> gap g1 -> ends_token (g1 ++ b :: r) ->
    ~ ws_byte b -> b <> "%"%byte -> (forall r', b :: r <> "<"%byte :: "<"%byte :: r') -> x_stm e = false
}.
(** The entry in [objs] is that of the last marker in [l] for its number. *)
Definition records (file : bytes) (l : list (Z * Z)) (objs : xmap) : Prop :=
  forall n, match xget n objs with
  | Some e => exists l1 i j l2, l = l1 ++ (i, j) :: l2 /\ marker_entry file i n e /\
      forall i' j' k, In (i', j') l2 -> number_at file i' k -> wrap64 k <> n
  | None => forall i j k, In (i, j) l -> number_at file i k -> wrap64 k <> n
  end.

(** white space in Go's regular expressions: no NUL *)
Definition re_ws (b : byte) : Prop := In b [x09; x0a; x0c; x0d; x20].
Inductive start_text : bytes -> Z -> Prop :=
| st_intro : forall w1 d n w2, (forall b, In b w1 -> re_ws b) -> nat_text d n -> (forall b, In b w2 -> re_ws b) ->
    start_text (lit "startxref" ++ w1 ++ d ++ w2 ++ lit "%%EOF") n.
(** the last 256 bytes, or all *)
Definition last256 (file : bytes) : bytes := skipn (List.length file - 256) file.
(** [n] stands in the last of these texts. *)
Definition last_start (t : bytes) (n : Z) : Prop :=
  exists a m b, t = a ++ m ++ b /\ start_text m n /\
    forall a' m' b' n', t = a' ++ m' ++ b' -> start_text m' n' -> (List.length a' <= List.length a)%nat.

(** ** The repair step.  [objs] is what the scan found, [x] the table before
    the repair, [x'] the table behind it. *)
Definition same_apart_from_offset (e e' : xentry) : Prop :=
  x_gen e' = x_gen e /\ x_type e' = x_type e /\ x_enc e' = x_enc e /\ x_stm e' = x_stm e.
Definition completed (objs x x' : xmap) : Prop := forall n,
  match xget n objs, xget n x with
  | None, a => xget n x' = a
  | Some s, None => xget n x' = Some s
  | Some s, Some e => exists e', xget n x' = Some e' /\ same_apart_from_offset e e' /\ (x_off e' = x_off e \/ x_off e' = x_off s)
  end.
(** A number, read as an int, follows at [off] after white space and comments. *)
Definition int_at (file : bytes) (off n : Z) : Prop :=
  exists g t k r, zdrop off file = g ++ t ++ r /\ gap g /\ nat_text t k /\ (forall b r' d, r = b :: r' -> ~ decdigit b d) /\ n = wrap64 k.
(** The header of object [n] is at [off]. *)
Definition head_at (file : bytes) (off n : Z) : Prop :=
  exists h k g r, zdrop off file = h ++ r /\ object_head h k g /\ ends_token r /\ n = wrap64 k.
(** What a reader takes for the number at [off]: 0 where there is none. *)
Definition taken_for (file : bytes) (off n : Z) : Prop := int_at file off n \/ (n = 0 /\ forall m, ~ int_at file off m).
(** What the repair does to the entries that both the tables and the search have:
    it gives them the offset found by searching if there is a complete header
    (of any object) or another number at the one they had. *)
Definition repaired (file : bytes) (objs x x' : xmap) : Prop := forall n s e, xget n objs = Some s -> xget n x = Some e -> 0 <= x_off e ->
  ((exists m, head_at file (x_off e) m) \/ ~ taken_for file (x_off e) n -> xget n x' = Some (mkxe (x_off s) (x_gen e) (x_type e) (x_enc e) (x_stm e))) /\
  (~ (exists m, head_at file (x_off e) m) -> taken_for file (x_off e) n -> xget n x' = Some e).
