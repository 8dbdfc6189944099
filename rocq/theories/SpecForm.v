(** SpecForm.v -- text in form XObjects (PDF 32000-1, 8.10) and beside inline
    images (8.9.7). *)
From Verif Require Import Base Msg Reader ReaderP Num Lexer Obj Env Getters GetObj Output Parse SpecFetch SpecLook SpecTree SpecOut SpecSource SpecLex SpecObj SpecText SpecPage SpecPages.
From Coq Require Import Strings.String.

(** ** Forms *)
Section Doc.
  Variables (E : env) (file : bytes) (p : pst).
  (** the form with the name [n] in a resource dictionary: its dictionary and its stream *)
  Definition form_at (res : dict) (n : bytes) (fd : dict) (s : bytes) : Prop :=
    exists xs k g o, dict_at E file p res (lit "XObject") xs /\ entry xs n = Some (ORef k g) /\ target E file p k o /\
      ival o = ODict fd /\ istream o = Some s /\ entry fd (lit "Subtype") = Some (OName (lit "Form")).
  (** As [text]; the operator Do with the name of a form stands for the text of
      the form, which has resources of its own.  [ok] restricts the text of forms. *)
  Inductive painted (ok : list bytes -> Prop) : dict -> (bytes -> option ((Z -> option bytes) * Z)) -> option ((Z -> option bytes) * Z) -> list (bytes * list obj) -> list bytes -> Prop :=
  | pt_end : forall res fs f, painted ok res fs f [] []
  | pt_begin : forall res fs ops cs ls, painted ok res fs (Some plain_font) cs ls -> painted ok res fs None ((lit "BT", ops) :: cs) ls
  | pt_form : forall res fs ops cs ls fd s res' fs' l cs' ls', form_at res (name_of (from_end ops 0)) fd s -> dict_at E file p fd (lit "Resources") res' ->
      fonts_in E file p res' fs' -> tokens s l -> commands l cs' -> painted ok res' fs' None cs' ls' -> ok ls' -> painted ok res fs None cs ls ->
      painted ok res fs None ((lit "Do", ops) :: cs) (ls' ++ ls)
  | pt_outside : forall res fs k ops cs ls, k <> lit "BT" -> (k = lit "Do" -> forall fd s, ~ form_at res (name_of (from_end ops 0)) fd s) ->
      painted ok res fs None cs ls -> painted ok res fs None ((k, ops) :: cs) ls
  | pt_finish : forall res fs f ops cs ls, painted ok res fs None cs ls -> painted ok res fs (Some f) ((lit "ET", ops) :: cs) ls
  | pt_font : forall res fs f ops cs ls, painted ok res fs (Some (font_named fs (name_of (from_end ops 1)))) cs ls -> painted ok res fs (Some f) ((lit "Tf", ops) :: cs) ls
  | pt_line : forall res fs f k ops t cs ls, line all_strings f k ops t -> painted ok res fs (Some f) cs ls -> painted ok res fs (Some f) ((k, ops) :: cs) (t :: ls)
  | pt_silent : forall res fs f k ops cs ls, silent k -> painted ok res fs (Some f) cs ls -> painted ok res fs (Some f) ((k, ops) :: cs) ls.
End Doc.

(** ** Inline images *)
(** An image: BI, the entries of its dictionary, ID, a white-space byte, the
    data, EI. *)
Definition image (d : bytes) (w : byte) (data : bytes) : bytes := lit "BI" ++ x20 :: d ++ x0a :: lit "ID" ++ w :: data ++ x0a :: lit "EI".
(** A content stream and its lines; images are not text, whatever their data.
    [ok] restricts the data. *)
Inductive shown (ok : bytes -> Prop) (fs : bytes -> option ((Z -> option bytes) * Z)) : bytes -> list bytes -> Prop :=
| sh_rest : forall s l cs ls, items s l -> commands l cs -> Forall alternating cs -> Forall (fun c => fst c <> lit "BI") cs -> text fs all_strings None cs ls -> shown ok fs s ls
| sh_image : forall t l cs ls d kd w data r ls', items t l -> commands l cs -> (l = [] \/ exists a k, l = a ++ [OKw k]) -> closed cs ->
    Forall alternating cs -> Forall (fun c => fst c <> lit "BI") cs -> text fs all_strings None cs ls ->
    items d kd -> Forall operand kd -> ws_byte w -> (forall a v b, ws_byte v -> w :: data <> a ++ v :: lit "EI" ++ b) -> ok data ->
    shown ok fs r ls' -> shown ok fs (t ++ x0a :: image d w data ++ x0a :: r) (ls ++ ls').
(** data that happens to be a sequence of objects, without the operators BT and TJ *)
Definition harmless (data : bytes) : Prop :=
  exists k, items data k /\ Forall (fun o => o <> OKw (lit "BT") /\ o <> OKw (lit "TJ")) k.

(** ** Unicode *)
(** the characters of a UTF-16BE string (PDF 32000-1, 9.10.3) *)
Inductive utf16 : bytes -> list Z -> Prop :=
| u16_nil : utf16 [] []
| u16_one : forall a b r us, ~ (216 <= bv a < 224) -> utf16 r us -> utf16 (a :: b :: r) (bv a * 256 + bv b :: us)
| u16_pair : forall a b c d r us, 216 <= bv a < 220 -> 220 <= bv c < 224 -> utf16 r us ->
    utf16 (a :: b :: c :: d :: r) (65536 + ((bv a - 216) * 256 + bv b) * 1024 + ((bv c - 220) * 256 + bv d) :: us).
(** a character as UTF-8, the encoding that plain ASCII is a part of *)
Definition utf8 (u : Z) : bytes :=
  if u <? 128 then [zb u]
  else if u <? 2048 then [zb (192 + u / 64); zb (128 + u mod 64)]
  else if u <? 65536 then [zb (224 + u / 4096); zb (128 + u / 64 mod 64); zb (128 + u mod 64)]
  else [zb (240 + u / 262144); zb (128 + u / 4096 mod 64); zb (128 + u / 64 mod 64); zb (128 + u mod 64)].
Definition readable (v t : bytes) : Prop := exists us, utf16 v us /\ t = flat_map utf8 us.
(** a font with readable text for its characters *)
Definition readable_font (f g : option ((Z -> option bytes) * Z)) : Prop :=
  match f, g with
  | Some f, Some g => snd f = snd g /\ forall c, match fst f c, fst g c with Some v, Some t => readable v t | None, None => True | _, _ => False end
  | None, None => True
  | _, _ => False
  end.
