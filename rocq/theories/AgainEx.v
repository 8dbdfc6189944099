(** AgainEx.v -- witnesses for PropAgain.v. *)
From Verif Require Import Base BaseP Msg Reader ReaderP Num NumP Lexer Obj ReadObj Env Getters Crypt GetObj Load Tree Output Render Parse SpecRead SpecLook
  FetchP LookP SecurityP FetchEx Md5 SpecFetch SpecOut SpecStream StreamEx TreeEx RawP ExtractP OutEx SpecLex SpecLexP SpecObj SpecNumP ReadEx SpecRaw RawReadP RawReadEx SpecAgain OutP.
From Coq Require Import Strings.String Sorting.Permutation.

(** ** A stream that is decoded twice *)
Definition raw9 : bytes := content FRaw ops9.
Definition S9' : sys := mksys (Some raw9) (fun _ => true) StatNotExist.
Definition ops9' : list op := fst (parse E6 OD1 9 S9' []).
Definition p9' : pst := match load 9 E6 (fun l => l) raw9 [] (new_parser raw9) with Ok (_, p) => p | _ => nothing end.
Definition o9' : iobj := {| inum := 1; igen := 0; ival := ODict [(lit "Filter", OName (lit "ASCIIHexDecode"))]; istream := Some (lit "A") |}.
Lemma twice_refuted : exists E OD fuel S S' pw ops ops' file p p' o o', fmt_ok (e_fmt E) /\ order_ok OD /\ (2 <= fuel)%nat /\
  s_input S = Some file /\ parse E OD fuel S pw = (ops, Ok PNone) /\ load fuel E (o_objects OD) file pw (new_parser file) = Ok (None, p) /\ fetched E file p 1 o /\
  s_input S' = Some (content FRaw ops) /\ parse E OD fuel S' pw = (ops', Ok PNone) /\
  load fuel E (o_objects OD) (content FRaw ops) pw (new_parser (content FRaw ops)) = Ok (None, p') /\ fetched E (content FRaw ops) p' 1 o' /\
  istream o = Some (lit "41") /\ istream o' = Some (lit "A").
Proof.
  exists E6, OD1, 9%nat, S9, S9', [], ops9, ops9', coded, p9, p9', o9, o9'. split; [exact E6_fmt |]. split; [exact OD1_ok |]. split; [lia |]. split; [reflexivity |]. split; [vm_compute; reflexivity |].
  split; [vm_compute; reflexivity |]. split; [exists 9%nat; eexists; vm_compute; reflexivity |]. split; [reflexivity |]. split; [vm_compute; reflexivity |]. split; [vm_compute; reflexivity |].
  split; [exists 9%nat; eexists; vm_compute; reflexivity |]. split; reflexivity.
Qed.

(** ** Which bytes an object is printed with *)
Fixpoint chars (o : obj) : bytes :=
  match o with
  | ONum _ => [] | OStr v => v | OName v => v | OKw v => v | ORef _ _ => []
  | OArr l => flat_map chars l
  | ODict d => flat_map (fun kv => fst kv ++ chars (snd kv)) d
  end.
Definition frame : bytes := lit "0123456789-()/ R[]<>".
Lemma natural_chars : forall v t, natural v t -> forall b, In b t -> In b frame.
Proof.
  assert (D : forall d c, digit_of d c -> In c frame).
  { intros d c DC. apply digit_of_dec in DC. apply nth_error_In in DC. change frame with (lit "0123456789" ++ lit "-()/ R[]<>"). apply in_or_app. left. exact DC. }
  intros v t H. induction H as [v c DC | v t d c H IH P DC]; intros b I; [destruct I as [<- | []]; eapply D; exact DC |].
  apply in_app_or in I. destruct I as [I | [<- | []]]; [exact (IH b I) | eapply D; exact DC].
Qed.
Lemma decimal_chars : forall z t, decimal z t -> forall b, In b t -> In b frame.
Proof.
  intros z t H b I. inversion H as [v u N | v u N P]; subst; [eapply natural_chars; eassumption |].
  apply in_app_or in I. destruct I as [I | I]; [destruct I as [<- | []]; vm_compute; tauto | eapply natural_chars; eassumption].
Qed.
Definition shown (o : obj) (t : bytes) : Prop := forall b, In b t -> In b frame \/ In b (chars o).
Ltac fr := left; vm_compute; tauto.
Lemma spaced_in : forall ts b, In b (spaced ts) -> b = x20 \/ exists t, In t ts /\ In b t.
Proof.
  induction ts as [| t ts IH]; intros b I; [destruct I |]. destruct ts as [| u ts]; [cbn [spaced] in I; right; exists t; split; [left; reflexivity | exact I] |].
  change (spaced (t :: u :: ts)) with (t ++ lit " " ++ spaced (u :: ts)) in I. apply in_app_or in I. destruct I as [I | I]; [right; exists t; split; [left; reflexivity | exact I] |].
  destruct I as [<- | I]; [left; reflexivity |]. destruct (IH b I) as [-> | (w & Iw & J)]; [left; reflexivity | right; exists w; split; [right; exact Iw | exact J]].
Qed.
Lemma written_chars : forall fmt, fmt_ok fmt -> forall o t, written fmt o t -> printable o -> shown o t.
Proof.
  intros fmt FM o. induction o as [v | v | v | v | n g | l IH | d IH] using obj_nested_ind; intros t W P b I.
  - inversion W; subst. inversion P; subst. left. eapply decimal_chars; [apply FM; eassumption | exact I].
  - inversion W; subst. apply in_app_or in I. destruct I as [[<- | []] | I]; [fr |]. apply in_app_or in I. destruct I as [I | [<- | []]]; [right; exact I | fr].
  - inversion W; subst. destruct I as [<- | I]; [fr | right; exact I].
  - inversion W; subst. right. exact I.
  - inversion W as [| | | | n' g' tn tg Dn Dg | |]; subst. left. apply in_app_or in I. destruct I as [I | I]; [exact (decimal_chars _ _ Dn _ I) |].
    apply in_app_or in I. destruct I as [[<- | []] | I]; [vm_compute; tauto |]. apply in_app_or in I. destruct I as [I | I]; [exact (decimal_chars _ _ Dg _ I) |]. destruct I as [<- | [<- | []]]; vm_compute; tauto.
  - inversion W as [| | | | | l' ts F |]; subst. inversion P as [| | | | | l' PL |]; subst. apply in_app_or in I. destruct I as [[<- | []] | I]; [fr |]. apply in_app_or in I. destruct I as [I | [<- | []]]; [| fr].
    apply spaced_in in I. destruct I as [-> | (t & It & I)]; [fr |]. cbn [chars]. clear W P. induction F as [| o u l ts W F IHF]; [destruct It |]. inversion IH as [| ? ? H1 H2]; subst. inversion PL as [| ? ? P1 P2]; subst.
    destruct It as [-> | It].
    + destruct (H1 _ W P1 b I) as [K | K]; [left; exact K | right; cbn [flat_map]; apply in_or_app; left; exact K].
    + destruct (IHF H2 It P2) as [K | K]; [left; exact K | right; cbn [flat_map]; apply in_or_app; right; exact K].
  - inversion W as [| | | | | | d' ts ts' F PM]; subst. inversion P as [| | | | | | d' NDd PD]; subst. apply in_app_or in I. destruct I as [[<- | [<- | []]] | I]; [fr | fr |]. apply in_app_or in I. destruct I as [I | [<- | [<- | []]]]; [| fr | fr].
    apply in_concat in I. destruct I as (t & It & I). apply (Permutation_in _ (Permutation_sym PM)) in It. cbn [chars]. clear W P PM NDd. induction F as [| kv u d ts (t' & W & Q) F IHF]; [destruct It |]. cbn [map] in IH. inversion IH as [| ? ? H1 H2]; subst. inversion PD as [| ? ? [_ P1] P2]; subst.
    destruct It as [<- | It].
    + apply in_app_or in I. destruct I as [[<- | []] | I]; [fr |]. apply in_app_or in I. destruct I as [I | I]; [right; cbn [flat_map]; apply in_or_app; left; apply in_or_app; left; exact I |].
      apply in_app_or in I. destruct I as [[<- | []] | I]; [fr |].
      destruct (H1 _ W P1 b I) as [K | K]; [left; exact K | right; cbn [flat_map]; apply in_or_app; left; apply in_or_app; right; exact K].
    + destruct (IHF H2 It P2) as [K | K]; [left; exact K | right; cbn [flat_map]; apply in_or_app; right; exact K].
Qed.
Lemma silent_chars : forall fmt o, fmt_ok fmt -> printable o -> ~ In "j"%byte (chars o) -> ~ In "f"%byte (chars o) -> forall t, written fmt o t -> silent_text t.
Proof.
  intros fmt o FM P NJ NF t W. pose proof (written_chars fmt FM o t W P) as SH. split; intros (a & b & Q).
  - destruct (SH "j"%byte) as [I | I]; [rewrite Q; apply in_or_app; right; right; right; left; reflexivity | vm_compute in I; intuition discriminate | exact (NJ I)].
  - destruct (SH "f"%byte) as [I | I]; [rewrite Q; apply in_or_app; right; right; right; right; left; reflexivity | vm_compute in I; intuition discriminate | exact (NF I)].
Qed.

(** ** Objects that are the same after two runs *)
Definition raw10 : bytes := content FRaw ops10.
Definition S10' : sys := mksys (Some raw10) (fun _ => true) StatNotExist.
Definition ops10' : list op := fst (parse E6 OD1 9 S10' []).
Definition p10' : pst := match load 9 E6 (fun l => l) raw10 [] (new_parser raw10) with Ok (_, p) => p | _ => nothing end.
Lemma o10_again : again (e_fmt E6) o10.
Proof.
  destruct C80_ex as (_ & _ & _ & _ & _ & _ & _ & P & _). constructor; [cbn; lia | cbn; lia | exact P | apply silent_chars; [exact E6_fmt | exact P | vm_compute; intuition discriminate | vm_compute; intuition discriminate] | |].
  - intros d Q. injection Q as <-. vm_compute. intuition discriminate.
  - intros data Q. discriminate Q.
Qed.
Lemma o11_again : again (e_fmt E6) o11.
Proof.
  destruct C80_ex as (_ & _ & _ & _ & _ & _ & _ & _ & _ & _ & _ & P & PS). constructor; [cbn; lia | cbn; lia | exact P | apply silent_chars; [exact E6_fmt | exact P | vm_compute; intuition discriminate | vm_compute; intuition discriminate] | |].
  - intros d Q. injection Q as <-. vm_compute. intuition discriminate.
  - intros data Q. injection Q as <-. split; [exact PS |]. split; [split; apply occurs_check; reflexivity |]. intros d n g Q. injection Q as <-. vm_compute. intuition discriminate.
Qed.
Definition on_lines (l : list string) : bytes := flat_map (fun t => lit t ++ [x0a]) l.
Definition text10 : bytes := on_lines ["1 0 obj"; "<</A [1 -20 2 0 R (x(y)z) /N true]/B <<>>>>"; "endobj"; ""]%string.
Definition text11 : bytes := on_lines ["2 0 obj"; "<</Length 3>>"; "stream"; "abc"; "endstream"; "endobj"; ""]%string.
Lemma C120_ex : fmt_ok (e_fmt E6) /\ order_ok OD1 /\ parse E6 OD1 9 S10 [] = (ops10, Ok PNone) /\ s_input S10 = Some fine /\
  load 9 E6 (o_objects OD1) fine [] (new_parser fine) = Ok (None, p10) /\ fetched E6 fine p10 1 o10 /\ fetched E6 fine p10 2 o11 /\ map fst (pxref p10) = [1; 2] /\ Forall (again (e_fmt E6)) [o10; o11] /\
  s_input S10' = Some (content FRaw ops10) /\ parse E6 OD1 9 S10' [] = (ops10', Ok PNone) /\ content FRaw ops10 = text11 ++ text10 /\ content FRaw ops10' = text10 ++ text11.
Proof.
  destruct C80_ex as (A & B & C & D & F & _ & G & _ & _ & _ & H & _). split; [exact B |]. split; [exact A |]. split; [exact C |]. split; [exact D |]. split; [exact F |]. split; [exact G |]. split; [exact H |].
  split; [vm_compute; reflexivity |]. split; [constructor; [exact o10_again | constructor; [exact o11_again | constructor]] |]. split; [reflexivity |]. split; [vm_compute; reflexivity |]. split; vm_compute; reflexivity.
Qed.
