(** RawReadEx.v -- witnesses for PropRaw.v. *)
From Verif Require Import Base BaseP Msg Reader ReaderP Num NumP Lexer Obj ReadObj Env Getters Crypt GetObj Load Tree Output Render Parse SpecRead SpecLook
  FetchP LookP SecurityP FetchEx Md5 SpecFetch SpecOut SpecStream TreeEx RawP ExtractP OutEx SpecLex SpecLexP SpecObj ReadEx SpecRaw RawReadP.
From Coq Require Import Strings.String Sorting.Permutation.

(** numbers are written in decimal notation *)
Definition E6 : env := {| e_md5 := md5; e_aes_dec := e_aes_dec E0; e_zlib := e_zlib E0; e_lzw := e_lzw E0; e_tiff_lzw := e_tiff_lzw E0;
  e_fmt := fun v => dec_of_Z (num_int v); e_verbose := Some false |}.
Lemma E6_fmt : fmt_ok (e_fmt E6).
Proof. intros z H. cbn. rewrite num_int_of_Z by exact H. apply dec_of_Z_decimal. Qed.

(** a string with a parenthesis *)
Definition paren : bytes := lit "1 0 obj(\)) endobj ".
Definition S8 : sys := mksys (Some paren) (fun _ => true) StatNotExist.
(** an encoded stream *)
Definition coded : bytes := lit "1 0 obj<</Filter/ASCIIHexDecode>>stream" ++ x0a :: lit "3431>" ++ x0a :: lit "endstream endobj ".
Definition S9 : sys := mksys (Some coded) (fun _ => true) StatNotExist.
(** objects that can be read again *)
Definition fine : bytes := lit "1 0 obj<</A[1 -20 2 0 R(x(y)z)/N true]/B<<>>>> endobj " ++
  lit "2 0 obj<</Length 3>>stream" ++ x0a :: lit "abc" ++ x0a :: lit "endstream endobj ".
Definition S10 : sys := mksys (Some fine) (fun _ => true) StatNotExist.

Definition at_offset (raw : bytes) (off : Z) : pst := mkpst (open_rd raw) [(1, mkxe off 0 1 false false)] [] (psh nothing).
Lemma nowhere : forall raw o, inum o = 1 -> igen o = 0 ->
  (forall k, (k < List.length raw)%nat -> exists o' p', GetObject 9 E6 raw 1 (at_offset raw (Z.of_nat k)) = Ok (o', p') /\ ~ same_object o o') ->
  ~ read_again E6 raw o.
Proof.
  intros raw o N G H (off & R & A). unfold zlen in R. destruct (H (Z.to_nat off)) as (o1 & p1 & Q & D); [lia |]. rewrite Z2Nat.id in Q by lia.
  destruct (A (at_offset raw off) (mkxe off 0 1 false false)) as (o2 & F & S2); [exact (open_wf raw) | rewrite N; reflexivity | rewrite G; repeat split |].
  rewrite N in F. assert (o1 = o2) by (eapply fetched_det; [exists 9%nat; eexists; exact Q | exact F]). subst. contradiction.
Qed.
Lemma every : forall (P : nat -> Prop) (f : nat -> bool) n, forallb f (seq 0 n) = true -> (forall k, f k = true -> P k) -> forall k, (k < n)%nat -> P k.
Proof. intros P f n H I k L. apply I. rewrite forallb_forall in H. apply H. apply in_seq. lia. Qed.

Definition not_string (v : bytes) (raw : bytes) (k : nat) : bool :=
  match GetObject 9 E6 raw 1 (at_offset raw (Z.of_nat k)) with
  | Ok (o, _) => match ival o with OStr w => if list_eq_dec Byte.byte_eq_dec v w then false else true | _ => true end
  | _ => false
  end.
Definition not_stream (v : bytes) (raw : bytes) (k : nat) : bool :=
  match GetObject 9 E6 raw 1 (at_offset raw (Z.of_nat k)) with
  | Ok (o, _) => match ival o, istream o with ODict _, Some w => if list_eq_dec Byte.byte_eq_dec v w then false else true | _, _ => true end
  | _ => false
  end.
Definition o8 : iobj := {| inum := 1; igen := 0; ival := OStr (lit ")"); istream := None |}.
Definition o9 : iobj := {| inum := 1; igen := 0; ival := ODict [(lit "Filter", OName (lit "ASCIIHexDecode"))]; istream := Some (lit "41") |}.
Definition p8 : pst := match load 9 E6 (fun l => l) paren [] (new_parser paren) with Ok (_, p) => p | _ => nothing end.
Definition p9 : pst := match load 9 E6 (fun l => l) coded [] (new_parser coded) with Ok (_, p) => p | _ => nothing end.
Definition ops8 : list op := fst (parse E6 OD1 9 S8 []).
Definition ops9 : list op := fst (parse E6 OD1 9 S9 []).

Ltac plain_nm := let b := fresh in let H := fresh in intros b H; vm_compute in H; repeat (destruct H as [<- | H]; [split; [regular | discriminate] |]); destruct H.
Ltac dup := vm_compute; repeat (constructor; [intros HH; cbn in HH; intuition discriminate |]); constructor.

Lemma paren_refuted : exists E OD fuel S pw ops file p o, order_ok OD /\ fmt_ok (e_fmt E) /\ parse E OD fuel S pw = (ops, Ok PNone) /\ s_input S = Some file /\
  load fuel E (o_objects OD) file pw (new_parser file) = Ok (None, p) /\ fetched E file p 1 o /\ ival o = OStr (lit ")") /\ istream o = None /\
  ~ read_again E (content FRaw ops) o.
Proof.
  exists E6, OD1, 9%nat, S8, [], ops8, paren, p8, o8. split; [exact OD1_ok |]. split; [exact E6_fmt |]. split; [vm_compute; reflexivity |]. split; [reflexivity |].
  split; [vm_compute; reflexivity |]. split; [exists 9%nat; eexists; vm_compute; reflexivity |]. split; [reflexivity |]. split; [reflexivity |].
  apply nowhere; [reflexivity | reflexivity |]. apply (every _ (not_string (lit ")") (content FRaw ops8))); [vm_compute; reflexivity |].
  intros k H. unfold not_string in H. destruct (GetObject 9 E6 (content FRaw ops8) 1 (at_offset (content FRaw ops8) (Z.of_nat k))) as [[o' p']| |]; try discriminate.
  exists o', p'. split; [reflexivity |]. intros (_ & _ & A & _). cbn [ival o8] in A. inversion A; subst.
  match goal with Q : OStr _ = ival o' |- _ => rewrite <- Q in H | Q : ival o' = OStr _ |- _ => rewrite Q in H end. vm_compute in H. discriminate.
Qed.
Lemma coded_refuted : exists E OD fuel S pw ops file p o, order_ok OD /\ fmt_ok (e_fmt E) /\ parse E OD fuel S pw = (ops, Ok PNone) /\ s_input S = Some file /\
  load fuel E (o_objects OD) file pw (new_parser file) = Ok (None, p) /\ fetched E file p 1 o /\ printable (ival o) /\ istream o = Some (lit "41") /\
  ~ read_again E (content FRaw ops) o.
Proof.
  exists E6, OD1, 9%nat, S9, [], ops9, coded, p9, o9. split; [exact OD1_ok |]. split; [exact E6_fmt |]. split; [vm_compute; reflexivity |]. split; [reflexivity |].
  split; [vm_compute; reflexivity |]. split; [exists 9%nat; eexists; vm_compute; reflexivity |]. split.
  { apply pr_dict; [dup |]. constructor; [| constructor]. split; [plain_nm | apply pr_name; plain_nm]. }
  split; [reflexivity |].
  apply nowhere; [reflexivity | reflexivity |]. apply (every _ (not_stream (lit "41") (content FRaw ops9))); [vm_compute; reflexivity |].
  intros k H. unfold not_stream in H. destruct (GetObject 9 E6 (content FRaw ops9) 1 (at_offset (content FRaw ops9) (Z.of_nat k))) as [[o' p']| |]; try discriminate.
  exists o', p'. split; [reflexivity |]. intros (_ & _ & B & A). cbn [ival istream o9] in A, B. rewrite A in H. inversion B; subst.
  match goal with Q : ODict _ = ival o' |- _ => rewrite <- Q in H | Q : ival o' = ODict _ |- _ => rewrite Q in H end. vm_compute in H. discriminate.
Qed.

(** *** The objects of [fine] *)
Definition p10 : pst := match load 9 E6 (fun l => l) fine [] (new_parser fine) with Ok (_, p) => p | _ => nothing end.
Definition ops10 : list op := fst (parse E6 OD1 9 S10 []).
Definition o10 : iobj := {| inum := 1; igen := 0; istream := None;
  ival := ODict [(lit "A", OArr [ONum (num_of_Z 1); ONum (num_of_Z (-20)); ORef 2 0; OStr (lit "x(y)z"); OName (lit "N"); OKw (lit "true")]); (lit "B", ODict [])] |}.
Definition o11 : iobj := {| inum := 2; igen := 0; ival := ODict [(lit "Length", ONum (num_of_Z 3))]; istream := Some (lit "abc") |}.
Lemma natural_fun' : forall v t, natural v t -> forall w t', natural w t' -> w = v -> t = t'.
Proof.
  intros v t H. induction H as [v c [R D] | v t d c H IH P [R D]]; intros w t' H' Q; destruct H' as [v' c' [R' D'] | v' u d' c' N' P' [R' D']].
  - f_equal. apply bv_inj. congruence.
  - lia.
  - lia.
  - assert (v' = v) by lia. assert (d' = d) by lia. f_equal; [eapply IH; eassumption |]. f_equal. apply bv_inj. congruence.
Qed.
Lemma natural_fun : forall v t, natural v t -> forall t', natural v t' -> t = t'.
Proof. intros. eapply natural_fun'; eauto. Qed.
Lemma decimal_fun : forall z t t', decimal z t -> decimal z t' -> t = t'.
Proof.
  intros z t t' H H'. inversion H as [v u N | v u N P]; inversion H' as [v' u' N' | v' u' N' P']; subst.
  - eapply natural_fun; eauto.
  - destruct (natural_text _ _ N). lia.
  - destruct (natural_text _ _ N'). lia.
  - assert (v' = v) by lia. subst. f_equal. eapply natural_fun; eauto.
Qed.
Lemma C80_ex : order_ok OD1 /\ fmt_ok (e_fmt E6) /\ parse E6 OD1 9 S10 [] = (ops10, Ok PNone) /\ s_input S10 = Some fine /\
  load 9 E6 (o_objects OD1) fine [] (new_parser fine) = Ok (None, p10) /\
  in_use p10 1 /\ fetched E6 fine p10 1 o10 /\ printable (ival o10) /\ istream o10 = None /\
  in_use p10 2 /\ fetched E6 fine p10 2 o11 /\ printable (ival o11) /\ plain_stream (e_fmt E6) o11 (lit "abc").
Proof.
  split; [exact OD1_ok |]. split; [exact E6_fmt |]. split; [vm_compute; reflexivity |]. split; [reflexivity |]. split; [vm_compute; reflexivity |].
  split; [eexists; split; vm_compute; reflexivity |]. split; [exists 9%nat; eexists; vm_compute; reflexivity |]. split.
  { apply pr_dict; [dup |]. constructor; [split; [plain_nm |] | constructor; [split; [plain_nm | apply pr_dict; constructor] | constructor]].
    apply pr_arr. constructor; [apply pr_num; lia |]. constructor; [apply pr_num; lia |]. constructor; [apply pr_ref; lia |]. constructor.
    { apply pr_str. apply (ps_char "x"%byte); [cbn; intuition discriminate | discriminate |]. apply (ps_nested (lit "y") (lit "z"));
      (eapply ps_char; [cbn; intuition discriminate | discriminate | constructor]). }
    constructor; [apply pr_name; plain_nm |]. constructor; [| constructor].
    apply pr_kw; [| discriminate]. do 2 eexists. split; [reflexivity |]. split; [intros c H; vm_compute in H; repeat destruct H as [<- | H]; try contradiction; regular | intros H; vm_compute in H; intuition discriminate]. }
  split; [reflexivity |]. split; [eexists; split; vm_compute; reflexivity |]. split; [exists 9%nat; eexists; vm_compute; reflexivity |]. split.
  { apply pr_dict; [dup |]. constructor; [split; [plain_nm | apply pr_num; lia] | constructor]. }
  exists [(lit "Length", ONum (num_of_Z 3))]. split; [reflexivity |]. split; [cbn; intuition discriminate |]. split; [cbn; intuition discriminate |]. split; [| split].
  - intros t tn tg W Dn Dg. rewrite (decimal_fun _ _ _ Dn (dec_of_Z_decimal _)), (decimal_fun _ _ _ Dg (dec_of_Z_decimal _)).
    inversion W as [| | | | | | d ts ts' F PM]; subst. inversion F as [| x y l l' (t' & W' & Q) F']; subst. inversion F'; subst. inversion W'; subst.
    apply Permutation_length_1_inv in PM. subst ts'. vm_compute. discriminate.
  - intros (a & b & Q). apply (f_equal (@List.length byte)) in Q. rewrite !app_length in Q. cbn in Q. lia.
  - intros c Q. apply (f_equal (fun l => List.last l x00)) in Q. rewrite last_last in Q. discriminate.
Qed.
