(** RecoverEx.v -- witnesses for C81 in PropRaw.v. *)
From Verif Require Import Base BaseP Msg Reader ReaderP Num NumP Lexer Obj ReadObj Bits Filters Regex RegexP Env Getters Crypt Stream GetObj Load SpecLex SpecLexP SpecObj SpecRead
  ReadEx SpecFetch FetchP FetchEx SpecStream StreamEx SpecScan XrefEx TextEx SpecRecover RecoverP.
From Coq Require Import Strings.String Sorting.Permutation.

Lemma only_check : forall file is, forallb (fun k => existsb (Z.eqb (Z.of_nat k)) is || match rmatch start_obj_regexp (skipn k file) Some with None => true | _ => false end)
  (seq 0 (S (List.length file))) = true -> only_at file is.
Proof.
  intros file is H i [B (t & r & Z0 & M)]. rewrite forallb_forall in H. specialize (H (Z.to_nat i)). rewrite in_seq in H. unfold zlen in B. specialize (H ltac:(lia)).
  apply orb_true_iff in H. destruct H as [H | H].
  - apply existsb_exists in H. destruct H as (k & I & Q). apply Z.eqb_eq in Q. rewrite Z2Nat.id in Q by lia. subst k. exists i. split; [exact I |]. split; [lia |]. intros m L. lia.
  - exfalso. destruct (rmatch start_obj_regexp (skipn (Z.to_nat i) file) Some) eqn:Q; [discriminate |].
    refine (proj1 (rmatch_none _ _) Q t r _ (proj2 (lang_marker t) M)). rewrite <- zdrop_nat, Z2Nat.id by lia. exact Z0.
Qed.
Lemma white1 : white [x20].
Proof. split; [discriminate |]. intros b [<- | []]. ws. Qed.
Ltac head n m := apply (hd_intro (lit n) m [x20] (lit "0") 0 [x20]); [nat_lit | apply white1 | nat_lit | apply white1].
Ltac last_nd := let b := fresh in let r := fresh in let d := fresh in let Q := fresh in let D := fresh in intros b r d _ Q D; vm_compute in Q; injection Q as <- _; apply decdigit_spec in D; destruct D as [D _]; vm_compute in D; discriminate D.

(** the text of an object inside a string *)
Definition quoted : bytes := lit "2 0 obj true endobj 1 0 obj(2 0 obj) endobj ".
Definition q2 : iobj := {| inum := 2; igen := 0; ival := OKw (lit "true"); istream := None |}.
Definition q1 : iobj := {| inum := 1; igen := 0; ival := OStr (lit "2 0 obj"); istream := None |}.
Definition pq : pst := match load 9 E0 (fun l => l) quoted [] (new_parser quoted) with Ok (_, p) => p | _ => new_parser quoted end.
Lemma quoted_refuted : exists E fuel ord file pw objs p i o, (2 <= fuel)%nat /\ (forall m, Permutation (ord m) m) /\ ~ occurs (lit "xref") file /\
  (forall i o, In (i, o) objs -> object_at E file i o) /\ last_object objs i o /\
  load fuel E ord file pw (new_parser file) = Ok (None, p) /\ ~ fetched E file p (inum o) o.
Proof.
  exists E0, 9%nat, (fun l => l), quoted, [], [(0, q2); (20, q1)], pq, 0, q2. split; [lia |]. split; [reflexivity |]. split; [apply occurs_check; vm_compute; reflexivity |].
  split; [| split; [| split]].
  - intros i o [Q | [Q | []]]; injection Q as <- <-.
    + split; [lia | cbn; lia | cbn; lia | lia | | intros ? Q; discriminate Q].
      exists (lit "2 0 obj"), (lit " true endobj 1 0 obj(2 0 obj) endobj "). split; [reflexivity |]. split; [head "2"%string 2 |].
      apply (bh_plain E0 _ (lit " ") (lit "true") (OKw (lit "true")) (lit " ") (lit " 1 0 obj(2 0 obj) endobj ")); [gaps | kw_obj | gaps | delim_end | delim_end | delim_end | reflexivity].
    + split; [lia | cbn; lia | cbn; lia | last_nd | | intros ? Q; discriminate Q].
      exists (lit "1 0 obj"), (lit "(2 0 obj) endobj "). split; [reflexivity |]. split; [head "1"%string 1 |].
      apply (bh_plain E0 _ [] (lit "(2 0 obj)") (OStr (lit "2 0 obj")) (lit " ") (lit " ")); [gaps | str_obj "2 0 obj"%string | gaps | delim_end | exact I | delim_end | reflexivity].
  - split; [left; reflexivity |]. intros i o [Q | [Q | []]]; injection Q as <- <-; cbn; lia.
  - vm_compute. reflexivity.
  - intros F. assert (X : fetched E0 quoted pq 2 {| inum := 2; igen := 0; ival := OKw (lit "null"); istream := None |}) by fetch9.
    pose proof (fetched_det _ _ _ _ _ _ F X) as Q. discriminate Q.
Qed.

(** an object, a newer version of it and a stream *)
Definition bare : bytes := lit "1 0 obj(a) endobj 1 0 obj<</K[1 2 0 R(s)]/N<41>>> endobj 2 0 obj<</Filter/ASCIIHexDecode>>stream" ++ x0a :: lit "3431>" ++ x0a :: lit "endstream endobj ".
Definition b0 : iobj := {| inum := 1; igen := 0; ival := OStr (lit "a"); istream := None |}.
Definition b1 : iobj := {| inum := 1; igen := 0; istream := None;
  ival := ODict [(lit "K", OArr [ONum (num_of_Z 1); ORef 2 0; OStr (lit "s")]); (lit "N", OStr (lit "A"))] |}.
Definition b2 : iobj := {| inum := 2; igen := 0; ival := ODict [(lit "Filter", OName (lit "ASCIIHexDecode"))]; istream := Some (lit "41") |}.
Lemma C81_ex : (forall i o, In (i, o) [(0, b0); (18, b1); (57, b2)] -> object_at E0 bare i o) /\ only_at bare [0; 18; 57] /\ ~ occurs (lit "xref") bare /\
  last_object [(0, b0); (18, b1); (57, b2)] 18 b1 /\ last_object [(0, b0); (18, b1); (57, b2)] 57 b2 /\ ~ last_object [(0, b0); (18, b1); (57, b2)] 0 b0.
Proof.
  split; [| split; [apply only_check; vm_compute; reflexivity | split; [apply occurs_check; vm_compute; reflexivity | split; [| split]]]].
  - intros i o [Q | [Q | [Q | []]]]; injection Q as <- <-.
    + split; [lia | cbn; lia | cbn; lia | lia | | intros ? Q; discriminate Q].
      eexists (lit "1 0 obj"), _. split; [reflexivity |]. split; [head "1"%string 1 |].
      apply (bh_plain E0 _ [] (lit "(a)") (OStr (lit "a")) (lit " ") (skipn 17 bare)); [gaps | str_obj "a"%string | gaps | delim_end | exact I | delim_end | reflexivity].
    + split; [lia | cbn; lia | cbn; lia | last_nd | | intros d Q; injection Q as <-; discriminate].
      eexists (lit "1 0 obj"), _. split; [vm_compute; reflexivity |]. split; [head "1"%string 1 |].
      apply (bh_plain E0 _ [] (lit "<</K[1 2 0 R(s)]/N<41>>>") (ival b1) (lit " ") (skipn 56 bare)); [gaps | apply C08_ex | gaps | delim_end | exact I | delim_end | reflexivity].
    + split; [lia | cbn; lia | cbn; lia | last_nd | | intros d Q; injection Q as <-; discriminate].
      eexists (lit "2 0 obj"), _. split; [vm_compute; reflexivity |]. split; [head "2"%string 2 |].
      apply (bh_stream E0 _ [] (lit "<</Filter/ASCIIHexDecode>>") [(lit "Filter", OName (lit "ASCIIHexDecode"))] [] [] [x0a] (lit "3431>") [x0a] (lit " endobj ") [OName (lit "ASCIIHexDecode")] []);
        [gaps | | gaps | intros ? [] | delim_end | apply eb_lf | apply occurs_check; vm_compute; reflexivity | apply ea_lf; last_byte | vm_compute; discriminate | | | | discriminate |].
      * apply (ot_dict (lit "/Filter/ASCIIHexDecode") [(lit "Filter", OName (lit "ASCIIHexDecode"))]); [| constructor; [intros [] | constructor]].
        apply (cons0 (lit "/Filter")); [nm | | right; delim_end]. apply (cons0 (lit "/ASCIIHexDecode")); [nm | apply nil0 | right; apply end0].
      * apply fo_name. exists [], []. split; [reflexivity | intros []].
      * apply po_none. intros [Q | []]. discriminate.
      * intros x (d1 & d2 & Q & _) n g. destruct d1 as [| y d1]; [discriminate | destruct d1; discriminate].
      * eapply dc_cons; [apply (st_hex E0 []); discriminate | apply dc_nil].
  - split; [right; left; reflexivity |]. intros i o [Q | [Q | [Q | []]]]; injection Q as <- <-; cbn; lia.
  - split; [right; right; left; reflexivity |]. intros i o [Q | [Q | [Q | []]]]; injection Q as <- <-; cbn; lia.
  - intros [_ N]. specialize (N 18 b1 (or_intror (or_introl eq_refl)) eq_refl). lia.
Qed.
