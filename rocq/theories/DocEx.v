(** DocEx.v -- witnesses for C82 in PropDoc.v. *)
From Verif Require Import Base BaseP Msg Reader ReaderP Num NumP Lexer Obj ReadObj Bits Filters Regex RegexP Env Getters Crypt Stream GetObj Xref Load SpecLex SpecLexP SpecObj SpecRead
  ReadEx SpecFetch FetchP FetchEx SpecStream StreamEx SpecScan SpecXref ScanP XrefP XrefEx TextEx SpecRecover RecoverP RecoverEx DocP.
From Coq Require Import Strings.String Sorting.Permutation.

Ltac one_int k n := apply (cons0 (lit k)); [nm | | right; delim_end]; apply (cons1 (lit n)); [first [int_obj | zero_obj] | | right; first [delim_end | apply end0]].

(** the text of an object inside a string, in a file with a table *)
Definition tabled : bytes := lit "2 0 obj true endobj 1 0 obj(2 0 obj) endobj xref 1 2 20 0 n 0 0 n trailer<</A 1>> startxref 44 %%EOF".
Definition tabled_sec : section := {| sc_entries := [(1, new_xentry 20 0 1); (2, new_xentry 0 0 1)]; sc_trailer := [(lit "A", ONum (num_of_Z 1))] |}.
Definition pt : pst := match load 9 E0 (fun l => l) tabled [] (new_parser tabled) with Ok (_, p) => p | _ => new_parser tabled end.
Lemma tabled_chain : chain E0 tabled 44 [] [tabled_sec].
Proof.
  apply ch_last; [intros [] |].
  apply (at_table E0 tabled 44 [] (lit " ") (lit "1 2 20 0 n 0 0 n ") [(1, [(20, 0, true); (0, 0, true)])] [] (lit "<</A 1>>") (sc_trailer tabled_sec) (lit " startxref 44 %%EOF"));
    [lia | vm_compute; reflexivity | gaps | gaps | discriminate | | gaps | | vm_compute; discriminate | apply pv_none; reflexivity].
  - apply (tt_cons (lit "1") 1 (lit " ") (lit "2") (lit " ") (lit "20 0 n 0 0 n ") [(20, 0, true); (0, 0, true)] []); try nat_lit; try gaps; try discriminate; try reflexivity; [| apply tt_nil].
    apply (ls_cons (lit "20 0 n") (20, 0, true) (lit " ") (lit "0 0 n ")); [ln "20"%string 20 "0"%string 0 true | gaps | discriminate |].
    apply (ls_cons (lit "0 0 n") (0, 0, true) (lit " ") []); [ln "0"%string 0 "0"%string 0 true | gaps | discriminate | apply ls_nil].
  - apply (ot_dict (lit "/A 1") (sc_trailer tabled_sec)); [| keys]. cbn [flatten sc_trailer tabled_sec]. one_int "/A"%string "1"%string. apply nil0.
Qed.
Lemma tabled_refuted : exists E fuel ord file pw p off secs i o e, (2 <= fuel)%nat /\ (forall m, Permutation (ord m) m) /\
  load fuel E ord file pw (new_parser file) = Ok (None, p) /\ entry (ptrailer p) (lit "Encrypt") = None /\
  last_start (last256 file) off /\ off < 2 ^ 63 /\ chain E file off [] secs /\
  object_at E file i o /\ newest (inum o) secs = Some e /\ x_type e = 1 /\ x_off e = i /\ x_gen e = igen o /\ ~ fetched E file p (inum o) o.
Proof.
  exists E0, 9%nat, (fun l => l), tabled, [], pt, 44, [tabled_sec], 0, q2, (new_xentry 0 0 1). split; [lia |]. split; [reflexivity |]. split; [vm_compute; reflexivity |].
  split; [vm_compute; reflexivity |]. split; [apply start_offset; vm_compute; reflexivity |]. split; [lia |]. split; [apply tabled_chain |]. split; [| split; [reflexivity | split; [reflexivity | split; [reflexivity | split; [reflexivity |]]]]].
  - split; [lia | cbn; lia | cbn; lia | lia | | intros ? Q; discriminate Q].
    exists (lit "2 0 obj"), (skipn 7 tabled). split; [reflexivity |]. split; [head "2"%string 2 |].
    apply (bh_plain E0 _ (lit " ") (lit "true") (OKw (lit "true")) (lit " ") (skipn 19 tabled)); [gaps | kw_obj | gaps | delim_end | delim_end | delim_end | reflexivity].
  - intros F. assert (X : fetched E0 tabled pt 2 {| inum := 2; igen := 0; ival := OKw (lit "null"); istream := None |}) by fetch9.
    pose proof (fetched_det _ _ _ _ _ _ F X) as Q. discriminate Q.
Qed.

(** an update replacing one object and deleting another *)
Definition updated : bytes := lit "1 0 obj(a) endobj 2 0 obj(b) endobj xref 1 2 0 0 n 18 0 n trailer<</R 1/S 2>> 1 0 obj(c) endobj xref 1 2 78 0 n 0 1 f trailer<</Prev 36/R 3>> startxref 96 %%EOF".
Definition up_old : section := {| sc_entries := [(1, new_xentry 0 0 1); (2, new_xentry 18 0 1)]; sc_trailer := [(lit "R", ONum (num_of_Z 1)); (lit "S", ONum (num_of_Z 2))] |}.
Definition up_new : section := {| sc_entries := [(1, new_xentry 78 0 1); (2, new_xentry 0 1 0)]; sc_trailer := [(lit "Prev", ONum (num_of_Z 36)); (lit "R", ONum (num_of_Z 3))] |}.
Definition pu : pst := match load 9 E0 (fun l => l) updated [] (new_parser updated) with Ok (_, p) => p | _ => new_parser updated end.
Definition oc : iobj := {| inum := 1; igen := 0; ival := OStr (lit "c"); istream := None |}.
Lemma up_chain : chain E0 updated 96 [] [up_new; up_old].
Proof.
  apply (ch_prev E0 updated 96 [] up_new 36); [intros [] | |].
  - apply (at_table E0 updated 96 [] (lit " ") (lit "1 2 78 0 n 0 1 f ") [(1, [(78, 0, true); (0, 1, false)])] [] (lit "<</Prev 36/R 3>>") (sc_trailer up_new) (lit " startxref 96 %%EOF"));
    [lia | vm_compute; reflexivity | gaps | gaps | discriminate | | gaps | | vm_compute; discriminate | apply (pv_some _ (num_of_Z 36)); reflexivity].
    + apply (tt_cons (lit "1") 1 (lit " ") (lit "2") (lit " ") (lit "78 0 n 0 1 f ") [(78, 0, true); (0, 1, false)] []); try nat_lit; try gaps; try discriminate; try reflexivity; [| apply tt_nil].
      apply (ls_cons (lit "78 0 n") (78, 0, true) (lit " ") (lit "0 1 f ")); [ln "78"%string 78 "0"%string 0 true | gaps | discriminate |].
      apply (ls_cons (lit "0 1 f") (0, 1, false) (lit " ") []); [ln "0"%string 0 "1"%string 1 false | gaps | discriminate | apply ls_nil].
    + apply (ot_dict (lit "/Prev 36/R 3") (sc_trailer up_new)); [| keys]. cbn [flatten sc_trailer up_new]. one_int "/Prev"%string "36"%string. one_int "/R"%string "3"%string. apply nil0.
  - apply ch_last; [intros [Q | []]; discriminate Q |].
    apply (at_table E0 updated 36 [] (lit " ") (lit "1 2 0 0 n 18 0 n ") [(1, [(0, 0, true); (18, 0, true)])] [] (lit "<</R 1/S 2>>") (sc_trailer up_old) (skipn 77 updated));
    [lia | vm_compute; reflexivity | gaps | gaps | discriminate | | gaps | | vm_compute; discriminate | apply pv_none; reflexivity].
    + apply (tt_cons (lit "1") 1 (lit " ") (lit "2") (lit " ") (lit "0 0 n 18 0 n ") [(0, 0, true); (18, 0, true)] []); try nat_lit; try gaps; try discriminate; try reflexivity; [| apply tt_nil].
      apply (ls_cons (lit "0 0 n") (0, 0, true) (lit " ") (lit "18 0 n ")); [ln "0"%string 0 "0"%string 0 true | gaps | discriminate |].
      apply (ls_cons (lit "18 0 n") (18, 0, true) (lit " ") []); [ln "18"%string 18 "0"%string 0 true | gaps | discriminate | apply ls_nil].
    + apply (ot_dict (lit "/R 1/S 2") (sc_trailer up_old)); [| keys]. cbn [flatten sc_trailer up_old]. one_int "/R"%string "1"%string. one_int "/S"%string "2"%string. apply nil0.
Qed.
Lemma C82_ex : load 9 E0 (fun l => l) updated [] (new_parser updated) = Ok (None, pu) /\ entry (ptrailer pu) (lit "Encrypt") = None /\
  last_start (last256 updated) 96 /\ chain E0 updated 96 [] [up_new; up_old] /\
  only_at updated [0; 18; 78] /\ (forall k, In k [0; 18; 78] -> exists n, header_at updated k n) /\
  object_at E0 updated 78 oc /\ placed updated [0; 18; 78] [up_new; up_old] 78 1 0 (new_xentry 78 0 1) /\ newest 2 [up_new; up_old] = Some (new_xentry 0 1 0) /\
  newest_key (lit "R") [up_new; up_old] = Some (ONum (num_of_Z 3)) /\ newest_key (lit "S") [up_new; up_old] = Some (ONum (num_of_Z 2)).
Proof.
  split; [vm_compute; reflexivity |]. split; [vm_compute; reflexivity |]. split; [apply start_offset; vm_compute; reflexivity |]. split; [apply up_chain |].
  split; [apply only_check; vm_compute; reflexivity |]. split.
  { intros k [<- | [<- | [<- | []]]].
    - exists 1. split; [lia |]. split; [lia |]. split; [lia |]. exists (lit "1 0 obj"), 0, (skipn 7 updated). split; [reflexivity | head "1"%string 1].
    - exists 2. split; [lia |]. split; [lia |]. split; [last_nd |]. exists (lit "2 0 obj"), 0, (skipn 25 updated). split; [vm_compute; reflexivity | head "2"%string 2].
    - exists 1. split; [lia |]. split; [lia |]. split; [last_nd |]. exists (lit "1 0 obj"), 0, (skipn 85 updated). split; [vm_compute; reflexivity | head "1"%string 1]. }
  split; [| split; [| repeat split]].
  - split; [lia | cbn; lia | cbn; lia | last_nd | | intros ? Q; discriminate Q].
    exists (lit "1 0 obj"), (skipn 85 updated). split; [vm_compute; reflexivity |]. split; [head "1"%string 1 |].
    apply (bh_plain E0 _ [] (lit "(c)") (OStr (lit "c")) (lit " ") (skipn 95 updated)); [gaps | str_obj "c"%string | gaps | delim_end | exact I | delim_end | reflexivity].
  - split; [right; right; left; reflexivity |]. split; [intros k [<- | [<- | [<- | []]]] _; lia | repeat split].
Qed.
