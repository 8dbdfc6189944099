(** OrderEx.v -- witnesses for PropOrder.v. *)
From Verif Require Import Base BaseP Msg Reader ReaderP Num Lexer Obj Env GetObj Xref Load Tree Output Parse SpecOut SpecOrder OutEx OrderP.
From Coq Require Import Strings.String Sorting.Permutation.

(** Orders: as stored, all maps backwards, and with the first entry last. *)
Definition ODi : order := mkorder (fun _ _ l => l) (fun x => x) (fun x => x).
Definition ODr : order := mkorder (fun _ _ l => rev l) (fun x => rev x) (fun x => rev x).
Definition turn (x : xmap) : xmap := match x with a :: t => t ++ [a] | [] => [] end.
Definition ODt : order := mkorder (fun _ _ l => l) (fun x => x) turn.
Lemma ODi_ok : order_ok ODi.
Proof. split; [| split]; intros; cbn; auto using Permutation_refl. Qed.
Lemma ODr_ok : order_ok ODr.
Proof. split; [| split]; intros; cbn; auto using Permutation_rev, Permutation_sym, Permutation_rev. Qed.
Lemma ODt_ok : order_ok ODt.
Proof.
  split; [| split]; intros; cbn; auto using Permutation_refl. destruct x; cbn; [constructor | apply Permutation_cons_append].
Qed.

(** Object 1 lies at the offset 18446744073709551615 according to its
    cross-reference section, which is -1 as an int64.  Reading it before any
    other object reads on from where the last read ended, which is the buffered
    part of the file, so the address in object 8 is found twice. *)
Definition neg : bytes :=
  lit "xref" ++ x0a :: lit "1 1" ++ x0a :: lit "18446744073709551615 00000 n" ++ x0a :: lit "trailer<<>>" ++ x0a ::
  lit "5 0 obj(a)endobj 6 0 obj(b)endobj " ++ repeat " "%byte (4096 - 34) ++ lit "8 0 obj<</URI(c)>>endobj 9 0 obj<</URI(d)>>endobj ".
Definition Sn : sys := mksys (Some neg) (fun _ => true) StatNotExist.
Lemma neg_lens : (snd (parse E1 ODi 20 Sn []), snd (parse E1 ODt 20 Sn []),
  written_to FURLs (writes (fst (parse E1 ODi 20 Sn []))), written_to FURLs (writes (fst (parse E1 ODt 20 Sn [])))) =
  (Ok PNone, Ok PNone, [lit "c" ++ [x0a]; lit "c" ++ [x0a]; lit "d" ++ [x0a]], [lit "c" ++ [x0a]; lit "d" ++ [x0a]]).
Proof. vm_compute. reflexivity. Qed.
Lemma order_refuted : exists E OD1 OD2 fuel S ops1 ops2, order_ok OD1 /\ order_ok OD2 /\ (2 <= fuel)%nat /\
  parse E OD1 fuel S [] = (ops1, Ok PNone) /\ parse E OD2 fuel S [] = (ops2, Ok PNone) /\ ~ same_writes (e_fmt E) (writes ops1) (writes ops2).
Proof.
  pose proof neg_lens as N. exists E1, ODi, ODt, 20%nat, Sn, (fst (parse E1 ODi 20 Sn [])), (fst (parse E1 ODt 20 Sn [])).
  destruct (parse E1 ODi 20 Sn []) as [o1 r1], (parse E1 ODt 20 Sn []) as [o2 r2]. cbn [fst snd] in *. injection N as N1 N2 N3 N4.
  split; [exact ODi_ok |]. split; [exact ODt_ok |]. split; [lia |]. split; [congruence |]. split; [congruence |].
  intros H. destruct (same_writes_files _ _ _ H) as (P & _). specialize (P FURLs ltac:(discriminate)). rewrite N3, N4 in P.
  apply Permutation_length in P. discriminate.
Qed.

(** Two objects with addresses and a cross-reference section. *)
Definition two : bytes := lit "1 0 obj<</A(x)/URI(u)>> endobj 2 0 obj<</URI(v)/B 1 0 R>> endobj xref 1 2 0 0 n 31 0 n trailer<</R 1>> startxref 65 %%EOF".
Definition S2 : sys := mksys (Some two) (fun _ => true) StatNotExist.
Definition two_tab : xmap :=
  match find_objects 20 E1 two (new_parser two) with
  | Ok (objs, p0) => match pseek two (zlen two) p0 with
                     | Ok (_, p1) => match load_all 20 E1 two (xref_offsets two objs) p1 with Ok (_, p) => pxref p | _ => [] end
                     | _ => [] end
  | _ => [] end.
Lemma two_inside : forall x, sections_table 20 E1 two x -> offsets_inside x.
Proof.
  intros x (objs & p0 & p1 & p & H1 & H2 & H3 & ->). assert (Q : two_tab = pxref p) by (unfold two_tab; rewrite H1, H2, H3; reflexivity).
  rewrite <- Q. intros n e G. assert (B : forallb (fun ke => 0 <=? x_off (snd ke)) two_tab = true) by (vm_compute; reflexivity).
  apply (BaseP.mget_In Z.eqb Zeqb_ok) in G. rewrite forallb_forall in B. specialize (B _ G). cbn [snd] in B. lia.
Qed.
Definition two_ops (OD : order) : list op := fst (parse E1 OD 20 S2 []).
Lemma C85_ex : order_ok ODi /\ order_ok ODr /\ (forall file x, s_input S2 = Some file -> sections_table 20 E1 file x -> offsets_inside x) /\
  (exists x, sections_table 20 E1 two x /\ xget 2 x = Some (new_xentry 31 0 1)) /\
  parse E1 ODi 20 S2 [] = (two_ops ODi, Ok PNone) /\ written_to FURLs (writes (two_ops ODi)) = [lit "u" ++ [x0a]; lit "v" ++ [x0a]] /\
  written_to FRaw (writes (two_ops ODi)) = [lit "1 0 obj" ++ [x0a] ++ lit "<</A (x)/URI (u)>>" ++ [x0a] ++ lit "endobj" ++ [x0a; x0a];
    lit "2 0 obj" ++ [x0a] ++ lit "<</URI (v)/B 1 0 R>>" ++ [x0a] ++ lit "endobj" ++ [x0a; x0a]] /\
  parse E1 ODr 20 S2 [] = (two_ops ODr, Ok PNone) /\ written_to FURLs (writes (two_ops ODr)) = [lit "v" ++ [x0a]; lit "u" ++ [x0a]] /\
  written_to FRaw (writes (two_ops ODr)) = [lit "2 0 obj" ++ [x0a] ++ lit "<</B 1 0 R/URI (v)>>" ++ [x0a] ++ lit "endobj" ++ [x0a; x0a];
    lit "1 0 obj" ++ [x0a] ++ lit "<</URI (u)/A (x)>>" ++ [x0a] ++ lit "endobj" ++ [x0a; x0a]].
Proof.
  split; [exact ODi_ok |]. split; [exact ODr_ok |].
  split; [intros file x H; injection H as <-; apply two_inside |].
  split; [| repeat split; vm_compute; reflexivity].
  exists two_tab. split; [| vm_compute; reflexivity]. unfold sections_table, two_tab.
  assert (B : match find_objects 20 E1 two (new_parser two) with
    | Ok (objs, p0) => match pseek two (zlen two) p0 with
                       | Ok (_, p1) => match load_all 20 E1 two (xref_offsets two objs) p1 with Ok (_, p) => true | _ => false end
                       | _ => false end
    | _ => false end = true) by (vm_compute; reflexivity).
  destruct (find_objects 20 E1 two (new_parser two)) as [[objs p0]| |]; try discriminate B.
  destruct (pseek two (zlen two) p0) as [[[] p1]| |] eqn:H2; try discriminate B.
  destruct (load_all 20 E1 two (xref_offsets two objs) p1) as [[[] p]| |] eqn:H3; try discriminate B.
  exists objs, p0, p1, p. auto.
Qed.
