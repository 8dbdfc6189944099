(** WrongEx.v -- documents with wrong offsets (C114) and with bytes
    behind them (C115). *)
From Verif Require Import Base Plain BaseP Msg Reader ReaderP Num Lexer Obj ReadObj Env Getters Crypt GetObj Xref Load Extract Output Parse Errors SpecLex SpecFetch SpecOut SpecPage SpecObj SpecStream SpecScan SpecXref SpecRead SpecRecover FetchP RepairP RecoverP SpecWrite SpecFollow StreamEx OutEx TotalP WriteEx WriteDocP WriteLoadP SpecWrong WrongP SpecList ListP.
From Coq Require Import Strings.String Sorting.Permutation.

Definition p_of (file : bytes) : pst := match load 9 E1 (o_objects OD1) file [] (new_parser file) with Ok (_, p) => p | _ => new_parser file end.
Lemma OD1_objects : forall m, Permutation (o_objects OD1 m) m.
Proof. intros m. apply Permutation_sym, (proj1 (proj2 OD1_ok)). Qed.

Lemma no_number : forall K, snd (fst (p_int K)) = false -> forall n, ~ int_at K 0 n.
Proof.
  intros K H n IA. change 0 with (pos (prd (new_parser K))) in IA. apply (int_at_iff K _ n (open_wf K)) in IA. assert (Q : fst (p_int K) = (n, true)) by exact IA. rewrite Q in H. discriminate H.
Qed.

(** ** Misled *)
(** The offset of object 2 leads to "2f2861>" in the address of object 1. *)
Definition J0 : bytes := lit "HTTP/1.1 200 OK" ++ [x0d; x0a; x0d; x0a].
Definition F0 : bytes := w_behind J0 D0 tr0.
Definition two : iobj := {| inum := 2; igen := 0; ival := ODict [(lit "Kids", OArr [ORef 3 0]); (lit "Count", ONum (num_of_Z 1))]; istream := None |}.
Lemma F0_load : load 9 E1 (o_objects OD1) F0 [] (new_parser F0) = Ok (None, p_of F0).
Proof. vm_compute. reflexivity. Qed.
Lemma F0_two : fetched E1 F0 (p_of F0) 2 {| inum := 2; igen := 0; ival := OKw (lit "f2861"); istream := None |}.
Proof. exists 9%nat. eexists. vm_compute. reflexivity. Qed.
Lemma C114_bad : exists E front D tr o ord p, good_document D tr /\ ~ occurs (lit "obj") front /\ ~ occurs (lit "xref") front /\ (forall m, Permutation (ord m) m) /\
  load 9 E ord (w_behind front D tr) [] (new_parser (w_behind front D tr)) = Ok (None, p) /\ In o D /\ ~ fetched E (w_behind front D tr) p (inum o) (as_written o).
Proof.
  exists E1, J0, D0, tr0, two, (o_objects OD1), (p_of F0). split; [exact D0_good |]. split; [apply (occurs_check (lit "obj")); vm_compute; reflexivity |]. split; [apply (occurs_check (lit "xref")); vm_compute; reflexivity |].
  split; [exact OD1_objects |]. split; [exact F0_load |]. split; [right; left; reflexivity |]. intros H. pose proof (fetched_det _ _ _ _ _ _ H F0_two) as Q. discriminate Q.
Qed.
(** The number behind startxref leads to the last object, which is taken for a
    cross-reference stream. *)
Definition J7 : bytes := repeat "-"%byte (List.length (w_object (List.last D0 two))).
Definition F7 : bytes := w_behind J7 D0 tr0.
Lemma F7_load : load 9 E1 (o_objects OD1) F7 [] (new_parser F7) = Ok (None, p_of F7).
Proof. vm_compute. reflexivity. Qed.
Lemma C114_bad_trailer : exists E front D tr k ord p, good_document D tr /\ ~ occurs (lit "obj") front /\ ~ occurs (lit "xref") front /\ (forall m, Permutation (ord m) m) /\
  load 9 E ord (w_behind front D tr) [] (new_parser (w_behind front D tr)) = Ok (None, p) /\ entry tr k = None /\ entry (ptrailer p) k = Some (ONum (num_of_Z 1)).
Proof.
  exists E1, J7, D0, tr0, (lit "N"), (o_objects OD1), (p_of F7). split; [exact D0_good |]. split; [apply (occurs_check (lit "obj")); vm_compute; reflexivity |]. split; [apply (occurs_check (lit "xref")); vm_compute; reflexivity |].
  split; [exact OD1_objects |]. split; [exact F7_load |]. split; [reflexivity |]. vm_compute. reflexivity.
Qed.

(** ** A byte order mark *)
Definition JB : bytes := [xef; xbb; xbf].
Lemma JB_few : few JB /\ ~ occurs (lit "obj") JB /\ ~ occurs (lit "xref") JB.
Proof. split; [left; reflexivity |]. split; [apply (occurs_check (lit "obj")) | apply (occurs_check (lit "xref"))]; vm_compute; reflexivity. Qed.
Definition SB : sys := mksys (Some (w_behind JB D0 tr0)) (fun _ => true) StatNotExist.
Definition SB_ops : list op := fst (parse E1 OD1 30 SB []).
Lemma SB_run : parse E1 OD1 30 SB [] = (SB_ops, Ok PNone).
Proof. vm_compute. reflexivity. Qed.

(** ** Other offsets, and lines missing *)
(** object 4 has the offset of object 2, object 1 one behind the file, object 6
    one inside of a string; the others have none *)
Definition JX : bytes := lit "To: you" ++ [x0a; x0a].
Definition lX : list (Z * iobj) := [(9 + zlen JX + zlen (w_object (nth 0 D0 two)), nth 3 D0 two); (9999999999, nth 0 D0 two); (100, nth 5 D0 two)].
Definition KX : bytes := x0d :: x0a :: lit "--part <b>1 2</b>" ++ [x0a; x00; x00].
Lemma KX_quiet : quiet_end KX.
Proof.
  split; [apply (occurs_check (lit "obj")); vm_compute; reflexivity | apply (occurs_check (lit "xref")); vm_compute; reflexivity | | apply (occurs_check (lit "<<")); vm_compute; reflexivity].
  apply no_number. vm_compute. reflexivity.
Qed.
Definition FX : bytes := w_wrong JX D0 lX tr0 77 KX.
Lemma FX_lay : lay_wrong JX D0 lX tr0 77 KX.
Proof.
  constructor.
  - exact (gd_objects _ _ D0_good).
  - exact (ld_numbers _ _ (gd_lay _ _ D0_good)).
  - exact (ld_trailer _ _ (gd_lay _ _ D0_good)).
  - exact (ld_prev _ _ (gd_lay _ _ D0_good)).
  - exact (gd_plain _ _ D0_good).
  - apply (occurs_check (lit "obj")). vm_compute. reflexivity.
  - apply (occurs_check (lit "xref")). vm_compute. reflexivity.
  - exact KX_quiet.
  - assert (B : 0 <= 9 + zlen JX + zlen (w_object (nth 0 D0 two)) < 10 ^ 10) by (vm_compute; split; [discriminate | reflexivity]).
    intros p [<- | [<- | [<- | []]]]; cbn [fst snd]; (split; [cbn; tauto |]); [exact B | lia | lia].
  - dist.
  - lia.
  - right. apply section_check; [lia | vm_compute; reflexivity | vm_compute; reflexivity].
Qed.
Lemma FX_wrong : wrong_document JX D0 lX tr0 77 KX.
Proof.
  constructor; [exact FX_lay |]. intros k o [Q | [Q | [Q | []]]]; injection Q as <- <-.
  - right. apply number_check; [vm_compute; discriminate | vm_compute; discriminate].
  - right. apply number_check; [lia | vm_compute; discriminate].
  - right. apply number_check; [lia | vm_compute; discriminate].
Qed.
Definition SX : sys := mksys (Some FX) (fun _ => true) StatNotExist.
Definition SX_ops : list op := fst (parse E1 OD1 30 SX []).
Lemma SX_run : parse E1 OD1 30 SX [] = (SX_ops, Ok PNone).
Proof. vm_compute. reflexivity. Qed.
Lemma C114_ex : wrong_document JX D0 lX tr0 77 KX /\ direct_kids D0 /\ moderate_maps D0 /\ order_ok OD1 /\ e_verbose E1 <> None /\ s_input SX = Some (w_wrong JX D0 lX tr0 77 KX) /\ (forall f, s_create SX f = true) /\
  parse E1 OD1 30 SX [] = (SX_ops, Ok PNone) /\ content FURLs SX_ops = lit "http://x.example/(a" ++ [x0a] /\ map fst lX = [137; 9999999999; 100].
Proof.
  split; [exact FX_wrong |]. split; [exact D0_direct |]. split; [exact D0_maps |]. split; [apply OD1_ok |]. split; [discriminate |]. split; [reflexivity |]. split; [reflexivity |]. split; [exact SX_run |].
  split; vm_compute; reflexivity.
Qed.
Lemma C114_ex_mark : good_document D0 tr0 /\ few JB /\ ~ occurs (lit "obj") JB /\ ~ occurs (lit "xref") JB /\ s_input SB = Some (w_behind JB D0 tr0) /\ parse E1 OD1 30 SB [] = (SB_ops, Ok PNone) /\
  content FURLs SB_ops = lit "http://x.example/(a" ++ [x0a].
Proof. split; [exact D0_good |]. destruct JB_few as (A & B & C). split; [exact A |]. split; [exact B |]. split; [exact C |]. split; [reflexivity |]. split; [exact SB_run | vm_compute; reflexivity]. Qed.

(** ** Bytes behind the end *)
(** The end of the document is taken for a table that has one line: its number
    is the offset of the right table, its offset that of object 1. *)
Definition K1 : bytes := lit "1 9 0 n".
Definition F1 : bytes := w_before D0 tr0 K1.
Definition n1 : Z := zlen (w_body D0).
Lemma F1_load : load 9 E1 (o_objects OD1) F1 [] (new_parser F1) = Ok (None, p_of F1).
Proof. vm_compute. reflexivity. Qed.
Definition got1 : obj := match GetObject 9 E1 F1 n1 (p_of F1) with Ok (o, _) => ival o | _ => OKw [] end.
Lemma F1_one : fetched E1 F1 (p_of F1) n1 {| inum := n1; igen := 0; ival := got1; istream := None |}.
Proof. exists 9%nat. eexists. vm_compute. reflexivity. Qed.
Lemma C115_bad : exists E D tr back n ord p, good_document D tr /\ ~ occurs (lit "obj") back /\ ~ occurs (lit "xref") back /\ ~ occurs (lit "<<") back /\ (forall m, Permutation (ord m) m) /\
  load 9 E ord (w_before D tr back) [] (new_parser (w_before D tr back)) = Ok (None, p) /\ ~ In n (map inum D) /\
  fetched E (w_before D tr back) p n {| inum := n; igen := 0; ival := match D with o :: _ => ival (as_written o) | [] => OKw [] end; istream := None |} /\ D <> [].
Proof.
  exists E1, D0, tr0, K1, n1, (o_objects OD1), (p_of F1). split; [exact D0_good |]. split; [apply (occurs_check (lit "obj")); vm_compute; reflexivity |]. split; [apply (occurs_check (lit "xref")); vm_compute; reflexivity |].
  split; [apply (occurs_check (lit "<<")); vm_compute; reflexivity |]. split; [exact OD1_objects |]. split; [exact F1_load |]. split; [vm_compute; intuition discriminate |]. split; [| discriminate].
  exact F1_one.
Qed.
(** What is behind the end is taken for the trailer of that table. *)
Definition K2 : bytes := lit "Hello <</Encrypt 1>>".
Definition F2 : bytes := w_before D0 tr0 K2.
Lemma F2_load : load 9 E1 (o_objects OD1) F2 [] (new_parser F2) = Ok (Some EncryptionError, p_of F2).
Proof. vm_compute. reflexivity. Qed.
Lemma C115_bad_trailer : exists E D tr back ord p, good_document D tr /\ ~ occurs (lit "obj") back /\ ~ occurs (lit "xref") back /\ (forall n, ~ int_at back 0 n) /\ (forall m, Permutation (ord m) m) /\
  load 9 E ord (w_before D tr back) [] (new_parser (w_before D tr back)) = Ok (Some EncryptionError, p).
Proof.
  exists E1, D0, tr0, K2, (o_objects OD1), (p_of F2). split; [exact D0_good |]. split; [apply (occurs_check (lit "obj")); vm_compute; reflexivity |]. split; [apply (occurs_check (lit "xref")); vm_compute; reflexivity |].
  split; [apply no_number; vm_compute; reflexivity |]. split; [exact OD1_objects | exact F2_load].
Qed.
Definition SK : sys := mksys (Some (w_before D0 tr0 KX)) (fun _ => true) StatNotExist.
Definition SK_ops : list op := fst (parse E1 OD1 30 SK []).
Lemma SK_run : parse E1 OD1 30 SK [] = (SK_ops, Ok PNone).
Proof. vm_compute. reflexivity. Qed.
Lemma C115_ex : good_document D0 tr0 /\ quiet_end KX /\ direct_kids D0 /\ moderate_maps D0 /\ order_ok OD1 /\ e_verbose E1 <> None /\ s_input SK = Some (w_before D0 tr0 KX) /\ (forall f, s_create SK f = true) /\
  parse E1 OD1 30 SK [] = (SK_ops, Ok PNone) /\ content FURLs SK_ops = lit "http://x.example/(a" ++ [x0a] /\ zlen KX = 22.
Proof.
  split; [exact D0_good |]. split; [exact KX_quiet |]. split; [exact D0_direct |]. split; [exact D0_maps |]. split; [apply OD1_ok |]. split; [discriminate |]. split; [reflexivity |]. split; [reflexivity |]. split; [exact SK_run |].
  split; vm_compute; reflexivity.
Qed.
