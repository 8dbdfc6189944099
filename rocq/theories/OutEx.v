(** OutEx.v -- witnesses for PropOut.v. *)
From Verif Require Import Base BaseP Msg Reader ReaderP Num Lexer Obj ReadObj Env Getters Crypt GetObj Load Tree Output Parse SpecRead SpecLook
  FetchP LookP SecurityP FetchEx Md5 SpecFetch SpecOut TreeEx RawP ExtractP.
From Coq Require Import Strings.String Sorting.Permutation.

(** Launch actions with a file specification (2, 3) and with a plain string
    (6), an array object with an address in it (4), nested dictionaries (5). *)
Definition acts : bytes :=
  lit "1 0 obj<</OpenAction 2 0 R/AA<</WC 3 0 R>>>> endobj " ++
  lit "2 0 obj<</S/Launch/F<</F(cmd.exe)/P(/c dir)>>>> endobj " ++
  lit "3 0 obj<</S/Launch/Win<</F 8 0 R>>>> endobj " ++
  lit "4 0 obj[<</URI(http://a)>>] endobj " ++
  lit "5 0 obj<</X[1<</URI(http://b)>>[<</JS(run)>><</URI<</Base(http://c)>>>>]]>> endobj " ++
  lit "6 0 obj<</S/Launch/F(evil)>> endobj " ++
  lit "7 0 obj<</A 6 0 R>> endobj " ++
  lit "8 0 obj(calc) endobj ".
Definition E1 : env := {| e_md5 := md5; e_aes_dec := e_aes_dec E0; e_zlib := e_zlib E0; e_lzw := e_lzw E0; e_tiff_lzw := e_tiff_lzw E0;
  e_fmt := e_fmt E0; e_verbose := Some false |}.
Definition OD1 : order := mkorder (fun _ _ l => l) (fun x => x) (fun x => rev x).
Definition S1 : sys := mksys (Some acts) (fun _ => true) StatNotExist.
Definition nothing : pst := new_parser [].
Definition acts_p : pst := match load 20 E1 (fun l => l) acts [] (new_parser acts) with Ok (_, p) => p | _ => nothing end.
Definition acts_ops : list op := fst (parse E1 OD1 20 S1 []).

Lemma OD1_ok : order_ok OD1.
Proof.
  split; [| split]; intros; cbn; auto using Permutation_refl, Permutation_rev.
Qed.
Lemma acts_load : load 20 E1 (o_objects OD1) acts [] (new_parser acts) = Ok (None, acts_p).
Proof. vm_compute. reflexivity. Qed.
Lemma acts_parse : parse E1 OD1 20 S1 [] = (acts_ops, Ok PNone).
Proof. vm_compute. reflexivity. Qed.
Lemma acts_offsets : offsets_ok (pxref acts_p).
Proof.
  intros n e H T. unfold xget in H. remember (pxref acts_p) as x eqn:Q. vm_compute in Q. subst x. cbn [mget] in H.
  repeat match type of H with (if ?c then _ else _) = _ => destruct c; [injection H as <-; cbn; lia|] end. discriminate.
Qed.

(** MD5 sums have 16 bytes *)
Lemma md5_16 : forall b, List.length (md5 b) = 16%nat.
Proof.
  intros b. unfold md5. match goal with |- context [md5_blocks ?n ?s ?l] => destruct (md5_blocks n s l) as [[[x y] z] t] end. reflexivity.
Qed.

Lemma C51_ex : fst (main E1 OD1 20 S1 2 false []) <> [] /\
  fst (main E1 OD1 20 (mksys (Some acts) (fun _ => true) StatExists) 2 false []) = [] /\
  fst (main E1 OD1 20 (mksys None (fun _ => true) StatExists) 2 true []) = [].
Proof. split; [vm_compute; discriminate |]. split; vm_compute; reflexivity. Qed.

(** errors.txt is created and never closed *)
Lemma close_refuted : exists E OD fuel S pw, snd (parse E OD fuel S pw) = Ok PNone /\ s_create S FErrors = true /\
  In (OpCreate FErrors) (fst (parse E OD fuel S pw)) /\ ~ In (OpClose FErrors) (fst (parse E OD fuel S pw)).
Proof.
  exists E1, OD1, 20%nat, S1, []. split; [vm_compute; reflexivity |]. split; [reflexivity |].
  split; [vm_compute; tauto |]. vm_compute. intros H. repeat (destruct H as [H | H]; [discriminate |]). exact H.
Qed.

(** the array object 4 *)
Definition plain (n : Z) (o : obj) : iobj := {| inum := n; igen := 0; ival := o; istream := None |}.
Definition uri_a : dict := [(lit "URI", OStr (lit "http://a"))].
Ltac used := eexists; split; [vm_compute; reflexivity | reflexivity].
Lemma uris_refuted : exists E OD fuel S pw ops file p n o h u, order_ok OD /\ s_input S = Some file /\ parse E OD fuel S pw = (ops, Ok PNone) /\
  load fuel E (o_objects OD) file pw (new_parser file) = Ok (None, p) /\ offsets_ok (pxref p) /\
  in_use p n /\ fetched E file p n o /\ holds (ival o) h /\ uri_of E file p h u /\ ~ In (OpEv (EWrite FURLs (u ++ [x0a]))) ops.
Proof.
  exists E1, OD1, 20%nat, S1, [], acts_ops, acts, acts_p, 4, (plain 4 (OArr [ODict uri_a])), uri_a, (lit "http://a").
  split; [apply OD1_ok |]. split; [reflexivity |]. split; [apply acts_parse |]. split; [apply acts_load |]. split; [apply acts_offsets |].
  split; [used |]. split; [fetch9 |]. split; [eapply hd_array; [left; reflexivity | apply hd_here] |].
  split; [apply ur_string; eexists; split; [apply v_direct; discriminate | reflexivity] |].
  vm_compute. intros H. repeat (destruct H as [H | H]; [discriminate |]). exact H.
Qed.
Definition base_c : dict := [(lit "Base", OStr (lit "http://c"))].
Definition js5 : dict := [(lit "JS", OStr (lit "run"))].
Definition uri5 : dict := [(lit "URI", ODict base_c)].
Definition d5' : dict := [(lit "X", OArr [ONum (num_of_Z 1); ODict [(lit "URI", OStr (lit "http://b"))]; OArr [ODict js5; ODict uri5]])].
Lemma C53_ex : order_ok OD1 /\ s_input S1 = Some acts /\ parse E1 OD1 20 S1 [] = (acts_ops, Ok PNone) /\
  load 20 E1 (o_objects OD1) acts [] (new_parser acts) = Ok (None, acts_p) /\ offsets_ok (pxref acts_p) /\
  in_use acts_p 5 /\ fetched E1 acts acts_p 5 (plain 5 (ODict d5')) /\ holds (ODict d5') js5 /\ holds (ODict d5') uri5 /\
  script_of E1 acts acts_p js5 (lit "run") /\ uri_of E1 acts acts_p uri5 (lit "http://c").
Proof.
  split; [apply OD1_ok |]. split; [reflexivity |]. split; [apply acts_parse |]. split; [apply acts_load |]. split; [apply acts_offsets |].
  split; [used |]. split; [fetch9 |].
  split; [eapply hd_dict; [left; reflexivity |]; eapply hd_array; [right; right; left; reflexivity |]; eapply hd_array; [left; reflexivity | apply hd_here] |].
  split; [eapply hd_dict; [left; reflexivity |]; eapply hd_array; [right; right; left; reflexivity |]; eapply hd_array; [right; left; reflexivity | apply hd_here] |].
  split; [apply sc_string; eexists; split; [apply v_direct; discriminate | reflexivity] |].
  eapply ur_base; eexists; (split; [apply v_direct; discriminate | reflexivity]).
Qed.

(** the launch action 6 *)
Definition a6 : dict := [(lit "S", OName (lit "Launch")); (lit "F", OStr (lit "evil"))].
Lemma commands_refuted : exists E OD fuel S pw ops file p n o d h a c, order_ok OD /\ s_input S = Some file /\ parse E OD fuel S pw = (ops, Ok PNone) /\
  load fuel E (o_objects OD) file pw (new_parser file) = Ok (None, p) /\ offsets_ok (pxref p) /\
  in_use p n /\ fetched E file p n o /\ ival o = ODict d /\ holds (ODict d) h /\
  action_of E file p h a /\ launch E file p a /\ command_of E file p a c /\ ~ In (OpEv (EWrite FCommands (c ++ [x0a]))) ops.
Proof.
  exists E1, OD1, 20%nat, S1, [], acts_ops, acts, acts_p, 7, (plain 7 (ODict [(lit "A", ref 6)])), [(lit "A", ref 6)], [(lit "A", ref 6)], a6, (lit "evil").
  split; [apply OD1_ok |]. split; [reflexivity |]. split; [apply acts_parse |]. split; [apply acts_load |]. split; [apply acts_offsets |].
  split; [used |]. split; [fetch9 |]. split; [reflexivity |]. split; [apply hd_here |].
  split; [apply ac_a; eexists; split; [apply v_ref; fetch9 | reflexivity] |].
  split; [eexists; split; [apply v_direct; discriminate | reflexivity] |].
  split; [apply cm_string; eexists; split; [apply v_direct; discriminate | reflexivity] |].
  vm_compute. intros H. repeat (destruct H as [H | H]; [discriminate |]). exact H.
Qed.
Definition fs2 : dict := [(lit "F", OStr (lit "cmd.exe")); (lit "P", OStr (lit "/c dir"))].
Definition a2 : dict := [(lit "S", OName (lit "Launch")); (lit "F", ODict fs2)].
Definition fs3 : dict := [(lit "F", ref 8)].
Definition a3 : dict := [(lit "S", OName (lit "Launch")); (lit "Win", ODict fs3)].
Definition d1' : dict := [(lit "OpenAction", ref 2); (lit "AA", ODict [(lit "WC", ref 3)])].
Ltac direct := eexists; split; [apply v_direct; discriminate | reflexivity].
Ltac missing := left; apply v_none.
Lemma C54_ex : in_use acts_p 1 /\ fetched E1 acts acts_p 1 (plain 1 (ODict d1')) /\ holds (ODict d1') d1' /\
  action_of E1 acts acts_p d1' a2 /\ launch E1 acts acts_p a2 /\ command_in_spec E1 acts acts_p a2 (lit "cmd.exe /c dir") /\
  action_of E1 acts acts_p d1' a3 /\ launch E1 acts acts_p a3 /\ command_in_spec E1 acts acts_p a3 (lit "calc ").
Proof.
  split; [used |]. split; [fetch9 |]. split; [apply hd_here |].
  split; [apply ac_open; eexists; split; [apply v_ref; fetch9 | reflexivity] |]. split; [direct |].
  split.
  { apply (cs_file E1 acts acts_p a2 fs2 (lit "cmd.exe") (lit "/c dir")); [direct | | left; direct].
    split; [direct |]. split; [| missing]. intros u (v & V & _). inversion V. }
  split; [eapply ac_additional; [direct | left; reflexivity |]; eexists; split; [apply v_ref; fetch9 | reflexivity] |]. split; [direct |].
  apply (cs_win E1 acts acts_p a3 fs3 (lit "calc") []); [direct | | right; split; [missing | reflexivity]].
  split; [eexists; split; [apply v_ref; fetch9 | reflexivity] |]. split; [| missing]. intros u (v & V & _). inversion V.
Qed.

Lemma library_crashes : exists E OD S, order_ok OD /\ e_verbose E = None /\ s_input S = Some acts /\ forall fuel pw, snd (parse E OD fuel S pw) = Panic.
Proof. exists E0, OD1, S1. split; [apply OD1_ok |]. split; [reflexivity |]. split; [reflexivity |]. intros. eapply parse_crashes; reflexivity. Qed.
(** a stream with a predictor that needs a row of 2^63 bytes *)
Definition crash : bytes :=
  lit "1 0 obj<</Filter/LZWDecode/DecodeParms<</Predictor 2/BitsPerComponent 3/Colors 4611686018427387904/Columns 3>>>>stream" ++ x0a ::
  lit "abc" ++ x0a :: lit "endstream endobj ".
Definition S2 : sys := mksys (Some crash) (fun _ => true) StatNotExist.
Lemma C56_ex : order_ok OD1 /\ e_verbose E1 <> None /\ snd (parse E1 OD1 20 S2 []) = Panic /\ snd (parse E1 OD1 20 S1 []) = Ok PNone.
Proof. split; [apply OD1_ok |]. split; [discriminate |]. split; vm_compute; reflexivity. Qed.
(** a file with a dumped stream *)
Definition form : bytes :=
  lit "1 0 obj<</XFA 2 0 R>>endobj 2 0 obj<<>>stream" ++ x0a :: lit "abc" ++ x0a :: lit "endstream endobj ".
Definition S3 : sys := mksys (Some form) (fun _ => true) StatNotExist.
Lemma C57_ex : In (OpEv (EDump (lit "900150983cd24fb0d6963f7d28e17f72") (lit "abc"))) (fst (parse E1 OD1 20 S3 [])) /\
  hash_name (lit "900150983cd24fb0d6963f7d28e17f72").
Proof.
  split; [vm_compute; tauto |]. split; [reflexivity |]. intros c H. 
  repeat (destruct H as [<- | H]; [vm_compute; tauto |]). destruct H.
Qed.
Lemma C55_ex : order_ok OD1 /\ s_input S3 = Some form /\ parse E1 OD1 20 S3 [] = (fst (parse E1 OD1 20 S3 []), Ok PNone) /\
  content FRaw (fst (parse E1 OD1 20 S3 [])) =
    lit "2 0 obj" ++ [x0a] ++ lit "<<>>" ++ [x0a] ++ lit "stream" ++ [x0a] ++ lit "abc" ++ [x0a] ++ lit "endstream" ++ [x0a] ++ lit "endobj" ++ [x0a; x0a] ++
    lit "1 0 obj" ++ [x0a] ++ lit "<</XFA 2 0 R>>" ++ [x0a] ++ lit "endobj" ++ [x0a; x0a].
Proof. split; [apply OD1_ok |]. split; [reflexivity |]. split; vm_compute; reflexivity. Qed.
