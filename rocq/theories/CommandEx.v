(** CommandEx.v -- witnesses for PropCommand.v. *)
From Verif Require Import Base BaseP Msg Reader ReaderP Num Lexer Obj ReadObj Env Getters Crypt GetObj Load Tree Output Parse SpecRead SpecLook SpecTree
  FetchP LookP SecurityP FetchEx Md5 SpecFetch SpecOut StreamEx XrefEx TreeEx RawP ExtractP OutEx SpecSource SourceP AttachP SourceEx
  SpecObj SpecStream SpecWrite WriteEx SpecExact ExactEx SpecList ListEx SpecCommand.
From Coq Require Import Strings.String Sorting.Permutation.

Definition act_objs : list (Z * iobj) :=
  [(1, plain 1 (dic [("OpenAction", ref 2); ("AA", dic [("WC", ref 3)])]));
   (2, plain 2 (dic [("S", nam "Launch"); ("F", dic [("F", str "cmd.exe"); ("P", str "/c dir")])]));
   (3, plain 3 (dic [("S", nam "Launch"); ("Win", dic [("F", ref 8)])]));
   (4, plain 4 (OArr [dic [("URI", str "http://a")]]));
   (5, plain 5 (dic [("X", OArr [ONum (num_of_Z 1); dic [("URI", str "http://b")]; OArr [dic [("JS", str "run")]; dic [("URI", dic [("Base", str "http://c")])]]])]));
   (6, plain 6 (dic [("S", nam "Launch"); ("F", str "evil")]));
   (7, plain 7 (dic [("A", ref 6)]));
   (8, plain 8 (str "calc"))]%string.
Lemma act_all : all_objects E1 acts acts_p act_objs.
Proof.
  split; [repeat constructor; cbn; intuition lia |]. split.
  - intros n. split.
    + intros I. cbn in I. repeat (destruct I as [<- | I]; [used |]). destruct I.
    + intros (e & X & T). unfold xget in X. remember (pxref acts_p) as x eqn:Q. vm_compute in Q. subst x. cbn [mget] in X.
      repeat match type of X with (if Z.eqb n ?m then _ else _) = _ => destruct (Z.eqb_spec n m) as [-> | _]; [cbn; tauto |] end. discriminate.
  - repeat (apply Forall_cons; [cbn [fst snd]; fetch9 |]). apply Forall_nil.
Qed.
Ltac nf := split; [ty |]; split; [intros u (v & V & H) Q; inversion V; subst; discriminate H | un].
Ltac file_c := first [eapply fc_parameters; [nf | ty] | eapply fc_launched; [ty | nf | un]].
Ltac act_c := do 2 eexists; split; [ent file_c |]; split; [ent file_c | reflexivity].
Lemma act_commands : exists lss, Forall2 (commands E1 acts acts_p) (dictionaries act_objs) lss /\ List.concat lss = [lit "cmd.exe /c dir"; lit "calc "].
Proof.
  dicts. eexists. split.
  - repeat (apply Forall2_cons; [do 2 eexists; split; [acts_of act_c |]; split; [names0 | reflexivity] |]). apply Forall2_nil.
  - reflexivity.
Qed.
Lemma C102_ex : order_ok OD1 /\ s_input S1 = Some acts /\ parse E1 OD1 20 S1 [] = (acts_ops, Ok PNone) /\
  load 20 E1 (o_objects OD1) acts [] (new_parser acts) = Ok (None, acts_p) /\ offsets_ok (pxref acts_p) /\ all_objects E1 acts acts_p act_objs /\
  exists lss, Forall2 (commands E1 acts acts_p) (dictionaries act_objs) lss /\ List.concat lss = [lit "cmd.exe /c dir"; lit "calc "].
Proof.
  split; [apply OD1_ok |]. split; [reflexivity |]. split; [apply acts_parse |]. split; [apply acts_load |]. split; [apply acts_offsets |]. split; [apply act_all | apply act_commands].
Qed.

(** ** A list of objects *)
(** A launch action with parameters that is used twice (6), and one for Windows
    without (1); a plain string (1); another action with parameters (9); embedded
    files with and without parameters (3, 4); an address (4). *)
Definition DC : list iobj :=
  [ o_of 1 [("Names", ref 3); ("OpenAction", ref 6); ("AA", dic [("WC", dic [("S", nam "Launch"); ("F", str "calc")]); ("WS", ref 6); ("DS", dic [("S", ref 7); ("Win", dic [("F", str "w")])])])];
    o_of 3 [("EmbeddedFiles", dic [("Names", OArr [str "a"; ref 4; str "b"; dic [("F", str "b"); ("P", str "-x")]; str "c"; dic [("F", str "c")]])])];
    o_of 4 [("F", str "http://u"); ("P", str "no"); ("FS", str "URL")];
    o_of 6 [("S", nam "Launch"); ("F", dic [("F", ref 8); ("P", str "/c dir")])];
    {| inum := 7; igen := 0; ival := nam "Launch"; istream := None |};
    {| inum := 8; igen := 0; ival := str "cmd.exe"; istream := None |};
    o_of 9 [("A", dic [("S", nam "GoToR"); ("F", dic [("F", str "g"); ("P", str "h")]); ("Win", dic [("F", str "v")])])] ]%string.
Definition trC : dict := [(lit "Root", ORef 1 0)].
Definition SC : sys := mksys (Some (w_document DC trC)) (fun _ => true) StatNotExist.
Definition SC_ops : list op := fst (parse E1 OD1 30 SC []).
Lemma DC_good : good_document DC trC.
Proof.
  assert (G : forall o, In o DC -> good_object o) by (intros o I; repeat (destruct I as [<- | I]; [cbv [o_of s_of dic ref nam str map fst snd]; good |]); destruct I).
  constructor; [| exact G | ni]. constructor.
  - intros o I. apply go_lay, G, I.
  - dist.
  - unfold trC. prt.
  - ni.
  - vm_compute. reflexivity.
Qed.
Lemma SC_run : parse E1 OD1 30 SC [] = (SC_ops, Ok PNone).
Proof. vm_compute. reflexivity. Qed.
Lemma C102_ex_list : stored E1 (w_document DC trC) [] (map as_written DC) /\ order_ok OD1 /\ s_input SC = Some (w_document DC trC) /\ parse E1 OD1 30 SC [] = (SC_ops, Ok PNone) /\
  doc_commands 2 (map as_written DC) = Some [lit "cmd.exe /c dir"; lit "cmd.exe /c dir"; lit "w "; lit "b -x"; lit "g h"].
Proof. split; [apply st_written, DC_good |]. split; [apply OD1_ok |]. split; [reflexivity |]. split; [exact SC_run |]. vm_compute. reflexivity. Qed.
