(** CommandP.v -- exactly what is written to commands.txt (C102). *)
From Verif Require Import Base BaseP Msg Reader ReaderP Num Lexer Obj ReadObj Env Getters Crypt GetObj Font Page Tree Output Render Extract Load Parse
  RelP GetObjP SpecRead FetchP LookP SecurityP CryptObjP TreeP LoadInvP OutP OutTopP RawP ExtractP SourceP AttachP SpecFetch SpecLook SpecTree SpecOut SpecSource SpecExact ExactP SpecList SpecCommand ListP.
From Coq Require Import Strings.String Sorting.Permutation.
Local Open Scope x_scope.

Section Views.
  Variables (E : env) (OD : order) (file : bytes) (fuel : nat) (p : pst).
  Hypothesis OK : order_ok OD.
  Hypothesis W : reads file p.
  Hypothesis O : offsets_ok (pxref p).
  Let rs := Resolve fuel E file.
  Ltac quiet := apply gives_none;
    first [apply forms_all | apply javascript_all | apply uris_all | apply urls_tree_all | apply page_text_of_all]; intros; reflexivity.
  Notation gc := (gives _ _ (view_of FCommands) with_newline file p).
  Lemma names_det : forall fs f f', names_file E file p fs f -> typed E file p is_string (entry fs (lit "F")) f' -> f' = f.
  Proof. intros fs f f' (T & _) T'. eapply typed_det; [apply is_string_fun | exact T' | exact T]. Qed.
  Lemma file_command_gives : forall fs (P : Prop) c l, (c = true <-> P) -> file_commands E file p P fs l -> gc (file_extract E rs fs c) l.
  Proof.
    intros fs P c l HC H. unfold file_extract.
    assert (NN : (forall f, ~ names_file E file p fs f) \/ exists f, names_file E file p fs f /\ 
      ((exists par, typed E file p is_string (entry fs (lit "P")) par /\ l = [f ++ lit " " ++ par]) \/ (untyped E file p is_string (entry fs (lit "P")) /\ l = if c then [f ++ lit " "] else []))).
    { destruct H as [f par N T | f HP N U | f HP N U | N]; [right; exists f | right; exists f | right; exists f | left; exact N]; (split; [exact N |]).
      - left. exists par. auto.
      - right. split; [exact U |]. rewrite (proj2 HC HP). reflexivity.
      - right. split; [exact U |]. destruct c; [exfalso; apply HP, HC; reflexivity | reflexivity]. }
    assert (LN : (forall f, ~ names_file E file p fs f) -> l = []) by (destruct H as [f par N T | f HP N U | f HP N U | N]; intros X; try reflexivity; exfalso; exact (X _ N)).
    clear H HC. eapply gives_string_any; [exact W | exact O |]. intros [u ok] A. destruct (url_dec E file p _ _ _ A) as [[Q U] | [Q U]]; rewrite Q.
    - rewrite LN by (intros f (_ & N & _); exact (N _ U eq_refl)).
      apply gives_none. repeat first [apply all_ret | apply all_lift | apply all_bind; [| intros [? []]] | apply all_out; repeat constructor].
    - eapply gives_dict_any; [exact W | exact O |]. intros [ef ok1] A1. destruct ok1.
      + assert (T1 : typed E file p is_dict (entry fs (lit "EF")) ef) by (destruct A1 as [[T _] | [_ Z0]]; [exact T | discriminate]).
        rewrite LN by (intros f (_ & _ & N); eapply typed_untyped; [exact T1 | exact N]).
        apply gives_none. repeat first [apply all_ret | apply all_lift | apply all_bind; [| intros [? ?]] | apply all_out; unfold dump_file, manifest_line; repeat constructor].
      + assert (U1 : untyped E file p is_dict (entry fs (lit "EF"))) by (destruct A1 as [[_ Z0] | [U1 _]]; [discriminate | exact U1]).
        assert (NF : forall f, typed E file p is_string (entry fs (lit "F")) f -> names_file E file p fs f).
        { intros f T. split; [exact T |]. split; [| exact U1]. intros v TV ->. exact (U TV). }
        eapply gives_string_any; [exact W | exact O |]. intros [par ok2] A2.
        assert (FIN : forall w : bytes -> list ev, (forall f, typed E file p is_string (entry fs (lit "F")) f -> flat_map (view_of FCommands) (w f) = flat_map with_newline l) ->
          gc (xbind (xlift (d_string rs fs (lit "F"))) (fun '(f, ok) => if ok : bool then xout (w f) else xret tt)) l).
        { intros w HW. eapply gives_string_any; [exact W | exact O |]. intros [f ok3] A3. destruct ok3.
          - apply gives_out. apply HW. destruct A3 as [[T _] | [_ Z0]]; [exact T | discriminate].
          - rewrite LN; [apply gives_ret |]. intros f' (T & _). destruct A3 as [[_ Z0] | [U3 _]]; [discriminate | eapply typed_untyped; [exact T | exact U3]]. }
        destruct ok2.
        * assert (T2 : typed E file p is_string (entry fs (lit "P")) par) by (destruct A2 as [[T _] | [_ Z0]]; [exact T | discriminate]).
          apply FIN. intros f T. destruct NN as [N | (f' & N & [(par' & T' & ->) | [U' _]])].
          -- exfalso. exact (N _ (NF _ T)).
          -- rewrite (names_det _ _ _ N T). assert (par' = par) as -> by (eapply typed_det; [apply is_string_fun | exact T' | exact T2]). change ((f' ++ lit " " ++ par ++ [x0a]) ++ [] = ((f' ++ lit " " ++ par) ++ [x0a]) ++ []).
             rewrite !app_nil_r, <- !app_assoc. reflexivity.
          -- exfalso. eapply typed_untyped; [exact T2 | exact U'].
        * assert (U2 : untyped E file p is_string (entry fs (lit "P")) /\ par = []) by (destruct A2 as [[_ Z0] | [U2 Z0]]; [discriminate | split; [exact U2 | congruence]]). destruct U2 as [U2 ->].
          apply FIN. intros f T. destruct NN as [N | (f' & N & [(par' & T' & _) | [_ ->]])].
          -- exfalso. exact (N _ (NF _ T)).
          -- exfalso. eapply typed_untyped; [exact T' | exact U2].
          -- rewrite (names_det _ _ _ N T). destruct c; [| reflexivity]. change ((f' ++ lit " " ++ [] ++ [x0a]) ++ [] = ((f' ++ lit " ") ++ [x0a]) ++ []). rewrite !app_nil_r, <- !app_assoc. reflexivity.
  Qed.
  Lemma action_command_gives : forall a l, action_commands E file p a l -> gc (action_extract E rs a) l.
  Proof.
    intros a l (l1 & l2 & H1 & H2 & ->). unfold action_extract. eapply gives_about; [apply (name_got E file fuel p W O) |]. intros [s ok] A. cbv zeta.
    assert (HC : ok && bseq s (lit "Launch") = true <-> launch E file p a).
    { unfold launch. destruct A as [[T Q] | [U Q]]; cbn [fst snd] in *.
      - subst ok. cbn [andb]. split; [intros B; apply bseq_eq in B; subst s; exact T |]. intros T'. assert (s = lit "Launch") as -> by (eapply typed_det; [apply is_name_fun | exact T | exact T']). reflexivity.
      - injection Q as -> ->. split; [discriminate |]. intros T. exfalso. eapply typed_untyped; [exact T | exact U]. }
    eapply gives_string_any; [exact W | exact O |]. intros [f ok1] A1. apply gives_bind.
    - destruct ok1; [apply xstill_out |]. apply xstill_bind; [apply xstill_lift, d_dict_still; intros; apply Resolve_still |]. intros [f' ok'].
      destruct ok'; [apply file_extract_still | apply xstill_ret].
    - destruct ok1.
      + assert (l1 = []) as ->. { destruct H1 as [fs l T _ | _]; [| reflexivity]. exfalso. destruct A1 as [[T1 _] | [_ Z0]]; [| discriminate Z0].
          eapply typed_untyped; [exact T | eapply string_no_dict; exact T1]. }
        apply gives_out. reflexivity.
      + eapply gives_dict; [exact W | exact O | exact H1 | |]; cbv beta iota; [intros fs l' _ HF; eapply file_command_gives; [exact HC | exact HF] | apply gives_ret].
    - intros _. eapply gives_dict; [exact W | exact O | exact H2 | |]; cbv beta iota; [intros fs l' _ HF; eapply file_command_gives; [exact HC | exact HF] | apply gives_ret].
  Qed.
  Lemma command_step : forall prs kx l j, nth_error prs j = Some kx -> of_entry E file p is_dict (file_commands E file p False) (Some (snd kx)) l -> forall rest L, gc rest L ->
    gc (embedded_step E file fuel (flat prs) (1 + 2 * Z.of_nat j) rest) (l ++ L).
  Proof.
    intros prs kx l j N H rest L HL. destruct (flat_at _ _ _ N) as [_ Q]. unfold embedded_step. eapply gives_about; [apply (el_string_got E file fuel p W O) |]. intros [f ok] A.
    apply gives_bind; [apply step_calm | | intros _; exact HL]. destruct ok.
    - assert (l = []) as ->. { destruct H as [fs l T _ | _]; [| reflexivity]. exfalso. rewrite Q in A. destruct A as [[T1 _] | [_ Z0]]; [| discriminate Z0].
        eapply typed_untyped; [exact T | eapply string_no_dict; exact T1]. }
      apply gives_out. reflexivity.
    - eapply el_dict_gives; [exact W | exact O | exact Q | exact H | |]; cbv beta iota; [intros fs l' HF; eapply file_command_gives; [| exact HF]; split; [discriminate | contradiction] | apply gives_ret].
  Qed.
  Lemma command_gives : forall st d l, commands E file p d l -> gc (extract_here E OD rs fuel st d) l.
  Proof.
    intros st d l (l1 & l2 & (a1 & a2 & a3 & H1 & H2 & H3 & ->) & HE & ->).
    eapply gives_eq; [eapply (here_gives _ _ _ _ _ _ _ _ _ st d a1 a2 a3 [] l2 [] [] [] []); try quiet | cbn [app]; rewrite <- !app_assoc, app_nil_r; reflexivity].
    - eapply action_at_gives; [exact W | exact O | exact action_command_gives | exact H1].
    - eapply action_at_gives; [exact W | exact O | exact action_command_gives | exact H2].
    - eapply additional_gives; [exact OK | exact W | exact O | exact action_command_gives | exact H3].
    - eapply embedded_gives; [exact W | exact O | | exact HE]. intros prs kx l j. apply command_step.
  Qed.
End Views.

Section Run.
  Variables (E : env) (OD : order) (fuel : nat) (S : sys) (pw : bytes) (ops : list op) (file : bytes) (p : pst) (objs : list (Z * iobj)).
  Hypothesis OK : order_ok OD.
  Hypothesis I : s_input S = Some file.
  Hypothesis P : parse E OD fuel S pw = (ops, Ok PNone).
  Hypothesis L : load fuel E (o_objects OD) file pw (new_parser file) = Ok (None, p).
  Hypothesis Of : offsets_ok (pxref p).
  Hypothesis AO : all_objects E file p objs.
  Lemma exact_commands : forall lss, Forall2 (commands E file p) (dictionaries objs) lss -> exists l, Permutation l (List.concat lss) /\ content FCommands ops = in_lines l.
  Proof.
    intros lss F. pose proof (exact_reads E OD fuel pw file p L) as W.
    destruct (exact_run E OD fuel S pw ops file p objs OK I P L Of AO _ _ _ _ _ _ (command_gives E OD file fuel p OK W Of) (fun _ => eq_refl) F) as (w & (l & PL & Q) & CO & _).
    exists l. split; [exact PL |]. rewrite CO, Q. apply in_lines_view.
  Qed.
End Run.

(** ** Lists of objects *)
Section Listed.
  Variables (E : env) (file : bytes) (D : list iobj) (p : pst).
  Hypothesis W : reads file p.
  Hypothesis OF : offsets_ok (pxref p).
  Hypothesis FD : forall o, In o D -> fetched E file p (inum o) o /\ SpecOut.in_use p (inum o).
  Hypothesis IU : forall n, SpecOut.in_use p n -> exists o, In o D /\ inum o = n.
  Lemma launches_launch : forall a, launches D a = true <-> launch E file p a.
  Proof.
    intros a. unfold launches, launch. pose proof (stands_value E file D p W OF FD IU (entry a (lit "S"))) as V. split.
    - intros H. destruct (stands D (entry a (lit "S"))) as [v |]; [| discriminate]. destruct v; try discriminate. destruct (list_eq_dec _ _ _) as [-> | _]; [| discriminate].
      eexists. split; [exact V | reflexivity].
    - intros (v & V' & Q). rewrite <- (value_det _ _ _ _ _ _ V' V). unfold is_name in Q. subst v. destruct (list_eq_dec _ _ _); congruence.
  Qed.
  Lemma file_commands_list : forall c fs (P : Prop), (c = true <-> P) -> file_commands E file p P fs (l_file_commands D c fs).
  Proof.
    intros c fs P HC. unfold l_file_commands. destruct (address D fs) eqn:A.
    { apply fc_none. intros f (_ & N & _). exact (N _ (address_is E file D p W OF FD IU _ A) eq_refl). }
    destruct (dict_in D (entry fs (lit "EF"))) as [ef |] eqn:F.
    { apply fc_none. intros f (_ & _ & N). eapply typed_untyped; [eapply (dict_typed E file D p W OF FD IU); exact F | exact N]. }
    destruct (text_in D (entry fs (lit "F"))) as [f |] eqn:T.
    2:{ apply fc_none. intros f (N & _). rewrite (text_det E file D p W OF FD IU _ _ _ N eq_refl) in T. discriminate. }
    assert (NF : names_file E file p fs f).
    { split; [apply (text_typed E file D p W OF FD IU); exact T |]. split; [| apply (dict_untyped E file D p W OF FD IU); exact F]. intros u U ->. exact (address_not E file D p W OF FD IU _ A U). }
    destruct (text_in D (entry fs (lit "P"))) as [par |] eqn:TP.
    - apply fc_parameters; [exact NF | apply (text_typed E file D p W OF FD IU); exact TP].
    - apply (text_untyped E file D p W OF FD IU) in TP. destruct c.
      + apply fc_launched; [apply HC; reflexivity | exact NF | exact TP].
      + eapply fc_other; [| exact NF | exact TP]. intros HP. apply HC in HP. discriminate.
  Qed.
  Lemma action_commands_list : forall a, action_commands E file p a (l_action_commands D a).
  Proof.
    intros a. eexists _, _. split; [apply (from_dict_of E file D p W OF FD IU); intros d; apply file_commands_list, launches_launch |].
    split; [apply (from_dict_of E file D p W OF FD IU); intros d; apply file_commands_list, launches_launch | reflexivity].
  Qed.
  Lemma commands_list : forall k d l, l_commands D k d = Some l -> commands E file p d l.
  Proof.
    intros k d l H. unfold l_commands in H. destruct (pairs D k d "EmbeddedFiles") as [fs |] eqn:F; [| discriminate]. injection H as <-.
    eexists _, _. split; [apply (actions_of E file D p W OF FD IU), action_commands_list |]. split; [| reflexivity].
    eapply (pairs_names E file D p W OF FD IU); [exact F |]. intros kx. apply (from_dict_of E file D p W OF FD IU). intros d'. apply file_commands_list. split; [discriminate | contradiction].
  Qed.
End Listed.
Lemma list_commands : forall E OD fuel S pw ops file D, stored E file pw D -> order_ok OD -> s_input S = Some file -> parse E OD fuel S pw = (ops, Ok PNone) ->
  forall k r, doc_commands k D = Some r -> exists l, Permutation l r /\ content FCommands ops = in_lines l.
Proof.
  intros E OD fuel S pw ops file D ST OK IF PR k r H. destruct (run_loaded E OD fuel S pw ops file D ST OK IF PR) as (p & L & W & OF & ND & FD & IU). destruct (gathered_all _ _ _ _ _ H) as (lss & F & ->).
  apply (exact_commands E OD fuel S pw ops file p (map (fun o => (inum o, o)) D) OK IF PR L OF (listed_all E file D p ND FD IU)). rewrite listed_dicts.
  eapply forall2_impl; [| exact F]. intros d l Q. exact (commands_list E file D p W OF FD IU k d l Q).
Qed.
