(** TotalEx.v -- witnesses for PropTotal.v. *)
From Verif Require Import FuelP GetObjP Base BaseP Msg Reader ReaderP Num Lexer Obj ReadObj Env Getters Crypt GetObj Load Tree Output Parse SpecRead SpecLook SpecTree
  FetchP TermP XTermP SpecStream LookP SecurityP FetchEx Md5 SpecFetch SpecOut StreamEx XrefEx TreeEx TreeP RawP ExtractP LoadMonoP OutEx SpecSource SourceP AttachP SourceEx
  SpecLex SpecObj ReadEx SpecText SpecPage TextEx PageP SpecPages PagesP PagesEx SpecContents ContentsEx SpecTotal TotalP.
From Coq Require Import Strings.String Sorting.Permutation.

(** ** The stream object whose filter is the object itself *)
Definition Sself : sys := mksys (Some self_filter) (fun _ => true) StatNotExist.
Lemma self_load : forall fuel, load fuel E1 (fun l => l) self_filter [] (new_parser self_filter) = OutOfFuel \/
  exists p, load fuel E1 (fun l => l) self_filter [] (new_parser self_filter) = Ok (None, p) /\ pxref p = self_xref /\ psh p = new_sechandler.
Proof.
  intros fuel. destruct (self_filter_loads E1) as (p & L & _ & X & H). destruct (Nat.le_gt_cases fuel 9) as [Q | Q].
  - destruct (load_mono fuel 9 Q E1 (fun l => l) self_filter [] (new_parser self_filter)) as [Y | Y]; [left; exact Y |].
    right. exists p. rewrite Y. auto.
  - destruct (load_mono 9 fuel ltac:(lia) E1 (fun l => l) self_filter [] (new_parser self_filter)) as [Y | Y]; [congruence |].
    right. exists p. rewrite <- Y. auto.
Qed.
Lemma body_stuck : forall E OD fuel file pw p n e, e_verbose E <> None ->
  load fuel E (o_objects OD) file pw (new_parser file) = OutOfFuel \/
  (load fuel E (o_objects OD) file pw (new_parser file) = Ok (None, p) /\ o_xref OD (pxref p) = [(n, e)] /\ x_type e = XrefTypeIndirectObject /\
   get_object fuel E file n p = OutOfFuel) ->
  snd (parse_body E OD fuel file pw (new_parser file)) = OutOfFuel.
Proof.
  intros E OD fuel file pw p n e V H. unfold parse_body. rewrite (debug_ok E V). unfold xbind at 1. unfold xlift at 1, lift. unfold xbind at 1. unfold xlift at 1.
  destruct H as [L | (L & X & T & G)]; rewrite L; [reflexivity |]. unfold xbind at 1. rewrite X. cbn [extract_all extract_one]. rewrite T.
  change (XrefTypeIndirectObject =? XrefTypeIndirectObject) with true. cbv iota. rewrite (debug_ok E V). unfold xbind at 1, xbind at 1, xlift at 1, lift. unfold xbind at 1, xlift at 1, GetObject, restoring, bind.
  rewrite G. reflexivity.
Qed.
Lemma parse_stuck : forall E OD fuel S file pw, s_input S = Some file -> (forall f, s_create S f = true) ->
  snd (parse_body E OD fuel file pw (new_parser file)) = OutOfFuel -> snd (parse E OD fuel S pw) = OutOfFuel.
Proof.
  intros E OD fuel S file pw I C B. unfold parse. rewrite I. unfold new_output, output_files. cbn [create_files]. rewrite !C.
  destruct (parse_body E OD fuel file pw (new_parser file)) as [w r]. cbn [snd] in B. subst r. reflexivity.
Qed.
Lemma parse_never_ends : exists E OD S file, order_ok OD /\ e_verbose E <> None /\ s_input S = Some file /\ (forall f, s_create S f = true) /\
  (exists p, load 9 E (o_objects OD) file [] (new_parser file) = Ok (None, p)) /\
  forall fuel, snd (parse E OD fuel S []) = OutOfFuel.
Proof.
  exists E1, OD1, Sself, self_filter. split; [apply OD1_ok |]. split; [discriminate |]. split; [reflexivity |]. split; [reflexivity |].
  split; [destruct (self_filter_loads E1) as (p & L & _); exists p; exact L |].
  intros fuel. apply (parse_stuck E1 OD1 fuel Sself self_filter []); [reflexivity | reflexivity |].
  destruct (self_load fuel) as [L | (p & L & X & H)].
  - apply (body_stuck E1 OD1 fuel self_filter [] nothing 0 (new_xentry 0 0 0)); [discriminate |]. left. exact L.
  - apply (body_stuck E1 OD1 fuel self_filter [] p 1 (new_xentry 0 0 1)); [discriminate |]. right. split; [exact L |].
    split; [rewrite X; reflexivity |]. split; [reflexivity |]. exact (self_filter_hangs fuel E1 p X H).
Qed.

(** ** A document with a page, a character map and name trees *)
Definition full : bytes :=
  lit "1 0 obj<</Pages 2 0 R/EmbeddedFiles 4 0 R/URLS<</Names[(u)1]>>>> endobj 2 0 obj<</Contents 3 0 R/Resources<</Font<</F 5 0 R>>>>>> endobj 3 0 obj" ++
  PagesEx.strm "BT/F 1 Tf(x)Tj ET" ++ lit " endobj 4 0 obj<</Names[(a)(b)]/Kids[6 0 R 4 0 R]>> endobj 5 0 obj<</ToUnicode 7 0 R>> endobj 6 0 obj<</Names[(c)(d)]>> endobj 7 0 obj" ++
  PagesEx.strm "1 beginbfchar<78><79>endbfchar" ++ lit " endobj 8 0 obj 8 0 R endobj ".
Definition Sfull : sys := mksys (Some full) (fun _ => true) StatNotExist.
Definition full_p : pst := match load 30 E1 (fun l => l) full [] (new_parser full) with Ok (_, p) => p | _ => nothing end.
Definition urls1 : dict := [(lit "Names", OArr [OStr (lit "u"); ONum (num_of_Z 1)])].
Definition full1 : dict := [(lit "Pages", ref 2); (lit "EmbeddedFiles", ref 4); (lit "URLS", ODict urls1)].
Definition font1 : dict := [(lit "F", ref 5)].
Definition res1 : dict := [(lit "Font", ODict font1)].
Definition full2 : dict := [(lit "Contents", ref 3); (lit "Resources", ODict res1)].
Definition full4 : dict := [(lit "Names", OArr [OStr (lit "a"); OStr (lit "b")]); (lit "Kids", OArr [ref 6; ref 4])].
Definition full5 : dict := [(lit "ToUnicode", ref 7)].
Definition full6 : dict := [(lit "Names", OArr [OStr (lit "c"); OStr (lit "d")])].
Definition full_streams : list bytes := [[]; lit "BT/F 1 Tf(x)Tj ET"; lit "1 beginbfchar<78><79>endbfchar"].
Lemma full_load : load 30 E1 (o_objects OD1) full [] (new_parser full) = Ok (None, full_p).
Proof. vm_compute. reflexivity. Qed.
Lemma full_offsets : offsets_ok (pxref full_p).
Proof.
  intros n e H T. unfold xget in H. remember (pxref full_p) as x eqn:Q. vm_compute in Q. subst x. cbn [mget] in H.
  repeat match type of H with (if ?c then _ else _) = _ => destruct c; [injection H as <-; cbn; lia|] end. discriminate.
Qed.
Lemma full_targets : forall n, exists o, target E1 full full_p n o.
Proof.
  intros n. destruct (xget n (pxref full_p)) as [e |] eqn:X; [| eexists; apply absent_target; assumption].
  unfold xget in X. remember (pxref full_p) as x eqn:Q. vm_compute in Q. subst x. cbn [mget] in X.
  repeat match type of X with (if ?c then _ else _) = _ => let Q := fresh in destruct c eqn:Q; [apply Z.eqb_eq in Q; subst n; eexists; fetch9 |] end.
  discriminate.
Qed.
Lemma full_stream : forall n o, target E1 full full_p n o -> In (match istream o with Some s => s | None => [] end) full_streams.
Proof.
  intros n o T. destruct (xget n (pxref full_p)) as [e |] eqn:X.
  2: { assert (Q : o = new_iobj n) by (eapply target_det; [exact T | apply absent_target; assumption]). subst o. left. reflexivity. }
  unfold xget in X. remember (pxref full_p) as x eqn:Q. vm_compute in Q. subst x. cbn [mget] in X.
  repeat match type of X with (if ?c then _ else _) = _ => let Q := fresh in destruct c eqn:Q;
    [apply Z.eqb_eq in Q; subst n;
     match type of T with target ?E ?f ?p ?n _ =>
       let H := fresh in assert (H : exists o', target E f p n o' /\ In (match istream o' with Some s => s | None => [] end) full_streams)
         by (eexists; split; [fetch9 | vm_compute; tauto]);
       let o' := fresh in let T' := fresh in let N := fresh in destruct H as (o' & T' & N); rewrite (target_det _ _ _ _ _ _ T T'); exact N end |] end.
  discriminate.
Qed.
Ltac held H := apply holds_inv in H; cbv beta iota delta [ref] in H;
  match type of H with
  | False => destruct H
  | _ \/ _ => let I := fresh in destruct H as [-> | (? & ? & I & H)]; [cbn [In]; tauto |]; cbn [In] in I;
      repeat destruct I as [I | I]; [.. | destruct I]; injection I as <- <-; held H
  | _ => let I := fresh in destruct H as (? & I & H); cbn [In] in I; repeat destruct I as [I | I]; [.. | destruct I]; subst; held H
  end.
Lemma full_only : forall h, of_document E1 full full_p h -> In h [full1; urls1; full2; res1; font1; []; full4; full5; full6].
Proof.
  intros h (n & o & d & (e & X & T) & F & V & H). unfold xget in X. remember (pxref full_p) as x eqn:Q. vm_compute in Q. subst x. cbn [mget] in X.
  repeat match type of X with (if ?c then _ else _) = _ => let Q := fresh in destruct c eqn:Q;
    [apply Z.eqb_eq in Q; subst n;
     match type of F with fetched ?E ?f ?p ?n _ =>
       let H := fresh in assert (H : exists o', fetched E f p n o' /\ (In (ival o') (map ODict [full1; full2; []; full4; full5; full6]) \/ ival o' = ref 8))
         by (eexists; split; [fetch9 | vm_compute; tauto]);
       let o' := fresh in let T' := fresh in let N := fresh in destruct H as (o' & T' & N); pose proof (fetched_det _ _ _ _ _ _ F T'); subst o' end |] end; [.. | discriminate].
  all: rewrite V in *; match goal with N : _ \/ _ |- _ => destruct N as [N | N]; [| discriminate N]; cbn [map In] in N;
    repeat destruct N as [N | N]; try (destruct N; fail); injection N as <- end.
  all: held H.
Qed.
Lemma full_maps : maps_end E1 full full_p.
Proof.
  intros c [h page res fonts k info c' _ _ _ _ _ (n & g & o & _ & T & ->)]. pose proof (full_stream n o T) as I. unfold stream_of.
  cbn [full_streams In] in I. destruct I as [<- | [<- | [<- | []]]]; apply moderate_check; vm_compute; reflexivity.
Qed.
Lemma full_names : names_end E1 full full_p.
Proof.
  exists (fun d => d = full4 \/ d = full6 \/ d = urls1). split.
  - intros d ks G A. destruct G as [-> | [-> | ->]].
    + assert (ks = [ref 6; ref 4]) by (eapply array_at_det; [exact A | apply direct_array; reflexivity]). subst ks. split; [| left; reflexivity].
      intros x kd I Nd. destruct I as [<- | [<- | []]].
      * right. left. eapply typed_or_det; [apply is_dict_fun | exact Nd |]. left. indirect.
      * left. eapply typed_or_det; [apply is_dict_fun | exact Nd |]. left. indirect.
    + assert (ks = []) by (eapply array_at_det; [exact A | apply no_array; reflexivity]). subst ks. split; [intros x kd [] | right; intros kd []].
    + assert (ks = []) by (eapply array_at_det; [exact A | apply no_array; reflexivity]). subst ks. split; [intros x kd [] | right; intros kd []].
  - intros h k root D K T. pose proof (full_only h D) as I. cbn [In] in I.
    repeat destruct I as [I | I]; [.. | destruct I]; subst h; destruct K as [-> | ->]; try (exfalso; typed_none T).
    + left. eapply typed_det; [apply is_dict_fun | exact T |]. indirect.
    + right. right. entry_of T. apply typed_direct in T; [injection T as <-; reflexivity | discriminate].
Qed.
Lemma C89_ex : order_ok OD1 /\ e_verbose E1 <> None /\ s_input Sfull = Some full /\ (forall f, s_create Sfull f = true) /\
  load 30 E1 (o_objects OD1) full [] (new_parser full) = Ok (None, full_p) /\ offsets_ok (pxref full_p) /\
  (forall n, exists o, target E1 full full_p n o) /\ names_end E1 full full_p /\ maps_end E1 full full_p /\
  font_map E1 full full_p (lit "1 beginbfchar<78><79>endbfchar") /\
  In (OpEv (EWrite FText (lit "y"))) (fst (parse E1 OD1 30 Sfull [])).
Proof.
  split; [apply OD1_ok |]. split; [discriminate |]. split; [reflexivity |]. split; [reflexivity |]. split; [apply full_load |]. split; [apply full_offsets |].
  split; [apply full_targets |]. split; [apply full_names |]. split; [apply full_maps |]. split; [| vm_compute; tauto].
  apply (fm_page E1 full full_p full1 full2 res1 font1 (lit "F") full5).
  - docd 1 full1. apply hd_here.
  - apply pu_root. indirect.
  - left. eexists. split; [apply v_direct; discriminate | reflexivity].
  - left. eexists. split; [apply v_direct; discriminate | reflexivity].
  - left. indirect.
  - refd 7 (lit "1 beginbfchar<78><79>endbfchar").
Qed.

(** ** The ranks: no stream dictionary of the document holds a reference *)
Definition full_row (n : Z) : bool :=
  match xget n (pxref full_p) with
  | Some e => match ReadObject full (new_decryptor E1 (if x_enc e then sh_string (psh full_p) else CFNone) n (x_gen e)) (snd (read_object_header (seek full (x_off e) (prd full_p)))) with
              | Ok ((v, _), s) => negb (bseq (fst (read_keyword s)) (lit "stream")) || match v with ODict [] => true | _ => false end
              | _ => false
              end
  | None => true
  end.
Lemma full_ranks : forall n v st m, stored E1 full full_p n v st -> refers m v -> (0 <= 0)%nat /\ (st -> (0 < 0)%nat).
Proof.
  intros n v st m (e & er & s & X & T & R & ST) RF. split; [constructor |]. intros H. exfalso. apply ST in H.
  assert (C : full_row n = true).
  { pose proof X as Y. unfold xget in Y. remember (pxref full_p) as x eqn:Q. vm_compute in Q. subst x. cbn [mget] in Y.
    repeat match type of Y with (if ?c then _ else _) = _ => let Q := fresh in destruct c eqn:Q; [apply Z.eqb_eq in Q; subst n; vm_compute; reflexivity |] end. discriminate. }
  unfold full_row in C. rewrite X, R, H, bseq_refl in C. cbn [negb orb] in C. clear - C RF. destruct v as [| | | | | | [| kv d]]; try discriminate C. inversion RF; subst; contradiction.
Qed.
Lemma full_no_panic : forall f n, Resolve f E1 full n full_p <> Panic.
Proof.
  intros f n Q. destruct (full_targets n) as (o & f0 & q & R). destruct (rs_mle f (f + f0) E1 full ltac:(lia) n full_p) as [Y | Y]; [congruence |].
  apply (Resolve_mono _ (f + f0)) in R; [| lia]. congruence.
Qed.

(** ** A document without streams *)
Definition bare : bytes := lit "1 0 obj<</Pages 2 0 R/URLS<</Names[(u)1]>>>> endobj 2 0 obj<</Kids[2 0 R 3 0 R]>> endobj 3 0 obj 3 0 R endobj ".
Definition Sbare : sys := mksys (Some bare) (fun _ => true) StatNotExist.
Definition bare_p : pst := match load 30 E1 (fun l => l) bare [] (new_parser bare) with Ok (_, p) => p | _ => nothing end.
Definition bare1 : dict := [(lit "Pages", ref 2); (lit "URLS", ODict urls1)].
Definition bare2 : dict := [(lit "Kids", OArr [ref 2; ref 3])].
Lemma bare_load : load 30 E1 (o_objects OD1) bare [] (new_parser bare) = Ok (None, bare_p).
Proof. vm_compute. reflexivity. Qed.
Lemma bare_offsets : offsets_ok (pxref bare_p).
Proof.
  intros n e H T. unfold xget in H. remember (pxref bare_p) as x eqn:Q. vm_compute in Q. subst x. cbn [mget] in H.
  repeat match type of H with (if ?c then _ else _) = _ => destruct c; [injection H as <-; cbn; lia|] end. discriminate.
Qed.
Lemma bare_only : forall h, of_document E1 bare bare_p h -> In h [bare1; urls1; bare2].
Proof.
  intros h (n & o & d & (e & X & T) & F & V & H). unfold xget in X. remember (pxref bare_p) as x eqn:Q. vm_compute in Q. subst x. cbn [mget] in X.
  repeat match type of X with (if ?c then _ else _) = _ => let Q := fresh in destruct c eqn:Q;
    [apply Z.eqb_eq in Q; subst n;
     match type of F with fetched ?E ?f ?p ?n _ =>
       let H := fresh in assert (H : exists o', fetched E f p n o' /\ (In (ival o') (map ODict [bare1; bare2]) \/ ival o' = ref 3))
         by (eexists; split; [fetch9 | vm_compute; tauto]);
       let o' := fresh in let T' := fresh in let N := fresh in destruct H as (o' & T' & N); pose proof (fetched_det _ _ _ _ _ _ F T'); subst o' end |] end; [.. | discriminate].
  all: rewrite V in *; match goal with N : _ \/ _ |- _ => destruct N as [N | N]; [| discriminate N]; cbn [map In] in N;
    repeat destruct N as [N | N]; try (destruct N; fail); injection N as <- end.
  all: held H.
Qed.
Lemma bare_names : names_end E1 bare bare_p.
Proof.
  exists (fun d => d = urls1). split.
  - intros d ks -> A. assert (ks = []) by (eapply array_at_det; [exact A | apply no_array; reflexivity]). subst ks. split; [intros x kd [] | right; intros kd []].
  - intros h k root D K T. pose proof (bare_only h D) as I. cbn [In] in I.
    repeat destruct I as [I | I]; [.. | destruct I]; subst h; destruct K as [-> | ->]; try (exfalso; typed_none T).
    entry_of T. apply typed_direct in T; [injection T as <-; reflexivity | discriminate].
Qed.
Lemma bare_any : forall f p, load f E1 (o_objects OD1) bare [] (new_parser bare) = Ok (None, p) -> p = bare_p.
Proof.
  intros f p L. pose proof bare_load as L'.
  assert (A : load (f + 30) E1 (o_objects OD1) bare [] (new_parser bare) = Ok (None, p)) by (destruct (load_mono f (f + 30) ltac:(lia) E1 (o_objects OD1) bare [] (new_parser bare)) as [Y | Y]; congruence).
  assert (B : load (f + 30) E1 (o_objects OD1) bare [] (new_parser bare) = Ok (None, bare_p)) by (destruct (load_mono 30 (f + 30) ltac:(lia) E1 (o_objects OD1) bare [] (new_parser bare)) as [Y | Y]; congruence).
  congruence.
Qed.
Lemma C89_bare_ex : order_ok OD1 /\ e_verbose E1 <> None /\ s_input Sbare = Some bare /\ ~ occurs (lit "stream") bare /\
  (forall f p, load f E1 (o_objects OD1) bare [] (new_parser bare) = Ok (None, p) -> sh_string (psh p) = CFNone /\ offsets_ok (pxref p) /\ names_end E1 bare p) /\
  In (OpEv (EWrite FURLs (lit "u" ++ [x0a]))) (fst (parse E1 OD1 30 Sbare [])).
Proof.
  split; [apply OD1_ok |]. split; [discriminate |]. split; [reflexivity |]. split; [apply occurs_check; vm_compute; reflexivity |].
  split; [| vm_compute; tauto]. intros f p L. rewrite (bare_any f p L). split; [vm_compute; reflexivity |]. split; [apply bare_offsets | apply bare_names].
Qed.
