(** ExtractP.v -- what extraction writes for certain (C53, C54). *)
From Verif Require Import Base BaseP Msg Reader ReaderP Num Lexer Obj ReadObj Env Getters Crypt GetObj Font Page Tree Output Render Extract Load Parse
  RelP GetObjP SpecRead FetchP LookP SecurityP CryptObjP LoadInvP OutP OutTopP RawP SpecFetch SpecLook SpecOut.
From Coq Require Import Strings.String Sorting.Permutation.
Local Open Scope x_scope.

Section Writes.
  Variables (E : env) (OD : order) (file : bytes) (fuel : nat) (p : pst).
  Hypothesis OK : order_ok OD.
  Hypothesis W : reads file p.
  Hypothesis O : offsets_ok (pxref p).
  Let rs := Resolve fuel E file.

  (** every run that ends normally writes [e] *)
  Definition writes {A} (m : X A) (e : ev) : Prop := forall q w a q', kept file p q -> m q = (w, Ok (a, q')) -> In e w.
  Definition calm {A} (m : X A) : Prop := xstill file m.
  Lemma calm_kept : forall A (m : X A), calm m -> forall q w a q', kept file p q -> m q = (w, Ok (a, q')) -> kept file p q'.
  Proof. intros A m C q w a q' K H. eapply kept_trans; [exact K |]. apply stays_kept. eapply C; [exact (proj1 K) | exact H]. Qed.

  Lemma writes_left : forall A B (m : X A) (k : A -> X B) e, writes m e -> writes (xbind m k) e.
  Proof.
    intros A B m k e H q w b q' K R. apply xbind_ok in R. destruct R as (w1 & a & q1 & w2 & R1 & R2 & ->). apply in_or_app. left. eapply H; eassumption.
  Qed.
  Lemma writes_right : forall A B (m : X A) (k : A -> X B) e, calm m -> (forall a, writes (k a) e) -> writes (xbind m k) e.
  Proof.
    intros A B m k e C H q w b q' K R. apply xbind_ok in R. destruct R as (w1 & a & q1 & w2 & R1 & R2 & ->). apply in_or_app. right.
    eapply H; [eapply calm_kept; eassumption | exact R2].
  Qed.
  Lemma writes_known : forall A B (m : M A) (k : A -> X B) a e, got file p m (fun r q => r = a /\ kept file p q) -> writes (k a) e -> writes (xbind (xlift m) k) e.
  Proof.
    intros A B m k a e G H q w b q' K R. apply xbind_ok in R. destruct R as (w1 & a1 & q1 & w2 & R1 & R2 & ->). apply in_or_app. right.
    unfold xlift in R1. injection R1 as _ R1. destruct (G _ _ _ K R1) as [-> K1]. eapply H; eassumption.
  Qed.
  Lemma writes_about : forall A B (m : M A) (k : A -> X B) (Q : A -> Prop) e, got file p m (fun r q => Q r /\ kept file p q) -> (forall a, Q a -> writes (k a) e) -> writes (xbind (xlift m) k) e.
  Proof.
    intros A B m k Q e G H q w b q' K R. apply xbind_ok in R. destruct R as (w1 & a1 & q1 & w2 & R1 & R2 & ->). apply in_or_app. right.
    unfold xlift in R1. injection R1 as _ R1. destruct (G _ _ _ K R1) as [HQ K1]. eapply H; eassumption.
  Qed.
  Lemma writes_out : forall w e, In e w -> writes (xout w) e.
  Proof. intros w e I q w' a q' K R. unfold xout in R. assert (w' = w) by congruence. subst. exact I. Qed.
  Lemma writes_seq : forall l m e, In m l -> (forall m', In m' l -> calm m') -> writes m e -> writes (xseq l) e.
  Proof.
    induction l as [| m0 l IH]; intros m e I C H; [destruct I |]. cbn [xseq]. destruct I as [-> | I]; [apply writes_left; exact H |].
    apply writes_right; [apply C; left; reflexivity |]. intros _. eapply IH; [exact I | | exact H]. intros m' I'. apply C. right. exact I'.
  Qed.

  (** what the getters return *)
  Lemma known_typed : forall A (is : obj -> A -> Prop) zero x (m : M (A * bool)), (forall v a b, is v a -> is v b -> a = b) ->
    got file p m (fun r q => answer E file p is zero x r /\ kept file p q) ->
    forall a, typed E file p is x a -> got file p m (fun r q => r = (a, true) /\ kept file p q).
  Proof.
    intros A is zero x m F G a T. eapply got_weaken; [exact G |]. intros [b ok] q [[[T' B] | [U _]] K]; cbn [fst snd] in *.
    - split; [| exact K]. subst ok. f_equal. eapply typed_det; eassumption.
    - exfalso. eapply typed_untyped; eassumption.
  Qed.
  Lemma known_untyped : forall A (is : obj -> A -> Prop) zero x (m : M (A * bool)),
    got file p m (fun r q => answer E file p is zero x r /\ kept file p q) ->
    untyped E file p is x -> got file p m (fun r q => r = (zero, false) /\ kept file p q).
  Proof.
    intros A is zero x m G U. eapply got_weaken; [exact G |]. intros [b ok] q [[[T' B] | [_ Q]] K]; cbn [fst snd] in *.
    - exfalso. eapply typed_untyped; eassumption.
    - split; assumption.
  Qed.
  Lemma string_got : forall d k, got file p (d_string rs d k) (fun r q => answer E file p is_string [] (entry d k) r /\ kept file p q).
  Proof. intros. apply (d_typed_got E file p W O is_string [] as_string string_classifies is_string_dec). Qed.
  Lemma name_got : forall d k, got file p (d_name rs d k) (fun r q => answer E file p is_name [] (entry d k) r /\ kept file p q).
  Proof. intros. apply (d_typed_got E file p W O is_name [] as_name name_classifies is_name_dec). Qed.
  Lemma dict_got : forall d k, got file p (d_dict rs d k) (fun r q => answer E file p is_dict [] (entry d k) r /\ kept file p q).
  Proof. intros. apply (d_typed_got E file p W O is_dict [] as_dict dict_classifies is_dict_dec). Qed.
  Lemma string_known : forall d k a, typed E file p is_string (entry d k) a -> got file p (d_string rs d k) (fun r q => r = (a, true) /\ kept file p q).
  Proof. intros d k. apply (known_typed _ is_string []); [apply is_string_fun | apply string_got]. Qed.
  Lemma string_known_not : forall d k, untyped E file p is_string (entry d k) -> got file p (d_string rs d k) (fun r q => r = ([], false) /\ kept file p q).
  Proof. intros d k. apply (known_untyped _ is_string []). apply string_got. Qed.
  Lemma name_known : forall d k a, typed E file p is_name (entry d k) a -> got file p (d_name rs d k) (fun r q => r = (a, true) /\ kept file p q).
  Proof. intros d k. apply (known_typed _ is_name []); [apply is_name_fun | apply name_got]. Qed.
  Lemma dict_known : forall d k a, typed E file p is_dict (entry d k) a -> got file p (d_dict rs d k) (fun r q => r = (a, true) /\ kept file p q).
  Proof. intros d k. apply (known_typed _ is_dict []); [apply is_dict_fun | apply dict_got]. Qed.
  Lemma dict_known_not : forall d k, untyped E file p is_dict (entry d k) -> got file p (d_dict rs d k) (fun r q => r = ([], false) /\ kept file p q).
  Proof. intros d k. apply (known_untyped _ is_dict []). apply dict_got. Qed.
  Lemma dict_no_string : forall x d, typed E file p is_dict x d -> untyped E file p is_string x.
  Proof. intros x d (v & V & H). right. exists v. split; [exact V |]. intros a S. unfold is_dict, is_string in *. congruence. Qed.
  Lemma string_no_dict : forall x d, typed E file p is_string x d -> untyped E file p is_dict x.
  Proof. intros x d (v & V & H). right. exists v. split; [exact V |]. intros a S. unfold is_dict, is_string in *. congruence. Qed.
  Lemma stream_known : forall d k s, streamed E file p (entry d k) s -> got file p (d_stream rs d k) (fun r q => r = (Some s, true) /\ kept file p q).
  Proof.
    intros d k s (n & g & o & Q & T & S). unfold d_stream. rewrite dget_entry, Q.
    eapply got_bind; [apply (target_got E file p W O) |]. intros o' T'. pose proof (target_det _ _ _ _ _ _ T T') as <-.
    apply got_ret. intros q K. rewrite S. split; [reflexivity | exact K].
  Qed.

  (** ** URIs and scripts *)
  Lemma uris_writes : forall d u, uri_of E file p d u -> writes (uris rs d) (EWrite FURLs (u ++ [x0a])).
  Proof.
    intros d u H. unfold uris. destruct H as [u T | b u T T'].
    - eapply writes_known; [apply string_known; exact T |]. cbv beta iota. apply writes_out. left. reflexivity.
    - eapply writes_known; [apply string_known_not; eapply dict_no_string; exact T |]. cbv beta iota.
      eapply writes_known; [apply dict_known; exact T |]. cbv beta iota.
      eapply writes_known; [apply string_known; exact T' |]. cbv beta iota. apply writes_out. left. reflexivity.
  Qed.
  Lemma javascript_writes : forall d s, script_of E file p d s -> writes (javascript rs d) (EWrite FJavascript (s ++ [x0a])).
  Proof.
    intros d s H. unfold javascript. destruct H as [s T | s U T].
    - eapply writes_known; [apply string_known; exact T |]. cbv beta iota. apply writes_out. left. reflexivity.
    - eapply writes_known; [apply string_known_not; exact U |]. cbv beta iota.
      eapply writes_known; [apply stream_known; exact T |]. cbv beta iota. apply writes_out. left. reflexivity.
  Qed.

  (** ** Launch actions *)
  Lemma file_writes : forall fs f par, names_file E file p fs f -> parameters E file p fs par ->
    writes (file_extract E rs fs true) (EWrite FCommands ((f ++ lit " " ++ par) ++ [x0a])).
  Proof.
    intros fs f par (F & U & N) PA. unfold file_extract. rewrite <- !app_assoc.
    eapply writes_about; [apply string_got |]. intros [u ok] A.
    assert (B : bseq u (lit "URL") = false).
    { destruct (bseq u (lit "URL")) eqn:B; [| reflexivity]. apply bseq_eq in B. destruct A as [[T _] | [_ Q]]; cbn [fst snd] in *.
      - exfalso. exact (U u T B).
      - assert (u = []) by congruence. subst. discriminate. }
    cbv beta iota. rewrite B. eapply writes_known; [apply dict_known_not; exact N |]. cbv beta iota.
    destruct PA as [T | [T ->]].
    - eapply writes_known; [apply string_known; exact T |]. cbv beta iota. eapply writes_known; [apply string_known; exact F |]. cbv beta iota.
      apply writes_out. right. left. reflexivity.
    - eapply writes_known; [apply string_known_not; exact T |]. cbv beta iota. eapply writes_known; [apply string_known; exact F |]. cbv beta iota.
      apply writes_out. left. reflexivity.
  Qed.
  Lemma action_writes : forall a c, launch E file p a -> command_in_spec E file p a c -> writes (action_extract E rs a) (EWrite FCommands (c ++ [x0a])).
  Proof.
    intros a c L H. unfold action_extract. eapply writes_known; [apply name_known; exact L |]. cbv beta iota zeta.
    change (true && bseq (lit "Launch") (lit "Launch")) with true. destruct H as [fs f par T N P | fs f par T N P].
    - eapply writes_known; [apply string_known_not; eapply dict_no_string; exact T |]. cbv beta iota. apply writes_left.
      eapply writes_known; [apply dict_known; exact T |]. cbv beta iota. apply file_writes; assumption.
    - apply writes_right; [apply xstill_lift, d_string_still; intros; apply Resolve_still |]. intros [f' ok]. apply writes_right.
      { destruct ok; [apply xstill_out |]. apply xstill_bind; [apply xstill_lift, d_dict_still; intros; apply Resolve_still |]. intros [f'' ok'].
        destruct ok'; [apply file_extract_still | apply xstill_ret]. }
      intros _. eapply writes_known; [apply dict_known; exact T |]. cbv beta iota. apply file_writes; assumption.
  Qed.
  Lemma action_at_writes : forall d k a e, typed E file p is_dict (entry d k) a -> writes (action_extract E rs a) e -> writes (action_at E rs d k) e.
  Proof. intros d k a e T H. unfold action_at. eapply writes_known; [apply dict_known; exact T |]. exact H. Qed.
  Lemma actions_writes : forall st d a e, action_of E file p d a -> writes (action_extract E rs a) e -> writes (extract_here E OD rs fuel st d) e.
  Proof.
    intros st d a e H A. unfold extract_here. destruct H as [a T | a T | aa k a T I T'].
    - apply writes_left. eapply action_at_writes; eassumption.
    - apply writes_right; [apply action_at_still | intros _]. apply writes_left. eapply action_at_writes; eassumption.
    - apply writes_right; [apply action_at_still | intros _]. apply writes_right; [apply action_at_still | intros _]. apply writes_left.
      unfold additional_actions. eapply writes_known; [apply dict_known; exact T |]. cbv beta iota.
      eapply (writes_seq _ (action_at E rs aa k)).
      + apply in_map. eapply Permutation_in; [apply (proj1 OK) | exact I].
      + intros m J. apply in_map_iff in J. destruct J as (k' & <- & _). apply action_at_still.
      + eapply action_at_writes; eassumption.
  Qed.
  Lemma uris_here : forall st d e, writes (uris rs d) e -> writes (extract_here E OD rs fuel st d) e.
  Proof.
    intros st d e H. unfold extract_here.
    apply writes_right; [apply action_at_still | intros _]. apply writes_right; [apply action_at_still | intros _].
    apply writes_right; [apply additional_actions_still | intros _]. apply writes_right; [apply forms_still | intros _].
    apply writes_right; [apply embedded_files_still | intros _]. apply writes_right; [unfold javascript; apply javascript_still | intros _].
    apply writes_right; [apply page_text_of_still | intros _]. apply writes_left. exact H.
  Qed.
  Lemma javascript_here : forall st d e, writes (javascript rs d) e -> writes (extract_here E OD rs fuel st d) e.
  Proof.
    intros st d e H. unfold extract_here.
    apply writes_right; [apply action_at_still | intros _]. apply writes_right; [apply action_at_still | intros _].
    apply writes_right; [apply additional_actions_still | intros _]. apply writes_right; [apply forms_still | intros _].
    apply writes_right; [apply embedded_files_still | intros _]. apply writes_left. exact H.
  Qed.

  (** ** Nested dictionaries *)
  Lemma held_writes : forall o d, holds o d -> forall e, (forall st, writes (extract_here E OD rs fuel st d) e) ->
    forall st, writes (extract E OD rs fuel st o) e.
  Proof.
    intros o d H e A. induction H as [d | k x d e' I H IH | x l e' I H IH]; intros st.
    - rewrite extract_dict. apply writes_left. apply A.
    - rewrite extract_dict. apply writes_right; [apply extract_here_still; exact OK |]. intros _.
      destruct (extracts_in E OD rs fuel x 3 st (map snd d) 0) as (st' & J); [apply in_map_iff; exists (k, x); auto |].
      eapply writes_seq; [| | apply IH; exact A].
      + eapply Permutation_in; [apply (proj1 OK) | exact J].
      + intros m' I'. apply (Permutation_in m' (Permutation_sym (proj1 OK (2 :: st) _ _))) in I'. apply in_extracts in I'. destruct I' as (st2 & y & _ & ->).
        apply extract_still. exact OK.
    - rewrite extract_array. destruct (extracts_in E OD rs fuel x 4 st l 0 I) as (st' & J).
      eapply writes_seq; [exact J | | apply IH; exact A]. intros m' I'. apply in_extracts in I'. destruct I' as (st2 & y & _ & ->).
      apply extract_still. exact OK.
  Qed.
End Writes.

(** ** The whole document *)
Section Document.
  Variables (E : env) (OD : order) (file : bytes) (fuel : nat) (p : pst).
  Hypothesis OK : order_ok OD.
  Hypothesis W : reads file p.
  Hypothesis O : offsets_ok (pxref p).

  Lemma extract_one_writes : forall n o en e, x_type en = 1 -> fetched E file p n o ->
    (forall st, writes file p (object_extract E OD (Resolve fuel E file) fuel st o) e) -> writes file p (extract_one E OD fuel file (n, en)) e.
  Proof.
    intros n o en e T F H. unfold extract_one. rewrite T. change (1 =? XrefTypeIndirectObject) with true. cbv iota.
    apply writes_right; [apply xstill_lift, lift_still |]. intros _. eapply (writes_known file p _ _ _ _ o); [| apply writes_left; apply H].
    intros q o' q' K G. split; [| eapply kept_trans; [exact K | eapply GetObject_kept; [exact (proj1 K) | exact G]]].
    destruct (fetched_at E file p q n o (kept_alike _ _ _ K) (fun e' X T' => O n e' X T') F) as (f0 & Hf).
    eapply fetched_det; [exists fuel, q'; exact G |]. destruct (Hf f0 (le_n _)) as (q2 & Q). exists f0, q2. exact Q.
  Qed.
  Lemma extract_one_calm : forall kv, forall q w a q', kept file p q -> extract_one E OD fuel file kv q = (w, Ok (a, q')) -> kept file p q'.
  Proof. intros [n e] q w a q' K H. exact (proj1 (extract_one_raw E OD file p OK _ _ _ _ _ _ _ K H)). Qed.
  Lemma extract_all_writes : forall l kv e, In kv l -> writes file p (extract_one E OD fuel file kv) e -> writes file p (extract_all E OD fuel file l) e.
  Proof.
    induction l as [| kv0 l IH]; intros kv e I H; [destruct I |]. cbn [extract_all]. destruct I as [-> | I]; [apply writes_left; exact H |].
    intros q w a q' K R. apply xbind_ok in R. destruct R as (w1 & a1 & q1 & w2 & R1 & R2 & ->). apply in_or_app. right.
    eapply IH; [exact I | exact H | eapply extract_one_calm; eassumption | exact R2].
  Qed.
End Document.

Lemma parse_writes : forall E OD fuel S pw ops file p, order_ok OD -> s_input S = Some file ->
  parse E OD fuel S pw = (ops, Ok PNone) -> load fuel E (o_objects OD) file pw (new_parser file) = Ok (None, p) -> offsets_ok (pxref p) ->
  forall n o d h e, in_use p n -> fetched E file p n o -> ival o = ODict d -> holds (ODict d) h ->
    (forall st, writes file p (extract_here E OD (Resolve fuel E file) fuel st h) e) -> In (OpEv e) ops.
Proof.
  intros E OD fuel S pw ops file p OK I P L Of n o d h e (en & X & T) F V H Wr.
  assert (SP : sound file p) by (eapply tidy_load; [apply new_sound | exact L]). destruct SP as [W N].
  unfold parse in P. rewrite I in P. destruct (new_output S) as [[ops1 opened] ok]. destruct ok; [| discriminate].
  destruct (parse_body E OD fuel file pw (new_parser file)) as [w [[[e' |] q]| |]] eqn:B; try discriminate.
  destruct (body_ok _ _ _ _ _ _ _ _ _ B) as (p1 & L1 & Y & _). assert (p1 = p) by congruence. subst p1. destruct (Y eq_refl) as (u & Z).
  assert (ops = ops1 ++ map OpEv w ++ close_output opened) by congruence. subst ops.
  apply in_or_app. right. apply in_or_app. left. apply in_map.
  refine (extract_all_writes E OD file fuel p OK (o_xref OD (pxref p)) (n, en) e _ _ p w u q (kept_refl' _ _ W) Z).
  - eapply Permutation_in; [apply (proj2 (proj2 OK)) |]. apply (mget_In Z.eqb Zeqb_ok). exact X.
  - eapply (extract_one_writes E OD file fuel p Of n o); [exact T | exact F |]. intros st. unfold object_extract. rewrite V.
    eapply held_writes; [exact OK | exact H | exact Wr].
Qed.

Lemma parse_uris : forall E OD fuel S pw ops file p, order_ok OD -> s_input S = Some file ->
  parse E OD fuel S pw = (ops, Ok PNone) -> load fuel E (o_objects OD) file pw (new_parser file) = Ok (None, p) -> offsets_ok (pxref p) ->
  forall n o d h, in_use p n -> fetched E file p n o -> ival o = ODict d -> holds (ODict d) h ->
    (forall u, uri_of E file p h u -> In (OpEv (EWrite FURLs (u ++ [x0a]))) ops) /\
    (forall s, script_of E file p h s -> In (OpEv (EWrite FJavascript (s ++ [x0a]))) ops).
Proof.
  intros E OD fuel S pw ops file p OK I P L Of n o d h U F V H.
  assert (W : reads file p) by (apply (tidy_load file fuel E (o_objects OD) pw (new_parser file) None p (new_sound file) L)).
  split; intros u Hu.
  - refine (parse_writes E OD fuel S pw ops file p OK I P L Of n o d h _ U F V H _). intros st. apply uris_here. apply uris_writes; assumption.
  - refine (parse_writes E OD fuel S pw ops file p OK I P L Of n o d h _ U F V H _). intros st. apply javascript_here. apply javascript_writes; assumption.
Qed.
Lemma parse_commands : forall E OD fuel S pw ops file p, order_ok OD -> s_input S = Some file ->
  parse E OD fuel S pw = (ops, Ok PNone) -> load fuel E (o_objects OD) file pw (new_parser file) = Ok (None, p) -> offsets_ok (pxref p) ->
  forall n o d h a c, in_use p n -> fetched E file p n o -> ival o = ODict d -> holds (ODict d) h ->
    action_of E file p h a -> launch E file p a -> command_in_spec E file p a c -> In (OpEv (EWrite FCommands (c ++ [x0a]))) ops.
Proof.
  intros E OD fuel S pw ops file p OK I P L Of n o d h a c U F V H A La C.
  assert (W : reads file p) by (apply (tidy_load file fuel E (o_objects OD) pw (new_parser file) None p (new_sound file) L)).
  refine (parse_writes E OD fuel S pw ops file p OK I P L Of n o d h _ U F V H _). intros st. eapply actions_writes; [exact OK | exact W | exact Of | exact A |].
  apply action_writes; assumption.
Qed.

(** ** C56 *)
Lemma parse_crashes : forall E OD fuel S pw file, e_verbose E = None -> s_input S = Some file -> (forall f, s_create S f = true) ->
  snd (parse E OD fuel S pw) = Panic.
Proof.
  intros E OD fuel S pw file V I C. unfold parse. rewrite I. unfold new_output, output_files. cbn [create_files]. rewrite !C.
  assert (B : parse_body E OD fuel file pw (new_parser file) = ([], Panic)) by (unfold parse_body, xbind, xlift, lift, debug; rewrite V; reflexivity).
  rewrite B. reflexivity.
Qed.
Lemma extract_all_panic : forall E OD file fuel p, order_ok OD -> e_verbose E <> None -> forall l q w, kept file p q -> extract_all E OD fuel file l q = (w, Panic) ->
  exists n e q1, In (n, e) l /\ x_type e = 1 /\ kept file p q1 /\ (GetObject fuel E file n q1 = Panic \/
    exists o q2 st, GetObject fuel E file n q1 = Ok (o, q2) /\ snd (object_extract E OD (Resolve fuel E file) fuel st o q2) = Panic).
Proof.
  intros E OD file fuel p OK V. induction l as [| [n e] l IH]; intros q w K H; [discriminate |]. cbn [extract_all] in H. unfold xbind in H.
  destruct (extract_one E OD fuel file (n, e) q) as [w1 [[u q1]| |]] eqn:X; try discriminate.
  - destruct (extract_all E OD fuel file l q1) as [w2 r] eqn:Y. assert (r = Panic) by congruence. subst r.
    destruct (IH q1 w2 (extract_one_calm E OD file fuel p OK _ _ _ _ _ K X) Y) as (n' & e' & q2 & J & R). exists n', e', q2. split; [right; exact J | exact R].
  - exists n, e, q. split; [left; reflexivity |]. unfold extract_one in X. destruct (x_type e =? XrefTypeIndirectObject) eqn:T; [| discriminate]. apply Z.eqb_eq in T.
    split; [exact T |]. split; [exact K |]. unfold xbind, xlift, lift, debug in X. destruct (e_verbose E); [| congruence].
    destruct (GetObject fuel E file n q) as [[o q2]| |]; try discriminate; [right | left; reflexivity]. exists o, q2, [0; n]. split; [reflexivity |].
    destruct (object_extract E OD (Resolve fuel E file) fuel [0; n] o q2) as [w2 [[u2 q3]| |]]; try discriminate; reflexivity.
Qed.
Lemma parse_panic : forall E OD fuel S pw, order_ok OD -> e_verbose E <> None -> snd (parse E OD fuel S pw) = Panic ->
  exists file, s_input S = Some file /\
    (load fuel E (o_objects OD) file pw (new_parser file) = Panic \/
     exists p n q, load fuel E (o_objects OD) file pw (new_parser file) = Ok (None, p) /\ in_use p n /\ kept file p q /\
       (GetObject fuel E file n q = Panic \/
        exists o q2 st, GetObject fuel E file n q = Ok (o, q2) /\ snd (object_extract E OD (Resolve fuel E file) fuel st o q2) = Panic)).
Proof.
  intros E OD fuel S pw OK V H. unfold parse in H. destruct (s_input S) as [file |]; [| discriminate]. exists file. split; [reflexivity |].
  destruct (new_output S) as [[ops1 opened] ok]. destruct ok; [| discriminate].
  destruct (parse_body E OD fuel file pw (new_parser file)) as [w [[[e' |] q]| |]] eqn:B; try discriminate.
  unfold parse_body in B. unfold xbind in B. unfold xlift, lift, debug in B. destruct (e_verbose E) as [v |] eqn:Vq; [| congruence].
  destruct (load fuel E (o_objects OD) file pw (new_parser file)) as [[[e |] p]| |] eqn:L; try discriminate; [| left; reflexivity]. right.
  assert (SP : sound file p) by (eapply tidy_load; [apply new_sound | exact L]). destruct SP as [W N].
  destruct (extract_all E OD fuel file (o_xref OD (pxref p)) p) as [w1 [[u q1]| |]] eqn:X; try discriminate.
  destruct (extract_all_panic E OD file fuel p OK ltac:(congruence) _ _ _ (kept_refl' _ _ W) X) as (n & e & q1 & I & T & K & R). exists p, n, q1.
  split; [reflexivity |]. split; [| split; [exact K | exact R]]. exists e. split; [| exact T]. apply (In_mget Z.eqb Zeqb_ok); [exact N |].
  eapply Permutation_in; [apply Permutation_sym, (proj2 (proj2 OK)) | exact I].
Qed.
