(** ListP.v -- the output for documents that are lists of objects (C100). *)
From Verif Require Import Base BaseP Msg Reader ReaderP Num Lexer Obj ReadObj Env Getters Crypt GetObj GetObjP Load Output Parse SpecRead SpecFetch SpecLook SpecTree FetchP LookP LoadMonoP RawP SpecOut SpecSource SpecText SpecPage SpecPages
  SpecObj SpecStream SpecWrite WriteP WriteDocP WriteLoadP WriteOutP SpecUpdate UpdateOutP SpecCryptDoc SpecSeal SealP SpecExact ExactP SpecXWrite XWriteP XOutP SpecXSeal XSealP SpecXUpdate XUpdateOutP SpecUSeal USealP SpecWrong WrongP SpecXUSeal XUSealP SpecLinear LinearOutP SpecList.
From Coq Require Import Strings.String Sorting.Permutation.

Lemma forall2_impl : forall A B (P Q : A -> B -> Prop), (forall a b, P a b -> Q a b) -> forall l m, Forall2 P l m -> Forall2 Q l m.
Proof. intros A B P Q H l m F. induction F; constructor; auto. Qed.
(** ** Following references in a list *)
Section Follow.
  Variable D : list iobj.
  Lemma object_in : forall n m g, ival (object D n) = ORef m g -> In n (map inum D).
  Proof.
    intros n m g H. unfold object in H. destruct (find _ D) as [o |] eqn:F; [| discriminate H]. apply find_some in F. destruct F as [I Q]. apply Z.eqb_eq in Q. subst n. apply in_map. exact I.
  Qed.
  Lemma follow_follows : forall k seen n, NoDup seen -> incl seen (map inum D) -> (List.length D <= k + List.length seen)%nat -> follows D seen n (follow D k seen n).
  Proof.
    induction k as [| k IH]; intros seen n ND IN LE; cbn [follow]; destruct (in_dec Z.eq_dec n seen) as [I | I]; try (apply fl_circle; exact I).
    - destruct (ival (object D n)) eqn:V; try (apply fl_value; [exact I | intros m' g' Q; congruence]).
      exfalso. pose proof (object_in _ _ _ V) as IO. assert (LL : (List.length (n :: seen) <= List.length (map inum D))%nat).
      { apply NoDup_incl_length; [constructor; assumption |]. intros x [<- | X]; [exact IO | exact (IN x X)]. }
      rewrite map_length in LL. cbn [List.length] in LL. lia.
    - destruct (ival (object D n)) eqn:V; try (apply fl_value; [exact I | intros m' g' Q; congruence]).
      eapply fl_next; [exact I | exact V |]. apply IH; [constructor; assumption | | cbn [List.length]; lia]. intros x [<- | X]; [exact (object_in _ _ _ V) | exact (IN x X)].
  Qed.
  Lemma follows_det : forall seen n o, follows D seen n o -> forall o', follows D seen n o' -> o = o'.
  Proof.
    intros seen n o H. induction H as [seen n J | seen n J V | seen n m g o J V H IH]; intros o' H'; inversion H' as [J' | J' V' | m' g' o2 J' V' H2]; subst; try tauto; try (exfalso; solve [eapply V; eassumption | eapply V'; eassumption]).
    apply IH. assert (m' = m) by congruence. subst m'. exact H2.
  Qed.
  Lemma followed_follows : forall n o, follows D [] n o <-> o = followed D n.
  Proof.
    intros n o. assert (F : follows D [] n (followed D n)) by (apply follow_follows; [constructor | intros x [] | cbn; lia]).
    split; [intros H; eapply follows_det; eauto | intros ->; exact F].
  Qed.
End Follow.

(** ** A file in which the objects are found *)
Section Held.
  Variables (E : env) (file : bytes) (D : list iobj) (p : pst).
  Hypothesis W : reads file p.
  Hypothesis OF : offsets_ok (pxref p).
  Hypothesis ND : NoDup (map inum D).
  Hypothesis FD : forall o, In o D -> fetched E file p (inum o) o /\ SpecOut.in_use p (inum o).
  Hypothesis IU : forall n, SpecOut.in_use p n -> exists o, In o D /\ inum o = n.

  Lemma object_fetched : forall n, fetched E file p n (object D n).
  Proof.
    intros n. unfold object. destruct (find _ D) as [o |] eqn:F.
    - apply find_some in F. destruct F as [I Q]. apply Z.eqb_eq in Q. subst n. exact (proj1 (FD o I)).
    - apply (held_null E file D p IU). intros I. apply in_map_iff in I. destruct I as (o & Q & I). pose proof (find_none _ _ F o I) as X. cbn in X. apply Z.eqb_neq in X. congruence.
  Qed.
  Lemma follows_resolve : forall seen n o, follows D seen n o -> forall q, pwf file q -> alike p q ->
    exists f0, forall f, (f0 <= f)%nat -> exists q', resolve f E file n seen q = Ok (o, q').
  Proof.
    intros seen n o H. induction H as [seen n I | seen n I V | seen n m g o I V H IH]; intros q Wq A.
    - exists 1%nat. intros f L. destruct f as [| f]; [lia |]. cbn [resolve]. apply zmem_In in I. rewrite I. eexists; reflexivity.
    - destruct (get_here E file p OF n _ q (object_fetched n) Wq A) as (f0 & G). exists (S f0). intros f L. destruct f as [| f]; [lia |]. cbn [resolve].
      destruct (zmem n seen) eqn:Z; [apply zmem_In in Z; tauto |]. unfold bind. destruct (G f) as (q1 & G1 & _); [lia |]. rewrite G1. exists q1.
      destruct (ival (object D n)) eqn:IV; try reflexivity. exfalso. eapply V; reflexivity.
    - destruct (get_here E file p OF n _ q (object_fetched n) Wq A) as (f0 & G). destruct (G f0 (Nat.le_refl _)) as (q1 & G1 & W1 & A1). destruct (IH q1 W1 A1) as (f1 & R).
      exists (S (f0 + f1)). intros f L. destruct f as [| f]; [lia |]. cbn [resolve]. destruct (zmem n seen) eqn:Z; [apply zmem_In in Z; tauto |].
      unfold bind. rewrite (get_object_mono f0 f E file n q (object D n, q1)) by (auto; lia). rewrite V. apply R. lia.
  Qed.
  Lemma followed_target : forall n, target E file p n (followed D n).
  Proof.
    intros n. destruct (follows_resolve [] n (followed D n)) with (q := p) as (f0 & R); [apply followed_follows; reflexivity | exact W | split; reflexivity |].
    destruct (R f0 (Nat.le_refl _)) as (q' & Q). eapply restoring_ok in Q. destruct Q as (q'' & Q). exists f0, q''. exact Q.
  Qed.
  Lemma stands_value : forall x, value E file p x (stands D x).
  Proof.
    intros [x |]; [| constructor]. destruct x; cbn [stands]; try (apply v_direct; discriminate). apply v_ref, followed_target.
  Qed.
  Lemma dict_typed : forall x d, dict_in D x = Some d -> typed E file p is_dict x d.
  Proof. intros x d H. unfold dict_in in H. pose proof (stands_value x) as V. destruct (stands D x) as [v |]; [| discriminate]. destruct v; try discriminate. injection H as <-. eexists. split; [exact V | reflexivity]. Qed.
  Lemma dict_untyped : forall x, dict_in D x = None -> untyped E file p is_dict x.
  Proof. intros x H. unfold dict_in in H. pose proof (stands_value x) as V. destruct (stands D x) as [v |]; [| left; exact V]. right. exists v. split; [exact V |]. intros a Q. unfold is_dict in Q. subst v. discriminate. Qed.
  Lemma text_typed : forall x s, text_in D x = Some s -> typed E file p is_string x s.
  Proof. intros x d H. unfold text_in in H. pose proof (stands_value x) as V. destruct (stands D x) as [v |]; [| discriminate]. destruct v; try discriminate. injection H as <-. eexists. split; [exact V | reflexivity]. Qed.
  Lemma text_untyped : forall x, text_in D x = None -> untyped E file p is_string x.
  Proof. intros x H. unfold text_in in H. pose proof (stands_value x) as V. destruct (stands D x) as [v |]; [| left; exact V]. right. exists v. split; [exact V |]. intros a Q. unfold is_string in Q. subst v. discriminate. Qed.
  Lemma array_typed : forall d k, array_at E file p d k (array_in D (entry d (lit k))).
  Proof.
    intros d k. unfold array_at, array_in. pose proof (stands_value (entry d (lit k))) as V. destruct (stands D (entry d (lit k))) as [v |]; [| right; split; [left; exact V | reflexivity]].
    destruct v; try (right; split; [right; eexists; split; [exact V | intros a Q; discriminate Q] | reflexivity]). left. eexists. split; [exact V | reflexivity].
  Qed.
  Lemma dict_or_typed : forall x, typed_or E file p is_dict x [] (dict_or D x).
  Proof. intros x. unfold dict_or. destruct (dict_in D x) as [d |] eqn:Q; [left; apply dict_typed; exact Q | right; split; [apply dict_untyped; exact Q | reflexivity]]. Qed.
  Lemma data_referred : forall x s, data_in D x = Some s -> referred E file p x s.
  Proof. intros [x |] s H; [| discriminate]. destruct x; try discriminate. injection H as <-. eexists _, _, _. split; [reflexivity |]. split; [apply followed_target | reflexivity]. Qed.
  Lemma data_none : forall x, data_in D x = None -> no_reference x.
  Proof. intros [x |] H n g Q; [| discriminate]. injection Q as ->. discriminate. Qed.
  Lemma data_or_at : forall x, referred E file p x (data_or D x) \/ (no_reference x /\ data_or D x = []).
  Proof. intros x. unfold data_or. destruct (data_in D x) as [s |] eqn:Q; [left; apply data_referred; exact Q | right; split; [apply data_none; exact Q | reflexivity]]. Qed.

  (** ** Lists of what is said *)
  Lemma from_dict_of : forall B (f : dict -> list B) (R : dict -> list B -> Prop) x, (forall d, R d (f d)) -> of_entry E file p is_dict R x (from_dict D f x).
  Proof. intros B f R x H. unfold from_dict. destruct (dict_in D x) as [d |] eqn:Q; [eapply oe_some; [apply dict_typed; exact Q | apply H] | apply oe_none, dict_untyped; exact Q]. Qed.
  Lemma from_text_of : forall B (f : bytes -> list B) (R : bytes -> list B -> Prop) x, (forall s, R s (f s)) -> of_entry E file p is_string R x (from_text D f x).
  Proof. intros B f R x H. unfold from_text. destruct (text_in D x) as [d |] eqn:Q; [eapply oe_some; [apply text_typed; exact Q | apply H] | apply oe_none, text_untyped; exact Q]. Qed.
  Lemma each_of : forall A B (f : A -> list B) (R : A -> list B -> Prop) l, (forall a, R a (f a)) -> of_each R l (flat_map f l).
  Proof.
    intros A B f R l H. exists (map f l). rewrite flat_map_concat_map. split; [| reflexivity]. induction l as [| a l IH]; constructor; auto.
  Qed.
  Lemma actions_of : forall B (f : dict -> list B) (R : dict -> list B -> Prop) d, (forall a, R a (f a)) -> of_actions E file p R d (from_actions D f d).
  Proof.
    intros B f R d H. eexists _, _, _. split; [apply from_dict_of; exact H |]. split; [apply from_dict_of; exact H |]. split; [| reflexivity].
    apply from_dict_of. intros aa. apply each_of. intros k. apply from_dict_of. exact H.
  Qed.

  (** ** Name trees *)
  Lemma distinct_nodup : forall l, distinct l = true -> NoDup l.
  Proof.
    induction l as [| n l IH]; intros H; constructor; cbn [distinct] in H; apply andb_prop in H; destruct H as [H1 H2]; [| exact (IH H2)].
    intros I. apply negb_true_iff in H1. assert (X : existsb (Z.eqb n) l = true) by (apply existsb_exists; exists n; split; [exact I | apply Z.eqb_refl]). congruence.
  Qed.
  Lemma paired_flat : forall m l prs, (List.length l <= m)%nat -> paired l = Some prs -> l = flat prs.
  Proof.
    induction m as [| m IH]; intros l prs LE H; destruct l as [| a [| b l]]; cbn [List.length paired] in *; try discriminate; try lia; try (injection H as <-; reflexivity).
    destruct (paired l) as [q |] eqn:Q; [| discriminate]. injection H as <-. cbn [flat]. rewrite <- (IH l q); [reflexivity | lia | exact Q].
  Qed.
  Lemma tree_names : forall k d ns l, tree D k d = Some (ns, l) -> names_below E file p d ns l.
  Proof.
    induction k as [| k IH]; intros d ns l H; [discriminate |]. cbn [tree] in H.
    set (kids := fix kids (ks : list obj) : option (list Z * list obj) := match ks with [] => Some ([], []) | x :: ks' =>
      match tree D k (dict_or D (Some x)), kids ks' with Some (n1, l1), Some (n2, l2) => Some (match x with ORef n _ => [n] | _ => [] end ++ n1 ++ n2, l1 ++ l2) | _, _ => None end end) in H.
    assert (KI : forall ks ns l, kids ks = Some (ns, l) -> names_in E file p ks ns l).
    { induction ks as [| x ks IK]; intros ns0 l0 Q; cbn [kids] in Q; [injection Q as <- <-; constructor |]. fold kids in Q.
      destruct (tree D k (dict_or D (Some x))) as [[n1 l1] |] eqn:T; [| discriminate]. destruct (kids ks) as [[n2 l2] |] eqn:KS; [| discriminate]. injection Q as <- <-.
      pose proof (dict_or_typed (Some x)) as DT. destruct x; cbn [app]; try (eapply ni_direct; [discriminate | exact DT | apply IH; exact T | apply IK; reflexivity]).
      eapply ni_ref; [exact DT | apply IH; exact T | apply IK; reflexivity]. }
    destruct (kids (array_in D (entry d (lit "Kids")))) as [[ns0 l0] |] eqn:Q; [| discriminate]. injection H as <- <-.
    eapply nb; [apply array_typed | apply array_typed | apply KI; exact Q].
  Qed.
  Lemma pairs_names : forall k d key prs B (f : obj * obj -> list B) (R : obj * obj -> list B -> Prop), pairs D k d key = Some prs -> (forall kx, R kx (f kx)) ->
    of_names E file p R d key (flat_map f prs).
  Proof.
    intros k d key prs B f R H HR. unfold pairs in H. destruct (dict_in D (entry d (lit key))) as [root |] eqn:Q.
    - destruct (tree D k root) as [[ns l] |] eqn:T; [| discriminate]. destruct (distinct ns) eqn:DN; [| discriminate]. eapply on_tree; [| apply each_of; exact HR].
      exists root, ns. split; [apply dict_typed; exact Q |]. split; [| apply distinct_nodup; exact DN]. rewrite <- (paired_flat (List.length l) l prs (le_n _) H). eapply tree_names. exact T.
    - injection H as <-. apply on_none, dict_untyped. exact Q.
  Qed.

  (** ** What is said about a dictionary *)
  Lemma scripts_list : forall d, scripts E file p d (l_scripts D d).
  Proof.
    intros d. unfold l_scripts. destruct (text_in D (entry d (lit "JS"))) as [s |] eqn:T; [apply ss_some, sl_string, text_typed; exact T |].
    destruct (data_in D (entry d (lit "JS"))) as [s |] eqn:Q; [apply ss_some, sl_stream; [apply text_untyped; exact T | apply data_referred; exact Q] |].
    apply ss_none; [apply text_untyped; exact T | apply data_none; exact Q].
  Qed.
  Lemma address_is : forall fs, address D fs = true -> is_url E file p fs.
  Proof. intros fs H. unfold address in H. destruct (text_in D (entry fs (lit "FS"))) as [u |] eqn:T; [| discriminate]. destruct (list_eq_dec _ u (lit "URL")) as [-> | _]; [apply text_typed; exact T | discriminate]. Qed.
  Lemma text_det : forall x s s', typed E file p is_string x s -> text_in D x = s' -> s' = Some s.
  Proof. intros x s s' (v & V & Q) <-. pose proof (value_det _ _ _ _ _ _ V (stands_value x)) as Z. unfold is_string in Q. subst v. unfold text_in. rewrite <- Z. reflexivity. Qed.
  Lemma address_not : forall fs, address D fs = false -> ~ is_url E file p fs.
  Proof. intros fs H U. unfold address in H. rewrite (text_det _ _ _ U eq_refl) in H. destruct (list_eq_dec _ (lit "URL") (lit "URL")); congruence. Qed.
  Lemma file_urls_list : forall fs, file_urls E file p fs (l_file_urls D fs).
  Proof.
    intros fs. unfold l_file_urls. destruct (address D fs) eqn:A; [apply fu_url; [apply address_is; exact A | apply from_text_of; intros s; reflexivity] | apply fu_none, address_not; exact A].
  Qed.
  Lemma action_urls_list : forall a, action_urls E file p a (l_action_urls D a).
  Proof. intros a. eexists _, _. split; [apply from_dict_of, file_urls_list |]. split; [apply from_dict_of, file_urls_list | reflexivity]. Qed.
  Lemma uri_list : forall d, uri E file p d (l_uri D d).
  Proof.
    intros d. unfold l_uri. pose proof (stands_value (entry d (lit "URI"))) as V. set (x := entry d (lit "URI")) in *.
    assert (NO : (forall s, stands D x <> Some (OStr s)) -> (forall b, stands D x <> Some (ODict b)) -> forall u, ~ uri_of E file p d u).
    { intros N1 N2 u [u' (v & V' & Q) | b u' (v & V' & Q) _]; fold x in V'; pose proof (value_det _ _ _ _ _ _ V' V) as Z; [eapply N1 | eapply N2]; rewrite <- Z, Q; reflexivity. }
    destruct (stands D x) as [v |] eqn:S; [| apply ui_none, NO; discriminate].
    destruct v; try (apply ui_none, NO; discriminate).
    - apply ui_some, ur_string. eexists. split; [exact V | reflexivity].
    - rename d0 into e. unfold from_text. destruct (text_in D (entry e (lit "Base"))) as [u |] eqn:T.
      + apply ui_some. eapply ur_base; [eexists; split; [exact V | reflexivity] | apply text_typed; exact T].
      + apply ui_none. intros u [u' (v' & V' & Q) | b u' (v' & V' & Q) U]; fold x in V'; pose proof (value_det _ _ _ _ _ _ V' V) as Z; [unfold is_string in Q; congruence |].
        unfold is_dict in Q. assert (b = e) by congruence. subst b. rewrite (text_det _ _ _ U eq_refl) in T. discriminate.
  Qed.
  Lemma urls_list : forall k d l, l_urls D k d = Some l -> urls E file p d l.
  Proof.
    intros k d l H. unfold l_urls in H. destruct (pairs D k d "EmbeddedFiles") as [fs |] eqn:F; [| discriminate]. destruct (pairs D k d "URLS") as [us |] eqn:U; [| discriminate]. injection H as <-.
    eexists _, _, _, _. split; [apply actions_of, action_urls_list |]. split; [eapply pairs_names; [exact F | intros kx; apply from_dict_of, file_urls_list] |].
    split; [apply uri_list |]. split; [eapply pairs_names; [exact U | intros kx; apply from_text_of; intros s; reflexivity] | reflexivity].
  Qed.
  Lemma file_items_list : forall fs, file_items E file p fs (l_file_items D fs).
  Proof.
    intros fs. unfold l_file_items. destruct (address D fs) eqn:A; [apply fi_url, address_is; exact A |]. apply address_not in A. destruct (dict_in D (entry fs (lit "EF"))) as [ef |] eqn:F.
    - eapply fi_inside; [exact A | apply dict_typed; exact F | | apply data_or_at]. destruct (text_in D (entry fs (lit "F"))) as [s |] eqn:T; [left; apply text_typed; exact T | right; split; [apply text_untyped; exact T | reflexivity]].
    - unfold from_text. destruct (text_in D (entry fs (lit "F"))) as [s |] eqn:T.
      + apply fi_outside. split; [apply text_typed; exact T |]. split; [| apply dict_untyped; exact F]. intros u U ->. exact (A U).
      + apply fi_none; [exact A | apply dict_untyped; exact F | apply text_untyped; exact T].
  Qed.
  Lemma spec_items_list : forall x, spec_items E file p x (l_spec_items D x).
  Proof. intros x. eexists _, _. split; [apply from_text_of; intros s; reflexivity |]. split; [apply from_dict_of, file_items_list | reflexivity]. Qed.
  Lemma action_items_list : forall a, action_items E file p a (l_action_items D a).
  Proof. intros a. eexists _, _. split; [apply spec_items_list |]. split; [apply from_dict_of, file_items_list | reflexivity]. Qed.
  Lemma joined_list : forall a, joined E file p a (flat_map (fun x => data_or D (Some x)) a).
  Proof.
    induction a as [| x a IH]; [constructor |]. cbn [flat_map]. destruct (data_or_at (Some x)) as [R | [N ->]]; [apply jn_stream; assumption | apply jn_other; assumption].
  Qed.
  Lemma form_list : forall d, form_items E file p d (l_form D d).
  Proof.
    intros d. unfold l_form. destruct (entry d (lit "XFA")) as [x |] eqn:X.
    - destruct x; try (apply fm_none; rewrite X; [intros m g' Q; discriminate Q | right; eexists; split; [apply v_direct; discriminate | intros a Q; discriminate Q]]).
      + apply fm_stream. rewrite X. apply data_referred. reflexivity.
      + eapply fm_array; [rewrite X; intros m g' Q; discriminate Q | rewrite X; eexists; split; [apply v_direct; discriminate | reflexivity] | apply joined_list].
    - apply fm_none; rewrite X; [intros m g' Q; discriminate Q | left; constructor].
  Qed.
  Lemma items_list : forall k d l, l_items D k d = Some l -> items_of E file p d l.
  Proof.
    intros k d l H. unfold l_items in H. destruct (pairs D k d "EmbeddedFiles") as [fs |] eqn:F; [| discriminate]. injection H as <-.
    eexists _, _, _. split; [apply actions_of, action_items_list |]. split; [apply form_list |]. split; [eapply pairs_names; [exact F | intros kx; apply spec_items_list] | reflexivity].
  Qed.

  (** ** Text *)
  Lemma page_tree_unfolded : forall k path ks ts, page_tree D k path ks = Some ts -> unfolded E file p path ks ts.
  Proof.
    induction k as [| k IH]; intros path ks; [discriminate |]. induction ks as [| x ks IK]; intros ts H; cbn [page_tree] in H; [injection H as <-; constructor |].
    assert (NR : (forall n g, x <> ORef n g) -> page_tree D (S k) path ks = Some ts -> unfolded E file p path (x :: ks) ts) by (intros N Q; apply un_other; [exact N | apply IK; exact Q]).
    destruct x; try (apply NR; [discriminate | exact H]). clear NR. cbn [page_tree] in IK.
    match type of H with match ival ?o with _ => _ end = _ => destruct (ival o) eqn:V end;
      try (apply un_none; [intros d (o & T & Q); pose proof (target_det _ _ _ _ _ _ T (followed_target n)) as Z; subst o; congruence | apply IK; exact H]).
    destruct (in_dec Z.eq_dec n path) as [I | I]; [apply un_back; [exact I | apply IK; exact H] |].
    destruct (page_tree D k (n :: path) _) as [sub |] eqn:PT1; [| discriminate].
    match type of H with match ?K with _ => _ end = _ => destruct K as [ts' |] eqn:KT; [| discriminate] end. injection H as <-.
    eapply un_page; [exact I | eexists; split; [apply followed_target | exact V] | apply array_typed | apply IH; exact PT1 | apply IK; reflexivity].
  Qed.
  Lemma streams_list : forall a, streams_in E file p a (flat_map (fun x => match data_in D (Some x) with Some s => [s] | None => [] end) a).
  Proof.
    induction a as [| x a IH]; [constructor |]. cbn [flat_map]. destruct (data_in D (Some x)) as [s |] eqn:Q; [apply si_ref; [apply data_referred; exact Q | exact IH] | apply si_other; [apply data_none; exact Q | exact IH]].
  Qed.
  Lemma contents_list : forall page, contents_of E file p page (l_contents D page).
  Proof.
    intros page. unfold l_contents. destruct (entry page (lit "Contents")) as [x |] eqn:X.
    - destruct x; try (apply ct_none; rewrite X; [intros m g' Q; discriminate Q | right; eexists; split; [apply v_direct; discriminate | intros a Q; discriminate Q]]).
      + apply ct_stream. rewrite X. apply data_referred. reflexivity.
      + eapply ct_array; [exact X | apply streams_list].
    - apply ct_none; rewrite X; [intros m g' Q; discriminate Q | left; constructor].
  Qed.
  Lemma fonts_list : forall page fs, l_fonts D page fs -> fonts_of E file p page fs.
  Proof.
    intros page fs H. unfold l_fonts in H. exists (dict_or D (entry page (lit "Resources"))). split; [apply dict_or_typed |]. eexists. split; [apply dict_or_typed |].
    intros n. destruct (H n) as [[I (v & Q & ms & F)] | N]; [left | right; exact N]. split; [exact I |]. exists v. split; [exact Q |]. eexists _, _, ms. split; [apply dict_or_typed |]. split; [apply data_or_at |]. exact F.
  Qed.
  Lemma texts_list : forall k d ls, l_texts D k d ls -> texts E file p d ls.
  Proof.
    intros k d ls (pages & lss & PG & F & ->). unfold l_pages in PG. destruct (dict_in D (entry d (lit "Pages"))) as [root |] eqn:R.
    - destruct (page_tree D k [] _) as [ts |] eqn:T; [| discriminate]. injection PG as <-. eapply tx_pages.
      + exists root. eexists _, ts. split; [apply dict_typed; exact R |]. split; [apply array_typed |]. split; [eapply page_tree_unfolded; exact T | reflexivity].
      + eapply forall2_impl; [| exact F]. intros page l (fs & ls & A & B & C). exists fs, (l_contents D page), ls. split; [apply fonts_list; exact A |]. split; [apply contents_list |]. split; assumption.
    - injection PG as <-. inversion F; subst. apply tx_none, dict_untyped. exact R.
  Qed.

  (** ** The objects in use *)
  Lemma listed_all : all_objects E file p (map (fun o => (inum o, o)) D).
  Proof.
    split; [rewrite map_map; exact ND |]. split.
    - intros n. rewrite map_map. cbn [fst]. split; [intros I; apply in_map_iff in I; destruct I as (o & <- & I); exact (proj2 (FD o I)) | intros U; destruct (IU n U) as (o & I & <-); apply in_map; exact I].
    - apply Forall_forall. intros no I. apply in_map_iff in I. destruct I as (o & <- & I). exact (proj1 (FD o I)).
  Qed.
  Lemma listed_dicts : dictionaries (map (fun o => (inum o, o)) D) = l_dicts D.
  Proof. unfold dictionaries, l_dicts. rewrite !flat_map_concat_map, map_map. reflexivity. Qed.
End Held.

(** ** Files with a list of objects *)
Lemma stored_found : forall E file pw D, stored E file pw D -> forall ord fuel p, (forall m, Permutation (ord m) m) -> load fuel E ord file pw (new_parser file) = Ok (None, p) ->
  reads file p /\ offsets_ok (pxref p) /\ NoDup (map inum D) /\ (forall o, In o D -> fetched E file p (inum o) o /\ SpecOut.in_use p (inum o)) /\ (forall n, SpecOut.in_use p n -> exists o, In o D /\ inum o = n).
Proof.
  assert (MAP : forall D, map inum (map as_written D) = map inum D) by (intros D; rewrite map_map; apply map_ext; intros o; apply as_written_num).
  assert (IN : forall D n, (exists o, In o D /\ inum o = n) -> exists o, In o (map as_written D) /\ inum o = n).
  { intros D n (o & I & <-). exists (as_written o). split; [apply in_map; exact I | apply as_written_num]. }
  intros E file pw D ST ord fuel p P L. inversion ST as [D0 tr pw0 GD | rs pw0 GU | D0 C tr pr pw0 M SD | D0 xs d data pw0 GX | D0 C xs d data pr pw0 M SX | rs pw0 GX | rs cs pr pw0 M SX | Ds cs pr pw0 M SX | J D0 l tr off K0 pw0 WD | lx pw0 GLx]; subst.
  - destruct (document_loaded E D0 tr GD 2 ord pw (le_n _) P) as (p' & L' & W & LG & SH & TR & OF & XG & IU). pose proof (load_det _ _ _ _ _ _ _ _ _ L L') as Q. assert (p' = p) by congruence. subst p'. clear Q L'.
    destruct (document_read E D0 tr GD 2 ord pw (le_n _) P) as (p' & L' & FD & _). pose proof (load_det _ _ _ _ _ _ _ _ _ L L') as Q. assert (p' = p) by congruence. subst p'. clear Q L'.
    split; [exact W |]. split; [exact OF |]. split; [rewrite MAP; exact (ld_numbers _ _ (gd_lay _ _ GD)) |]. split; [| intros n U; apply IN, IU; exact U].
    intros o I. apply in_map_iff in I. destruct I as (o' & <- & I). rewrite (proj1 (as_written_num o')). split; [exact (FD o' I) |]. destruct (place_of D0 o' I) as (k & K). exists (new_xentry k (igen o') 1). split; [exact (XG k o' K) | reflexivity].
  - assert (F1 : (2 <= 2 + List.length rs)%nat) by lia. assert (F2 : (List.length rs <= 2 + List.length rs)%nat) by lia.
    destruct (updates_found E rs GU _ ord pw F1 F2 P) as (p' & L' & W & LG & SH & T1 & T2 & OF & ND & XG & IU). pose proof (load_det _ _ _ _ _ _ _ _ _ L L') as Q. assert (p' = p) by congruence. subst p'. clear Q L'.
    split; [exact W |]. split; [exact OF |]. split; [rewrite MAP; exact ND |]. split; [| intros n U; apply IN, IU; exact U].
    intros o I. apply in_map_iff in I. destruct I as (o' & <- & I). rewrite (proj1 (as_written_num o')). exact (found_held E _ _ p W SH XG o' I).
  - destruct (sealed_state E D C tr pr pw M SD _ _ _ P L) as (OF & W & FD & IU & _). split; [exact W |]. split; [exact OF |]. split; [exact (sealed_numbers _ _ _ _ _ _ SD) |]. split; assumption.
  - destruct (x_after E D0 xs d data GX _ _ _ _ _ P L) as (_ & S1). pose proof (x_held E D0 xs d data GX p S1) as FD. destruct S1 as (W & LG & SH & TR & OF & XG & IU).
    rewrite <- (x_wr_list E D0 xs d data GX). split; [exact W |]. split; [exact OF |]. split; [rewrite map_map; erewrite map_ext; [exact (lx_numbers _ _ _ _ _ GX) | intros o; apply x_wr_num] |]. split.
    + intros o I. apply in_map_iff in I. destruct I as (o' & <- & I). rewrite x_wr_num. exact (FD o' I).
    + intros n U. destruct (IU n U) as (o & I & <-). exists (x_wr xs data o). split; [apply in_map; exact I | apply x_wr_num].
  - destruct (xsealed_after E D0 C xs d data pr pw M SX _ _ _ P L) as (W & OF & FD & IU & _). split; [exact W |]. split; [exact OF |]. split; [exact (xsealed_numbers _ _ _ _ _ _ _ _ SX) |]. split; assumption.
  - destruct (xu_after E rs GX _ _ _ _ _ P L) as (_ & S1). pose proof (xu_held E rs p S1) as FD. destruct S1 as (W & LG & SH & T1 & T2 & OF & ND & XG & IU). split; [exact W |]. split; [exact OF |]. split; [exact ND |]. split; assumption.
  - destruct (usealed_after E rs cs pr pw M SX _ _ _ P L) as (W & OF & FD & IU & _). split; [exact W |]. split; [exact OF |]. split; [exact (usealed_numbers _ _ _ _ _ SX) |]. split; assumption.
  - destruct (xusealed_after E Ds cs pr pw M SX _ _ _ P L) as (W & OF & FD & IU & _). split; [exact W |]. split; [exact OF |]. split; [exact (xusealed_numbers _ _ _ _ _ SX) |]. split; assumption.
  - destruct (wrong_state E J D0 l tr off K0 WD _ _ _ _ P L) as (W & OF & ND & FD & IU & _). auto.
  - destruct (linear_state E lx GLx _ _ _ _ P L) as (W & OF & FD & IU & _). split; [exact W |]. split; [exact OF |]. split; [rewrite MAP; exact (gl_numbers _ GLx) |]. split; [| intros n U; apply IN, IU; exact U].
    intros o I. apply in_map_iff in I. destruct I as (o' & <- & I). rewrite (proj1 (as_written_num o')). exact (FD o' I).
Qed.
Lemma stored_followed : forall E file pw D, stored E file pw D -> forall ord fuel p, (forall m, Permutation (ord m) m) -> load fuel E ord file pw (new_parser file) = Ok (None, p) ->
  forall n o, target E file p n o <-> follows D [] n o.
Proof.
  intros E file pw D ST ord fuel p P L n o. destruct (stored_found _ _ _ _ ST _ _ _ P L) as (W & OF & ND & FD & IU). rewrite followed_follows. pose proof (followed_target E file D p W OF FD IU n) as T.
  split; [intros H; eapply target_det; eauto | intros ->; exact T].
Qed.

Lemma gathered_all : forall A B (f : A -> option (list B)) l r, gathered f l = Some r -> exists ls, Forall2 (fun a x => f a = Some x) l ls /\ r = List.concat ls.
Proof.
  intros A B f. induction l as [| a l IH]; intros r H; cbn [gathered] in H; [injection H as <-; exists []; split; [constructor | reflexivity] |].
  destruct (f a) as [x |] eqn:Q; [| discriminate]. destruct (gathered f l) as [y |]; [| discriminate]. injection H as <-. destruct (IH y eq_refl) as (ls & F & ->). exists (x :: ls). split; [constructor; assumption | reflexivity].
Qed.

Section Run.
  Variables (E : env) (OD : order) (fuel : nat) (S : sys) (pw : bytes) (ops : list op) (file : bytes) (D : list iobj).
  Hypothesis ST : stored E file pw D.
  Hypothesis OK : order_ok OD.
  Hypothesis IF : s_input S = Some file.
  Hypothesis PR : parse E OD fuel S pw = (ops, Ok PNone).
  Lemma run_loaded : exists p, load fuel E (o_objects OD) file pw (new_parser file) = Ok (None, p) /\ reads file p /\ offsets_ok (pxref p) /\ NoDup (map inum D) /\
    (forall o, In o D -> fetched E file p (inum o) o /\ SpecOut.in_use p (inum o)) /\ (forall n, SpecOut.in_use p n -> exists o, In o D /\ inum o = n).
  Proof.
    destruct (parse_ok _ _ _ _ _ _ PR) as (file' & p & w & u & q & I' & L & _). assert (file' = file) by congruence. subst file'. exists p. split; [exact L |].
    exact (stored_found E file pw D ST _ _ _ (fun m => Permutation_sym (proj1 (proj2 OK) m)) L).
  Qed.
  Lemma list_scripts : exists l, Permutation l (doc_scripts D) /\ content FJavascript ops = in_lines l.
  Proof.
    destruct run_loaded as (p & L & W & OF & ND & FD & IU). unfold doc_scripts. rewrite flat_map_concat_map.
    apply (exact_scripts E OD fuel S pw ops file p (map (fun o => (inum o, o)) D) OK IF PR L OF (listed_all E file D p ND FD IU)). rewrite listed_dicts.
    generalize (l_dicts D). intros l. induction l as [| d l IH]; constructor; [apply scripts_list; assumption | exact IH].
  Qed.
  Lemma list_urls : forall k r, doc_urls k D = Some r -> exists l, Permutation l r /\ content FURLs ops = in_lines l.
  Proof.
    intros k r H. destruct run_loaded as (p & L & W & OF & ND & FD & IU). destruct (gathered_all _ _ _ _ _ H) as (lss & F & ->).
    apply (exact_urls E OD fuel S pw ops file p (map (fun o => (inum o, o)) D) OK IF PR L OF (listed_all E file D p ND FD IU)). rewrite listed_dicts.
    eapply forall2_impl; [| exact F]. intros d l Q. exact (urls_list E file D p W OF FD IU k d l Q).
  Qed.
  Lemma list_files : forall k r, doc_items k D = Some r -> exists l ts, Permutation l r /\
    Forall2 (item_line (e_md5 E)) l ts /\ content FFiles ops = List.concat ts /\ Forall2 (fun data nd => hexed (e_md5 E data) (fst nd) /\ snd nd = data) (insides l) (dumps ops).
  Proof.
    intros k r H. destruct run_loaded as (p & L & W & OF & ND & FD & IU). destruct (gathered_all _ _ _ _ _ H) as (lss & F & ->).
    apply (exact_items E OD fuel S pw ops file p (map (fun o => (inum o, o)) D) OK IF PR L OF (listed_all E file D p ND FD IU)). rewrite listed_dicts.
    eapply forall2_impl; [| exact F]. intros d l Q. exact (items_list E file D p W OF FD IU k d l Q).
  Qed.
  Lemma list_text : forall k lss, Forall2 (l_texts D k) (l_dicts D) lss -> exists lss', Permutation lss' lss /\ content FText ops = in_lines (List.concat lss').
  Proof.
    intros k lss F. destruct run_loaded as (p & L & W & OF & ND & FD & IU).
    apply (exact_text E OD fuel S pw ops file p (map (fun o => (inum o, o)) D) OK IF PR L OF (listed_all E file D p ND FD IU)). rewrite listed_dicts.
    eapply forall2_impl; [| exact F]. intros d l Q. exact (texts_list E file D p W OF FD IU k d l Q).
  Qed.
End Run.
