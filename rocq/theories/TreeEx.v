(** TreeEx.v -- witnesses for PropTree.v. *)
From Verif Require Import Base BaseP Msg Reader ReaderP Num Lexer Obj ReadObj Env Getters Crypt GetObj Load Tree RelP GetObjP SpecRead SpecLook
  FetchP LookP SecurityP FetchEx SpecFetch SpecTree TreeP.
From Coq Require Import Strings.String.

(** A page tree that leads back to its root (1, 2, 3), an array that holds a
    node pointing to the array (4), a name tree (5, 6) with a shared node. *)
Definition pages : bytes :=
  lit "1 0 obj<</Kids[2 0 R 3 0 R 7 0 R]>> endobj " ++
  lit "2 0 obj<</Kids[1 0 R 3 0 R]>> endobj " ++
  lit "3 0 obj<</A 1>> endobj " ++
  lit "4 0 obj[<</Kids 4 0 R>>] endobj " ++
  lit "5 0 obj<</Names[(a)1]/Kids[6 0 R<</Names[(b)2]>>]>> endobj " ++
  lit "6 0 obj<</Names[(c)3]/Kids 8 0 R>> endobj " ++
  lit "7 0 obj[9] endobj " ++
  lit "8 0 obj[6 0 R 7 0 R] endobj " ++
  lit "9 0 obj<</Names[(d)4]>> endobj ".
Definition pages_xref : xmap := [(1, new_xentry 0 0 1); (2, new_xentry 43 0 1); (3, new_xentry 80 0 1); (4, new_xentry 103 0 1); (5, new_xentry 135 0 1); (6, new_xentry 194 0 1); (7, new_xentry 236 0 1); 
  (8, new_xentry 254 0 1); (9, new_xentry 282 0 1)].
Definition pages_state : pst := with_xref pages_xref (new_parser pages).

Lemma pages_reads : reads pages pages_state.
Proof. vm_compute. repeat split; discriminate. Qed.
Lemma pages_offsets : offsets_ok (pxref pages_state).
Proof.
  intros n e H T. cbn in H. unfold xget in H. cbn [mget] in H.
  repeat match type of H with (if ?c then _ else _) = _ => destruct c; [injection H as <-; cbn; lia|] end. discriminate.
Qed.
Lemma absent_target : forall E file p n, xget n (pxref p) = None -> target E file p n (new_iobj n).
Proof.
  intros E file p n X. exists 2%nat. eexists. unfold Resolve, restoring, bind. cbn [resolve get_object]. unfold bind.
  cbn [zmem existsb]. rewrite X. reflexivity.
Qed.
Lemma pages_targets : forall n, exists o, target E0 pages pages_state n o.
Proof.
  intros n. destruct (xget n (pxref pages_state)) as [e |] eqn:X; [| eexists; apply absent_target; assumption].
  unfold xget in X. cbn [pages_state pxref with_xref pages_xref mget] in X.
  repeat match type of X with (if ?c then _ else _) = _ => let Q := fresh in destruct c eqn:Q; [apply Z.eqb_eq in Q; subst n; eexists; fetch9 |] end.
  discriminate.
Qed.
Definition ref (n : Z) : obj := ORef n 0.
Definition d1 : dict := [(lit "Kids", OArr [ref 2; ref 3; ref 7])].
Definition d2 : dict := [(lit "Kids", OArr [ref 1; ref 3])].
Definition d3 : dict := [(lit "A", ONum (num_of_Z 1))].
Definition catalog : dict := [(lit "Pages", ref 1); (lit "Bad", ref 7); (lit "Names", ref 5); (lit "Loop", ODict [(lit "Kids", ref 4)]);
  (lit "Flat", ODict [(lit "Names", OArr [OStr (lit "a"); ONum (num_of_Z 1)]); (lit "Kids", OArr [ref 9; ODict [(lit "Names", OArr [OStr (lit "b")])]])])].

Ltac page9 := eexists; split; [fetch9 | reflexivity].
Lemma direct_array : forall E file p d k l, entry d (lit k) = Some (OArr l) -> array_at E file p d k l.
Proof. intros E file p d k l H. left. exists (OArr l). rewrite H. split; [apply v_direct; discriminate | reflexivity]. Qed.
Lemma no_array : forall E file p d k, entry d (lit k) = None -> array_at E file p d k [].
Proof. intros E file p d k H. right. rewrite H. split; [left; constructor | reflexivity]. Qed.
Ltac not9 := let d := fresh in let o := fresh in let T := fresh in let V := fresh in
  intros d (o & T & V); match type of T with target ?E ?f ?p ?n _ =>
    let H := fresh in assert (H : exists o', target E f p n o' /\ forall d, ival o' <> ODict d) by (eexists; split; [fetch9 | discriminate]);
    let o' := fresh in let T' := fresh in let N := fresh in destruct H as (o' & T' & N); pose proof (target_det _ _ _ _ _ _ T T'); subst o'; exact (N _ V) end.

Lemma C46_ex : reads pages pages_state /\ offsets_ok (pxref pages_state) /\ (forall n, exists o, target E0 pages pages_state n o) /\
  typed E0 pages pages_state is_dict (entry catalog (lit "Pages")) d1 /\
  untyped E0 pages pages_state is_dict (entry catalog (lit "Bad")) /\
  let ts := [PT 2 d2 [PT 1 d1 [PT 3 d3 []]; PT 3 d3 []]; PT 3 d3 []] in
  unfolded E0 pages pages_state [] [ref 2; ref 3; ref 7] ts /\
  firsts [] (preorder ts) = [(2, d2); (1, d1); (3, d3)].
Proof.
  split; [apply pages_reads |]. split; [apply pages_offsets |]. split; [apply pages_targets |].
  split; [eexists; split; [apply v_ref; fetch9 | reflexivity] |].
  split; [right; eexists; split; [apply v_ref; fetch9 | discriminate] |].
  cbv zeta. split; [| reflexivity].
  assert (U3 : forall path, ~ In 3 path -> forall ks ts, unfolded E0 pages pages_state path ks ts ->
     unfolded E0 pages pages_state path (ref 3 :: ks) (PT 3 d3 [] :: ts)).
  { intros path N ks ts U. eapply un_page; [assumption | page9 | apply no_array; reflexivity | constructor | exact U]. }
  assert (U7 : forall path, unfolded E0 pages pages_state path [ref 7] []).
  { intros path. apply un_none; [not9 | constructor]. }
  eapply un_page; [intros [] | page9 | apply direct_array; reflexivity | |].
  - eapply un_page; [intros [X | []]; discriminate | page9 | apply direct_array; reflexivity | |].
    + apply un_back; [right; left; reflexivity |]. apply U3; [intros [X | [X | []]]; discriminate | apply U7].
    + apply U3; [intros [X | []]; discriminate | constructor].
  - apply U3; [intros [] | apply U7].
Qed.

(** C47: the array 4 *)
Lemma pages_loads : exists p, load 9 E0 (fun l => l) pages [] (new_parser pages) = Ok (None, p) /\ kept pages pages_state p.
Proof. eexists. split; [vm_compute; reflexivity |]. vm_compute. repeat split; discriminate. Qed.

Lemma target_or_fuel : forall E file p n o, reads file p -> offsets_ok (pxref p) -> target E file p n o -> forall f q, kept file p q ->
  Resolve f E file n q = OutOfFuel \/ exists q', Resolve f E file n q = Ok (o, q') /\ kept file p q'.
Proof.
  intros E file p n o W O (f0 & p1 & R) f q K.
  pose proof (Resolve_history f E file n p q W K O) as H.
  assert (Rf : Resolve f E file n p = OutOfFuel \/ exists p2, Resolve f E file n p = Ok (o, p2)).
  { destruct (Resolve f E file n p) as [[o' p2]| |] eqn:Q; [right | exfalso | left; reflexivity].
    - exists p2. f_equal. f_equal. eapply (target_det E file p n); eexists; eexists; eassumption.
    - pose proof (proj2 (get_resolve_mono f (f + f0) E file ltac:(lia)) n []) as Mn.
      destruct (restoring_mono file _ _ Mn p) as [K1 | K1]; unfold Resolve in Q; [congruence |].
      apply (Resolve_mono _ (f + f0)) in R; [| lia]. unfold Resolve in R. congruence. }
  destruct (Resolve f E file n q) as [[o' q']| |].
  - right. destruct Rf as [Rf | [p2 Rf]]; rewrite Rf in H; [destruct H |]. destruct H as (-> & _ & K'). eauto.
  - destruct Rf as [Rf | [p2 Rf]]; rewrite Rf in H; destruct H.
  - left. reflexivity.
Qed.

Definition looping : dict := [(lit "Kids", ref 4)].
Lemma loop_hangs : forall fuel f1 s q, kept pages pages_state q -> name_tree (Resolve f1 E0 pages) fuel looping s q = OutOfFuel.
Proof.
  assert (T4 : target E0 pages pages_state 4 {| ival := OArr [ODict looping]; istream := None; inum := 4; igen := 0 |}).
  { fetch9. }
  assert (N : forall rs q, d_array rs looping (lit "Names") q = Ok (([], false), q)) by reflexivity.
  assert (Kd : forall rs q o q', rs 4 q = Ok (o, q') -> d_array rs looping (lit "Kids") q = Ok (as_array (ival o, true), q')).
  { intros rs q o q' H. unfold d_array, d_object. change (dget (lit "Kids") looping) with (Some (ORef 4 0)). unfold bind. rewrite H. reflexivity. }
  assert (Kf : forall rs q, rs 4 q = OutOfFuel -> d_array rs looping (lit "Kids") q = OutOfFuel).
  { intros rs q H. unfold d_array, d_object. change (dget (lit "Kids") looping) with (Some (ORef 4 0)). unfold bind. rewrite H. reflexivity. }
  assert (A : forall rs q, a_dict rs [ODict looping] 0 q = Ok ((looping, true), q)) by reflexivity.
  assert (Tq : forall rs f d s q, name_tree rs (S f) d s q = ('(names, ok) <- d_array rs d (lit "Names") ;;
    let acc := if ok : bool then names else [] in '(kids, ok) <- d_array rs d (lit "Kids") ;;
    if ok : bool then name_kids rs f (List.length kids) 0 kids acc s else ret (acc, s))%m q) by reflexivity.
  assert (Lq : forall rs f acc s q, name_kids rs (S f) 1 0 [ODict looping] acc s q = ('(kid, _) <- a_dict rs [ODict looping] 0 ;;
    '(l, s) <- name_tree rs f kid s ;; name_kids rs f 0 (0 + 1) [ODict looping] (acc ++ l) s)%m q) by reflexivity.
  induction fuel as [fuel IH] using lt_wf_ind. intros f1 s q K. destruct fuel as [| f]; [reflexivity |]. rewrite Tq.
  unfold bind at 1. rewrite N. cbv iota beta zeta. unfold bind at 1.
  destruct (target_or_fuel _ _ _ _ _ pages_reads pages_offsets T4 f1 q K) as [R | (q' & R & K')]; [rewrite (Kf _ _ R); reflexivity |].
  rewrite (Kd _ _ _ _ R). cbn [ival as_array]. cbv iota beta. destruct f as [| f]; [reflexivity |].
  change (List.length [ODict looping]) with 1%nat. rewrite Lq.
  unfold bind at 1. rewrite A. cbv iota beta. unfold bind at 1. rewrite IH; [reflexivity | lia | assumption].
Qed.
Lemma names_refuted : exists file p d k, reads file p /\ offsets_ok (pxref p) /\ (forall n, exists o, target E0 file p n o) /\
  load 9 E0 (fun l => l) file [] (new_parser file) = Ok (None, p) /\
  forall f1 f2, name_tree_map (Resolve f1 E0 file) f2 d k p = OutOfFuel.
Proof.
  destruct pages_loads as (p & L & K). exists pages, p, catalog, (lit "Loop"). pose proof (proj1 (proj2 K)) as X.
  split; [apply K |]. split; [rewrite X; apply pages_offsets |]. split; [| split; [exact L |]].
  - intros n. destruct (pages_targets n) as [o T]. exists o.
    pose proof (target_gives _ _ _ pages_reads pages_offsets _ _ T) as (f & G). destruct (G f p (le_n _) K) as (q & R & _).
    exists f, q. exact R.
  - intros f1 f2. unfold name_tree_map. unfold bind at 1.
    change (d_dict (Resolve f1 E0 pages) catalog (lit "Loop") p) with (Ok ((looping, true), p)). cbv iota beta.
    unfold bind. rewrite loop_hangs; [reflexivity | assumption].
Qed.

Definition d6 : dict := [(lit "Names", OArr [OStr (lit "c"); ONum (num_of_Z 3)]); (lit "Kids", ref 8)].
Definition db : dict := [(lit "Names", OArr [OStr (lit "b"); ONum (num_of_Z 2)])].
Definition d5 : dict := [(lit "Names", OArr [OStr (lit "a"); ONum (num_of_Z 1)]); (lit "Kids", OArr [ref 6; ODict db])].
Definition good5 (d : dict) : Prop := d = d5 \/ d = d6 \/ d = db \/ d = [].

Lemma v8 : forall v, value E0 pages pages_state (Some (ref 8)) v -> v = Some (OArr [ref 6; ref 7]).
Proof.
  intros v V. assert (V' : value E0 pages pages_state (Some (ref 8)) (Some (ival {| ival := OArr [ref 6; ref 7]; istream := None; inum := 8; igen := 0 |}))).
  { apply v_ref. fetch9. }
  rewrite (value_det _ _ _ _ _ _ V V'). reflexivity.
Qed.
Lemma array_direct : forall d k l l', entry d (lit k) = Some (OArr l) -> array_at E0 pages pages_state d k l' -> l' = l.
Proof. intros d k l l' H H'. eapply array_at_det; [exact H' | apply direct_array; exact H]. Qed.
Lemma array_none : forall d k l', entry d (lit k) = None -> array_at E0 pages pages_state d k l' -> l' = [].
Proof. intros d k l' H H'. eapply array_at_det; [exact H' | apply no_array; exact H]. Qed.
Lemma node_page : forall n d kd o, target E0 pages pages_state n o -> ival o = ODict d -> node E0 pages pages_state (ref n) kd -> kd = d.
Proof.
  intros n d kd o T V [(v & H & D) | [[H | (v & H & N)] _]]; inversion H as [| x X | a b o' T']; subst; try (exfalso; eapply X; reflexivity).
  - pose proof (target_det _ _ _ _ _ _ T T'). unfold is_dict in D. congruence.
  - pose proof (target_det _ _ _ _ _ _ T T'). subst. exfalso. eapply N. exact V.
Qed.
Lemma C47_ex : reads pages pages_state /\ offsets_ok (pxref pages_state) /\ (forall n, exists o, target E0 pages pages_state n o) /\
  kids_sane E0 pages pages_state good5 /\ (forall root, typed E0 pages pages_state is_dict (entry catalog (lit "Names")) root -> good5 root) /\
  typed E0 pages pages_state is_dict (entry catalog (lit "Names")) d5.
Proof.
  assert (T5 : target E0 pages pages_state 5 {| ival := ODict d5; istream := None; inum := 5; igen := 0 |}) by fetch9.
  assert (T6 : target E0 pages pages_state 6 {| ival := ODict d6; istream := None; inum := 6; igen := 0 |}) by fetch9.
  assert (T7 : target E0 pages pages_state 7 {| ival := OArr [ONum (num_of_Z 9)]; istream := None; inum := 7; igen := 0 |}) by fetch9.
  split; [apply pages_reads |]. split; [apply pages_offsets |]. split; [apply pages_targets |]. split; [| split].
  - intros d ks [-> | [-> | [-> | ->]]] K.
    + apply (array_direct d5 "Kids" [ref 6; ODict db]) in K; [| reflexivity]. subst ks. split; [| left; reflexivity].
      intros x kd [<- | [<- | []]] Nd.
      * right. left. eapply node_page; [exact T6 | reflexivity | exact Nd].
      * right. right. destruct (node_direct _ _ _ _ _ Nd) as [Q | ->]; [discriminate | left; congruence | right; reflexivity].
    + assert (ks = [ref 6; ref 7]).
      { destruct K as [(v & V & A) | [[V | (v & V & N)] _]]; apply v8 in V; [congruence | discriminate | ]. injection V as ->.
        exfalso. eapply N. reflexivity. }
      subst ks. split; [| right; intros kd [X | [X | []]]; discriminate].
      intros x kd [<- | [<- | []]] Nd.
      * right. left. eapply node_page; [exact T6 | reflexivity | exact Nd].
      * right. right. right. destruct (node_ref _ _ _ _ _ _ Nd) as [(o & T & V) | ->]; [| reflexivity].
        pose proof (target_det _ _ _ _ _ _ T T7). subst o. discriminate.
    + apply (array_none db "Kids") in K; [| reflexivity]. subst ks. split; [intros x kd [] |]. right. intros kd [].
    + apply (array_none [] "Kids") in K; [| reflexivity]. subst ks. split; [intros x kd [] |]. right. intros kd [].
  - intros root (v & V & D). left. inversion V as [| x X | a b o T]; subst; [exfalso; eapply X; reflexivity |].
    pose proof (target_det _ _ _ _ _ _ T T5). subst o. unfold is_dict in D. cbn in D. congruence.
  - eexists. split; [apply v_ref; exact T5 | reflexivity].
Qed.

Lemma C61_ex : exists root, typed E0 pages pages_state is_dict (entry catalog (lit "Flat")) root /\
  names_below E0 pages pages_state root [9] [OStr (lit "a"); ONum (num_of_Z 1); OStr (lit "d"); ONum (num_of_Z 4); OStr (lit "b")] /\ NoDup [9].
Proof.
  eexists. split; [eexists; split; [apply v_direct; discriminate | reflexivity] |]. split; [| constructor; [intros [] | constructor]].
  apply nb with (l0 := [OStr (lit "a"); ONum (num_of_Z 1)]) (ks := [ref 9; ODict [(lit "Names", OArr [OStr (lit "b")])]])
    (l := [OStr (lit "d"); ONum (num_of_Z 4); OStr (lit "b")]); try (apply direct_array; reflexivity).
  apply ni_ref with (d := [(lit "Names", OArr [OStr (lit "d"); ONum (num_of_Z 4)])]) (n1 := []) (l1 := [OStr (lit "d"); ONum (num_of_Z 4)])
    (n2 := []) (l2 := [OStr (lit "b")]).
  - left. eexists. split; [apply v_ref; fetch9 | reflexivity].
  - apply nb with (l0 := [OStr (lit "d"); ONum (num_of_Z 4)]) (ks := []) (l := []); [apply direct_array; reflexivity | apply no_array; reflexivity | constructor].
  - apply ni_direct with (d := [(lit "Names", OArr [OStr (lit "b")])]) (n1 := []) (n2 := []) (l1 := [OStr (lit "b")]) (l2 := []).
    + discriminate.
    + left. eexists. split; [apply v_direct; discriminate | reflexivity].
    + apply nb with (l0 := [OStr (lit "b")]) (ks := []) (l := []); [apply direct_array; reflexivity | apply no_array; reflexivity | constructor].
    + constructor.
Qed.
