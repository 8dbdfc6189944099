(** XTermP.v -- loading cross-reference sections ends, whatever the Prev links
    are, if every object can be fetched (C18). *)
From Verif Require Import Base BaseP Msg Reader ReaderP Num Lexer LexerP Obj ReadObj ReadObjP Bits Filters Env Getters Crypt Stream GetObj RelP GetObjP
  Regex Xref Security Load SpecRead SpecObjP ReadP FetchP TermP CryptObjP ScanP Plain SpecLexP SpecStream PObjP SpecFetch.
From Coq Require Import Strings.String.
Local Open Scope m_scope.

Section Ends.
  Variables (file : bytes) (I : pst -> Prop).
  (** at every state with [I] the family settles for large fuel, on a panic or on a value with [Q] in a state with [I] *)
  Definition ends {A} (m : nat -> M A) (Q : A -> Prop) : Prop := forall p, I p ->
    exists f0, (forall f, (f0 <= f)%nat -> m f p = m f0 p) /\
      match m f0 p with OutOfFuel => False | Panic => True | Ok (a, p') => Q a /\ I p' end.

  Lemma ends_ret : forall A (a : A) (Q : A -> Prop), Q a -> ends (fun _ => ret a) Q.
  Proof. intros A a Q H p Hp. exists 0%nat. split; auto. split; auto. Qed.
  Lemma ends_bind : forall A B (m : nat -> M A) (k : nat -> A -> M B) (Q : A -> Prop) (Q' : B -> Prop),
    ends m Q -> (forall a, Q a -> ends (fun f => k f a) Q') -> ends (fun f => bind (m f) (k f)) Q'.
  Proof.
    intros A B m k Q Q' Hm Hk p Hp. destruct (Hm p Hp) as (f0 & S0 & X). unfold bind.
    destruct (m f0 p) as [[a p']| |] eqn:Y; [| |tauto].
    - destruct X as [Qa Hp']. destruct (Hk a Qa p' Hp') as (f1 & S' & X').
      exists (f0 + f1)%nat. split.
      + intros f L. rewrite (S0 f) by lia. rewrite (S0 (f0 + f1)%nat) by lia. rewrite (S' f) by lia. rewrite (S' (f0 + f1)%nat) by lia. auto.
      + rewrite (S0 (f0 + f1)%nat) by lia. rewrite (S' (f0 + f1)%nat) by lia. exact X'.
    - exists f0. split; [intros f L; rewrite (S0 f L), Y; reflexivity | rewrite Y; exact Logic.I].
  Qed.
  Lemma ends_weaken : forall A (m : nat -> M A) (Q Q' : A -> Prop), ends m Q -> (forall a, Q a -> Q' a) -> ends m Q'.
  Proof.
    intros A m Q Q' H K p Hp. destruct (H p Hp) as (f0 & S0 & X). exists f0. split; auto.
    destruct (m f0 p) as [[a p']| |]; auto. destruct X; auto.
  Qed.
  Lemma ends_local : forall A (m : pst -> nat -> M A) Q, (forall q, I q -> ends (m q) Q) -> ends (fun f p => m p f p) Q.
  Proof. intros A m Q H p Hp. exact (H p Hp p Hp). Qed.
  Lemma ends_S : forall A (m m' : nat -> M A) Q, (forall f p, m (S f) p = m' f p) -> ends m' Q -> ends m Q.
  Proof.
    intros A m m' Q H T p Hp. destruct (T p Hp) as (f0 & S' & X). exists (S f0). split.
    - intros f L. destruct f as [|f]; [lia|]. rewrite !H. apply S'. lia.
    - rewrite H. exact X.
  Qed.
  Lemma ends_const : forall A (m : M A) (Q : A -> Prop), (forall p, I p -> match m p with OutOfFuel => False | Panic => True | Ok (a, p') => Q a /\ I p' end) ->
    ends (fun _ => m) Q.
  Proof. intros A m Q H p Hp. exists 0%nat. split; [reflexivity | apply H; exact Hp]. Qed.
End Ends.
Arguments ends I {A} m Q.

Definition any {A} (_ : A) : Prop := True.

Section Load.
  Variables (E : env) (file : bytes) (h : sechandler).
  Definition inv (p : pst) : Prop := reads file p /\ psh p = h.
  Hypothesis HG : forall n q, inv q -> exists f, get_object f E file n q <> OutOfFuel.
  Notation KR := (keeps_respects file).

  (** computations that only move the reader *)
  Lemma inv_with_rd : forall p s, inv p -> wf file s -> inv (with_rd s p).
  Proof. intros p s [_ H] W. split; assumption. Qed.
  Lemma rel_inv : forall A (m : M A) p a p', relm (keeps file) m -> inv p -> m p = Ok (a, p') -> inv p' /\ pxref p' = pxref p.
  Proof.
    intros A m p a p' R [W P] X. destruct (relm_keeps file A m p a p' R W X) as [W' F]. destruct F as [F1 F2 F3]. split; [split; [exact W' | congruence] | congruence].
  Qed.
  Lemma ends_rel : forall A (m : M A), relm (keeps file) m -> (forall p, inv p -> m p <> OutOfFuel) -> ends inv (fun _ => m) any.
  Proof.
    intros A m R N. apply ends_const. intros p P. specialize (N p P). destruct (m p) as [[a p'] | |] eqn:X; [| exact Logic.I | congruence].
    split; [exact Logic.I |]. apply (rel_inv A m p a p' R P X).
  Qed.
  Lemma ends_seek : forall off, ends inv (fun _ => pseek file off) any.
  Proof. intros off. apply ends_rel; [apply pseek_rel, keeps_seek | intros p _; discriminate]. Qed.
  Lemma ends_onrd : forall A (f : rd -> A * rd), rel1 (keeps file) f -> ends inv (fun _ => onrd f) any.
  Proof. intros A f R. apply ends_rel; [apply onrd_rel; exact R |]. intros p _. unfold onrd. destruct (f (prd p)). discriminate. Qed.
  Lemma ends_dict : ends inv (fun _ => onrdr (ReadDictionary file no_decryptor)) any.
  Proof.
    apply ends_rel; [apply onrdr_rel, (ReadDictionary_rel file); exact KR |]. intros p [W _]. unfold onrdr.
    destruct (read_dictionary_returns file no_decryptor (prd p) W no_total) as (d & s2 & -> & _). discriminate.
  Qed.

  (** GetObject, with what it cannot change *)
  Lemma get_ends : forall n p, inv p -> exists f0, (forall f, (f0 <= f)%nat -> get_object f E file n p = get_object f0 E file n p) /\
    match get_object f0 E file n p with OutOfFuel => False | Panic => True
    | Ok (o, p') => (forall n' g, ival o = ORef n' g -> In n (map fst (pxref p))) /\ pxref p' = pxref p /\ inv p' end.
  Proof.
    intros n p P. destruct (HG n p P) as (f0 & N). exists f0. destruct (get_object f0 E file n p) as [[o p'] | |] eqn:X; [| | congruence].
    - split; [intros f L; apply (get_object_mono f0 f); assumption |]. destruct (rel_inv _ _ _ _ _ (get_object_rel file (keeps file) KR (keeps_seek file) f0 E n) P X) as [P' X'].
      split; [| split; assumption]. intros n' g V. destruct f0 as [| f0]; [discriminate |]. cbn [get_object] in X. destruct (xget n (pxref p)) as [e |] eqn:Q.
      + eapply xget_In; exact Q.
      + exfalso. assert (o = new_iobj n) by congruence. subst o. discriminate V.
    - split; [| exact Logic.I]. intros f L. apply (get_object_mono_panic f0 f); assumption.
  Qed.
  Lemma get_object_ends' : forall n, ends inv (fun f => get_object f E file n) any.
  Proof.
    intros n p P. destruct (get_ends n p P) as (f0 & S0 & X). exists f0. split; [exact S0 |]. destruct (get_object f0 E file n p) as [[o p'] | |]; try exact X.
    split; [exact Logic.I | apply X].
  Qed.
  Lemma resolve_ends' : forall x c seen n, (unseen x seen <= c)%nat -> forall p, inv p -> pxref p = pxref x -> exists f0,
    (forall f, (f0 <= f)%nat -> resolve f E file n seen p = resolve f0 E file n seen p) /\
    match resolve f0 E file n seen p with OutOfFuel => False | Panic => True | Ok (o, p') => inv p' end.
  Proof.
    intros x. induction c as [c IH] using lt_wf_ind. intros seen n U p P PX. destruct (zmem n seen) eqn:Z.
    - exists 1%nat. split; [intros f L; destruct f as [| f]; [lia |]; cbn [resolve]; rewrite Z; reflexivity |]. cbn [resolve]. rewrite Z. exact P.
    - destruct (get_ends n p P) as (f0 & S0 & X). destruct (get_object f0 E file n p) as [[o p'] | |] eqn:G; [| | contradiction].
      + destruct X as (RO & X' & P'). destruct (ival o) as [| | | | n' g | |] eqn:V.
        1-4,6-7: exists (S f0); split;
          [intros f L; destruct f as [| f]; [lia |]; cbn [resolve]; rewrite Z; unfold bind; rewrite (S0 f), (S0 f0), ?G by lia; rewrite V; reflexivity
          | cbn [resolve]; rewrite Z; unfold bind; rewrite G, V; exact P'].
        destruct (IH (unseen x (n :: seen))) with (seen := n :: seen) (n := n') (p := p') as (f1 & S1 & X1).
        * pose proof (unseen_less x n seen) as UL. rewrite <- PX in UL. specialize (UL (RO n' g eq_refl)). assert (~ In n seen) by (intros J; apply zmem_In in J; congruence). specialize (UL H). lia.
        * lia.
        * exact P'.
        * congruence.
        * exists (S (f0 + f1)). split.
          -- intros f L. destruct f as [| f]; [lia |]. cbn [resolve]. rewrite Z. unfold bind. rewrite (S0 f), (S0 (f0 + f1)%nat), V by lia.
             rewrite (S1 f), (S1 (f0 + f1)%nat) by lia. reflexivity.
          -- cbn [resolve]. rewrite Z. unfold bind. rewrite (S0 (f0 + f1)%nat), V by lia. rewrite (S1 (f0 + f1)%nat) by lia. exact X1.
      + exists (S f0). split.
        * intros f L. destruct f as [| f]; [lia |]. cbn [resolve]. rewrite Z. unfold bind. rewrite (S0 f), G by lia. reflexivity.
        * cbn [resolve]. rewrite Z. unfold bind. rewrite G. exact Logic.I.
  Qed.
  Lemma Resolve_ends' : forall n, ends inv (fun f => Resolve f E file n) any.
  Proof.
    intros n. unfold Resolve, restoring. apply (ends_local inv _ (fun q f => o <- resolve f E file n [] ;; pseek file (pos (prd q)) ;;; ret o)). intros q _.
    apply (ends_bind inv) with (Q := any).
    - intros p P. destruct (resolve_ends' p (unseen p []) [] n (Nat.le_refl _) p P eq_refl) as (f0 & S0 & X). exists f0. split; [exact S0 |].
      destruct (resolve f0 E file n [] p) as [[o p'] | |]; try exact X. split; [exact Logic.I | exact X].
    - intros o _. apply (ends_bind inv) with (Q := any); [apply ends_seek |]. intros _ _. apply ends_ret. exact Logic.I.
  Qed.

  (** the getters *)
  Notation rs := (fun f => Resolve f E file).
  Lemma d_object_ends : forall d k, ends inv (fun f => d_object (Resolve f E file) d k) any.
  Proof.
    intros d k. unfold d_object. destruct (dget k d) as [o |]; [| apply ends_ret; exact Logic.I]. destruct o; try (apply ends_ret; exact Logic.I).
    apply (ends_bind inv) with (Q := any); [apply Resolve_ends' | intros; apply ends_ret; exact Logic.I].
  Qed.
  Lemma a_object_ends : forall d k, ends inv (fun f => a_object (Resolve f E file) d k) any.
  Proof.
    intros d k. unfold a_object. destruct (zget d k) as [o |]; [| apply ends_ret; exact Logic.I]. destruct o; try (apply ends_ret; exact Logic.I).
    apply (ends_bind inv) with (Q := any); [apply Resolve_ends' | intros; apply ends_ret; exact Logic.I].
  Qed.
  Lemma as_ends : forall A (as_ : obj * bool -> A) (Q : A -> Prop) (m : nat -> M (obj * bool)), ends inv m any -> (forall x, Q (as_ x)) ->
    ends inv (fun f => x <- m f ;; ret (as_ x)) Q.
  Proof. intros A as_ Q m H K. apply (ends_bind inv) with (Q := any); [exact H |]. intros a _. apply ends_ret. apply K. Qed.

  Definition int64 (z : Z) : Prop := - two63 <= z < two63.
  Lemma num_int_range : forall v, int64 (num_int v).
  Proof.
    intros v. unfold num_int, int64. destruct (num_trunc v) as [z |]; [| vm_compute; split; [intros X; discriminate X | reflexivity]].
    destruct (_ && _) eqn:B; [| vm_compute; split; [intros X; discriminate X | reflexivity]]. apply andb_prop in B. destruct B as [B1 B2]. apply Z.leb_le in B1. apply Z.ltb_lt in B2. split; assumption.
  Qed.
  Lemma as_int_range : forall x, int64 (fst (as_int x)).
  Proof. intros x. unfold as_int. destruct (as_number x). apply num_int_range. Qed.

  Ltac get := first [apply (as_ends _ _ any); [first [apply d_object_ends | apply a_object_ends] | intros; exact Logic.I] | apply Resolve_ends' | apply d_object_ends | apply a_object_ends].
  Lemma stream_entries_mono : forall f f' j len start w0 w1 w2 data x, (f <= f')%nat ->
    le_res (stream_entries f j len start w0 w1 w2 data x) (stream_entries f' j len start w0 w1 w2 data x).
  Proof.
    induction f as [| f IH]; intros f' j len start w0 w1 w2 data x L; [left; reflexivity |]. destruct f' as [| f']; [lia |]. cbn [stream_entries].
    destruct (j <? len); [| right; reflexivity]. destruct (read_field w0 data) as [[[t ok] data1] | |]; try (right; reflexivity). cbn [rbind].
    destruct ok; [| right; reflexivity]. destruct (read_field w1 data1) as [[[o ok] data2] | |]; try (right; reflexivity). cbn [rbind].
    destruct ok; [| right; reflexivity]. destruct (read_field w2 data2) as [[[g ok] data3] | |]; try (right; reflexivity). cbn [rbind].
    destruct ok; [| right; reflexivity]. apply IH. lia.
  Qed.
  Lemma stream_entries_ends : forall n j len start w0 w1 w2 data x, (Z.to_nat (len - j) <= n)%nat -> stream_entries (S n) j len start w0 w1 w2 data x <> OutOfFuel.
  Proof.
    assert (RF : forall w d, read_field w d <> OutOfFuel).
    { intros w d. unfold read_field, read_be. destruct (_ <? _); [discriminate |]. destruct (w <? 0); [discriminate |]. cbv zeta. destruct (_ =? _); discriminate. }
    induction n as [| n IH]; intros j len start w0 w1 w2 data x L; cbn [stream_entries].
    - destruct (j <? len) eqn:J; [apply Z.ltb_lt in J; lia | discriminate].
    - destruct (j <? len) eqn:J; [| discriminate]. apply Z.ltb_lt in J. pose proof (RF w0 data). destruct (read_field w0 data) as [[[t ok] data1] | |]; [| discriminate | congruence]. cbn [rbind].
      destruct ok; [| discriminate]. pose proof (RF w1 data1). destruct (read_field w1 data1) as [[[o ok] data2] | |]; [| discriminate | congruence]. cbn [rbind].
      destruct ok; [| discriminate]. pose proof (RF w2 data2). destruct (read_field w2 data2) as [[[g ok] data3] | |]; [| discriminate | congruence]. cbn [rbind].
      destruct ok; [| discriminate]. apply IH. lia.
  Qed.
  Lemma inv_xref : forall p x, inv p -> inv (with_xref x p). Proof. intros p x P. exact P. Qed.
  Lemma stream_sections_ends : forall k i index w0 w1 w2 data, ends inv (fun f => stream_sections k f (Resolve f E file) i index w0 w1 w2 data) any.
  Proof.
    induction k as [| k IH]; intros i index w0 w1 w2 data; cbn [stream_sections]; [apply ends_ret; exact Logic.I |].
    destruct (_ <? _); [| apply ends_ret; exact Logic.I].
    apply (ends_bind inv) with (Q := any); [get |]. intros [start ok] _. destruct ok; [| apply ends_ret; exact Logic.I].
    apply (ends_bind inv) with (Q := any); [get |]. intros [len ok] _. destruct ok; [| apply ends_ret; exact Logic.I].
    intros p P. pose proof (stream_entries_ends (Z.to_nat (len - 0)) 0 len start w0 w1 w2 data (pxref p) (Nat.le_refl _)) as N.
    set (f1 := S (Z.to_nat (len - 0))) in *.
    assert (M : forall f, (f1 <= f)%nat -> stream_entries f 0 len start w0 w1 w2 data (pxref p) = stream_entries f1 0 len start w0 w1 w2 data (pxref p)).
    { intros f L. destruct (stream_entries_mono f1 f 0 len start w0 w1 w2 data (pxref p) L) as [X | X]; congruence. }
    destruct (stream_entries f1 0 len start w0 w1 w2 data (pxref p)) as [[[x data'] whole] | |] eqn:X; [| | congruence].
    - destruct whole.
      + destruct (IH (i + 2) index w0 w1 w2 data' (with_xref x p) (inv_xref p x P)) as (f2 & S2 & X2). exists (f1 + f2)%nat. split.
        * intros f L. rewrite (M f), (M (f1 + f2)%nat) by lia. rewrite (S2 f), (S2 (f1 + f2)%nat) by lia. reflexivity.
        * rewrite (M (f1 + f2)%nat) by lia. rewrite (S2 (f1 + f2)%nat) by lia. exact X2.
      + exists f1. split; [intros f L; rewrite (M f L), X; reflexivity |]. rewrite X. split; [exact Logic.I | exact P].
    - exists f1. split; [intros f L; rewrite (M f L), X; reflexivity |]. rewrite X. exact Logic.I.
  Qed.
  Ltac stop := apply ends_ret; exact Logic.I.
  Lemma load_stream_entries_ends : forall xoff o t, ends inv (fun f => load_stream_entries f (Resolve f E file) xoff o t) any.
  Proof.
    intros xoff o t. unfold load_stream_entries. apply (ends_bind inv) with (Q := any); [apply ends_const; intros p P; split; [exact Logic.I | exact P] |]. intros _ _.
    apply (ends_bind inv) with (Q := any); [get |]. intros [index ok] _. apply (ends_bind inv) with (Q := any).
    { destruct ok; [stop |]. apply (ends_bind inv) with (Q := any); [get |]. intros [size ok] _. stop. }
    intros [index' |] _; [| stop]. apply (ends_bind inv) with (Q := any); [get |]. intros [w okw] _. destruct okw; [| stop].
    apply (ends_bind inv) with (Q := any); [get |]. intros [w0 ok0] _. destruct ok0; [| stop].
    apply (ends_bind inv) with (Q := any); [get |]. intros [w1 ok1] _. destruct ok1; [| stop].
    apply (ends_bind inv) with (Q := any); [get |]. intros [w2 ok2] _. destruct ok2; [| stop].
    apply (ends_bind inv) with (Q := any); [apply stream_sections_ends |]. intros done _. destruct done; [| stop].
    apply ends_const. intros p P. split; [exact Logic.I | exact P].
  Qed.

  (** the Prev links: at most 2^64 different offsets *)
  Lemma range_bound : forall a l, 0 < a -> NoDup l -> (forall z, In z l -> - a <= z < a) -> (List.length l <= Z.to_nat (a + a))%nat.
  Proof.
    intros a l A ND H. set (all := map (fun k => Z.of_nat k - a) (seq 0 (Z.to_nat (a + a)))).
    replace (Z.to_nat (a + a)) with (List.length all) by (unfold all; rewrite map_length, seq_length; reflexivity).
    apply NoDup_incl_length; [exact ND |]. intros z Z. specialize (H z Z). apply in_map_iff. exists (Z.to_nat (z + a)).
    split; [rewrite Z2Nat.id by lia; lia |]. apply in_seq. lia.
  Qed.
  Lemma load_xref_bounded : forall (D : Z -> Prop) B, (forall z, int64 z -> D z) -> (forall l, NoDup l -> (forall z, In z l -> D z) -> (List.length l <= B)%nat) ->
    forall c seen off, NoDup seen -> (forall z, In z seen -> D z) -> (B - List.length seen <= c)%nat -> D off ->
    ends inv (fun f => load_xref f E file off seen) any.
  Proof.
    intros D B HD HB. induction c as [c IH] using lt_wf_ind. intros seen off ND IS C IO.
    destruct (zmem off seen) eqn:ZM.
    { eapply ends_S; [intros f p; cbn [load_xref]; rewrite ZM; reflexivity |]. stop. }
    assert (NI : ~ In off seen) by (intros J; apply zmem_In in J; congruence).
    assert (ND' : NoDup (off :: seen)) by (constructor; assumption).
    assert (IS' : forall z, In z (off :: seen) -> D z) by (intros z [<- | J]; [exact IO | apply IS; exact J]).
    assert (LT : (B - List.length (off :: seen) < B - List.length seen)%nat).
    { pose proof (HB _ ND' IS') as BB. cbn [List.length] in *. lia. }
    assert (NEXT : forall x : Z * bool, int64 (fst x) -> ends inv (fun f => if snd x then load_xref f E file (fst x) (off :: seen) else ret tt) any).
    { intros [pv ok] R. destruct ok; [| stop]. eapply (IH _ (Nat.lt_le_trans _ _ _ LT C)); [exact ND' | exact IS' | apply Nat.le_refl | apply HD; exact R]. }
    eapply ends_S; [intros f p; cbn [load_xref]; rewrite ZM; cbv zeta; reflexivity |].
    apply (ends_bind inv) with (Q := any); [apply ends_seek |]. intros _ _.
    apply (ends_bind inv) with (Q := any); [apply ends_onrd, (read_keyword_rel file); exact KR |]. intros kw _.
    destruct (bseq kw (lit "xref")).
    - apply (ends_bind inv) with (Q := any); [apply ends_onrd, (read_xref_table_rel file); exact KR |]. intros x _.
      apply (ends_bind inv) with (Q := any); [apply ends_onrd, (read_keyword_rel file); exact KR |]. intros _ _.
      apply (ends_bind inv) with (Q := any); [apply ends_dict |]. intros t _.
      apply (ends_bind inv) with (Q := fun x => int64 (fst x)).
      { apply (as_ends _ as_int); [apply d_object_ends | apply as_int_range]. }
      intros [pv ok] R. apply (ends_bind inv) with (Q := any); [exact (NEXT (pv, ok) R) |]. intros _ _.
      apply (ends_bind inv) with (Q := any); [apply ends_const; intros p P; split; [exact Logic.I | exact P] |]. intros _ _.
      apply ends_const; intros p P; split; [exact Logic.I | exact P].
    - apply (ends_bind inv) with (Q := any); [apply ends_seek |]. intros _ _.
      apply (ends_bind inv) with (Q := any); [apply ends_onrd, (read_object_header_rel file); exact KR |]. intros [[n g] ok] _. destruct ok; [| stop].
      apply (ends_bind inv) with (Q := any); [apply ends_const; intros p P; split; [exact Logic.I | exact P] |]. intros _ _.
      match goal with |- ends inv (fun f p => ?m) _ => apply (ends_local inv _ (fun q f => o <- get_object f E file n ;; 
        match ival o with ODict t => '(prev, ok) <- d_int (Resolve f E file) t (lit "Prev") ;; (if ok : bool then load_xref f E file prev (off :: seen) else ret tt) ;;;
          load_stream_entries f (Resolve f E file) (pos (prd q)) o t | _ => ret tt end)) end.
      intros q _. apply (ends_bind inv) with (Q := any); [apply get_object_ends' |]. intros o _. destruct (ival o) as [| | | | | | t]; try stop.
      apply (ends_bind inv) with (Q := fun x => int64 (fst x)).
      { apply (as_ends _ as_int); [apply d_object_ends | apply as_int_range]. }
      intros [pv ok] R. apply (ends_bind inv) with (Q := any); [exact (NEXT (pv, ok) R) |]. intros _ _. apply load_stream_entries_ends.
  Qed.
  Lemma load_xref_ends : forall off seen, NoDup seen -> ends inv (fun f => load_xref f E file off seen) any.
  Proof.
    intros off seen ND. set (a := two63 + 1 + fold_right (fun z s => Z.abs z + s) 0 (off :: seen)).
    assert (AB : forall l z, In z l -> Z.abs z <= fold_right (fun z s => Z.abs z + s) 0 l).
    { assert (P : forall l, 0 <= fold_right (fun z s => Z.abs z + s) 0 l) by (induction l; cbn [fold_right]; lia).
      induction l as [| x l IH]; intros z []; cbn [fold_right]; [subst; specialize (P l); lia | specialize (IH z H); lia]. }
    assert (T : 0 < two63) by reflexivity.
    apply (load_xref_bounded (fun z => - a <= z < a) (Z.to_nat (a + a))) with (c := (Z.to_nat (a + a) - List.length seen)%nat).
    - intros z [H1 H2]. unfold a. pose proof (AB (off :: seen) off (or_introl eq_refl)). lia.
    - intros l NDl H. apply range_bound; [| exact NDl | exact H]. unfold a. pose proof (AB (off :: seen) off (or_introl eq_refl)). lia.
    - exact ND.
    - intros z H. pose proof (AB (off :: seen) z (or_intror H)). unfold a. lia.
    - apply Nat.le_refl.
    - unfold a. pose proof (AB (off :: seen) off (or_introl eq_refl)). lia.
  Qed.
  Lemma load_all_ends : forall offs, ends inv (fun f => load_all f E file offs) any.
  Proof.
    induction offs as [| o offs IH]; cbn [load_all]; [stop |]. apply (ends_bind inv) with (Q := any).
    - apply load_xref_ends. constructor.
    - intros _ _. exact IH.
  Qed.
  Lemma find_objects_ends : ends inv (fun f => find_objects f E file) any.
  Proof.
    unfold find_objects. apply (ends_bind inv) with (Q := any); [apply ends_seek |]. intros _ _. generalize (S (List.length file)) as k. intros k. generalize 0 (@nil (Z * xentry)). 
    induction k as [| k IH]; intros off objs; cbn [find_objects_loop]; [stop |].
    destruct (rfind start_obj_regexp (zdrop off file) 0) as [[i j] |]; [| stop].
    apply (ends_bind inv) with (Q := any); [apply ends_seek |]. intros _ _.
    apply (ends_bind inv) with (Q := any); [apply ends_onrd, (read_object_header_rel file); exact KR |]. intros [[n g] ok] _. cbv zeta.
    apply (ends_bind inv) with (Q := any); [apply ends_dict |]. intros d _.
    apply (ends_bind inv) with (Q := any); [get |]. intros [t okt] _.
    apply (ends_bind inv) with (Q := any); [apply ends_seek |]. intros _ _. apply IH.
  Qed.
  Lemma repair_ends : forall l, ends inv (fun _ => repair file l) any.
  Proof.
    induction l as [| [n o] l IH]; cbn [repair]; [stop |]. apply (ends_bind inv) with (Q := any); [| intros _ _; exact IH].
    apply ends_const. intros p P. unfold repair_one. destruct (xget n (pxref p)) as [e |]; [| split; [exact Logic.I | exact P]].
    pose proof (proj1 P) as W. unfold bind at 1. unfold pseek. unfold bind. unfold onrd. cbn [prd with_rd].
    pose proof (read_object_header_rel file (keeps file) KR (seek file (x_off e) (prd p)) (seek file (x_off e) (prd p))) as R.
    destruct R as [_ [_ W1]]; [split; [reflexivity | apply seek_wf; exact W] |].
    destruct (read_object_header (seek file (x_off e) (prd p))) as [[[n' g'] ok] s1]. cbn [snd] in W1.
    destruct (ok || negb (n' =? n)); (split; [exact Logic.I | split; [exact W1 | apply P]]).
  Qed.

  (** the encryption dictionary; only this changes the handler *)
  Definition done {A} (x : res (A * pst)) : Prop := match x with OutOfFuel => False | _ => True end.
  Definition settled {A} (m : nat -> M A) : Prop := forall p, inv p -> exists f0, forall f, (f0 <= f)%nat -> m f p <> OutOfFuel.
  Lemma settled_ends : forall A (m : nat -> M A) Q, ends inv m Q -> settled m.
  Proof.
    intros A m Q H p P. destruct (H p P) as (f0 & S0 & X). exists f0. intros f L. rewrite (S0 f L). destruct (m f0 p); [discriminate | discriminate | contradiction].
  Qed.
  Lemma settled_bind : forall A B (m : nat -> M A) (k : nat -> A -> M B) Q, ends inv m Q -> (forall a, Q a -> settled (fun f => k f a)) -> settled (fun f => bind (m f) (k f)).
  Proof.
    intros A B m k Q H K p P. destruct (H p P) as (f0 & S0 & X). destruct (m f0 p) as [[a p'] | |] eqn:G; [| | contradiction].
    - destruct (K a (proj1 X) p' (proj2 X)) as (f1 & S1). exists (f0 + f1)%nat. intros f L. unfold bind. rewrite (S0 f) by lia. apply S1. lia.
    - exists f0. intros f L. unfold bind. rewrite (S0 f L). discriminate.
  Qed.
  Lemma ends_lift : forall A (x : res A), x <> OutOfFuel -> ends inv (fun _ => lift x) any.
  Proof. intros A x N. apply ends_const. intros p P. unfold lift. destruct x; [split; [exact Logic.I | exact P] | exact Logic.I | congruence]. Qed.
  Lemma rehash_total : forall k n key, rehash k E n key <> OutOfFuel.
  Proof. induction k as [| k IH]; intros n key; cbn [rehash]; [discriminate |]. unfold slice16. destruct ((0 <=? n) && _); cbn [rbind]; [apply IH | discriminate]. Qed.
  Lemma compute_key_total : forall ep pw n, compute_key E ep pw n <> OutOfFuel.
  Proof.
    intros ep pw n. unfold compute_key, slice16. destruct ((0 <=? n) && _); cbn [rbind]; [| discriminate]. destruct (3 <=? ep_r ep); [apply rehash_total | discriminate].
  Qed.
  Lemma load_cf_ends : forall ep pw len cf fs, ends inv (fun f => load_cf E (Resolve f E file) ep pw len cf fs) any.
  Proof.
    intros ep pw len. induction cf as [| [k o] cf IH]; intros fs; cbn [load_cf]; [stop |]. destruct o as [| | | | | | cfd]; try apply IH.
    apply (ends_bind inv) with (Q := any); [get |]. intros [m ok] _. apply (ends_bind inv) with (Q := any); [| intros fs' _; apply IH].
    destruct ok; [| stop]. apply (ends_bind inv) with (Q := any); [get |]. intros [l okl] _. cbv zeta. destruct (bseq m (lit "None")); [stop |].
    destruct (bseq m (lit "V2")); [| destruct (bseq m (lit "AESV2")); [| stop]];
      (apply (ends_bind inv) with (Q := any); [apply ends_lift, compute_key_total | intros key _; stop]).
  Qed.
  Lemma override_ends : forall d k fs c, ends inv (fun f => override (Resolve f E file) d k fs c) any.
  Proof. intros d k fs c. unfold override. apply (ends_bind inv) with (Q := any); [get |]. intros [name ok] _. stop. Qed.
  Lemma init_security_ends : forall pw t, settled (fun f => init_security E (Resolve f E file) pw t).
  Proof.
    intros pw t. unfold init_security.
    Ltac sb := eapply settled_bind with (Q := any); [get | intros [? ?] _].
    Ltac quit := eapply settled_ends with (Q := any); stop.
    sb. destruct (negb _); [quit |]. sb. destruct (negb _); [quit |]. sb. destruct (negb _); [quit |]. sb. destruct (_ || _); [quit |].
    eapply settled_bind with (Q := any); [destruct (_ =? 1); [stop | get] |]. intros l _. cbv zeta.
    sb. destruct (negb _); [quit |]. sb. destruct (negb _); [quit |]. sb. destruct (negb _); [quit |]. sb. sb. destruct (negb _); [quit |]. sb. destruct (negb _); [quit |].
    eapply settled_bind with (Q := any); [apply ends_lift, compute_key_total |]. intros key _.
    eapply settled_bind with (Q := any).
    { apply ends_lift. unfold check_key. destruct (_ =? 2); [discriminate |]. unfold first16. destruct (16 <=? _); [discriminate |]. destruct (9 <=? _); discriminate. }
    intros good _. destruct (negb good); [quit |].
    eapply settled_bind with (Q := any).
    { destruct (_ =? 4); [| stop]. apply (ends_bind inv) with (Q := any); [get |]. intros [cf okc] _.
      apply (ends_bind inv) with (Q := any); [apply load_cf_ends |]. intros fs _.
      apply (ends_bind inv) with (Q := any); [apply override_ends |]. intros stm _.
      apply (ends_bind inv) with (Q := any); [apply override_ends |]. intros str _.
      apply (ends_bind inv) with (Q := any); [apply override_ends |]. intros eef _. stop. }
    intros hh _ p P. exists 0%nat. intros f L. discriminate.
  Qed.
  Lemma load_settled : forall ord pw, settled (fun f => load f E ord file pw).
  Proof.
    intros ord pw. unfold load. eapply settled_bind with (Q := any); [apply find_objects_ends |]. intros objs _.
    eapply settled_bind with (Q := any); [apply ends_seek |]. intros _ _.
    eapply settled_bind with (Q := any); [apply load_all_ends |]. intros _ _.
    eapply settled_bind with (Q := any); [apply repair_ends |]. intros _ _ p P.
    destruct (dget (lit "Encrypt") (ptrailer p)) as [enc |]; [| exists 0%nat; discriminate].
    assert (X : exists p1, exempt_encrypt enc p = Ok (tt, p1) /\ inv p1).
    { unfold exempt_encrypt. destruct enc as [| | | | n g | |]; try (exists p; split; [reflexivity | exact P]).
      destruct (xget n (pxref p)); eexists; (split; [reflexivity | exact P]). }
    destruct X as (p1 & X & P1). destruct (init_security_ends pw (ptrailer p1) p1 P1) as (f0 & S0). exists f0. intros f L. unfold bind. rewrite X. apply (S0 f L).
  Qed.
End Load.

Theorem loading_ends : forall E file h, (forall n q, reads file q -> psh q = h -> exists f, GetObject f E file n q <> OutOfFuel) ->
  forall off p, reads file p -> psh p = h -> exists f0, forall fuel, (f0 <= fuel)%nat -> load_xref fuel E file off [] p <> OutOfFuel.
Proof.
  intros E file h H off p W P. apply (settled_ends file h _ _ any (load_xref_ends E file h (fun n q Q => H n q (proj1 Q) (proj2 Q)) off [] (NoDup_nil _)) p (conj W P)).
Qed.
Theorem load_ends : forall E file h, (forall n q, reads file q -> psh q = h -> exists f, GetObject f E file n q <> OutOfFuel) ->
  forall ord pw p, reads file p -> psh p = h -> exists f0, forall fuel, (f0 <= fuel)%nat -> load fuel E ord file pw p <> OutOfFuel.
Proof.
  intros E file h H ord pw p W P. apply (load_settled E file h (fun n q Q => H n q (proj1 Q) (proj2 Q)) ord pw p (conj W P)).
Qed.


(** Files without the word stream: every object can be fetched. *)
Lemma keyword_in_file : forall file s, wf file s -> exists a b, file = a ++ fst (read_keyword s) ++ b.
Proof.
  intros file s W. destruct (read_keyword_sim file s _ _ _ (wf_St _ _ W)) as (s1 & -> & _). cbn [fst].
  assert (X : exists a b, rest s = a ++ fst (p_keyword (rest s)) ++ b).
  { unfold p_keyword. destruct (p_ws (rest s)) as [| b r] eqn:Q; [exists [], (rest s); reflexivity |]. destruct (p_ws_gap _ _ _ Q) as (g & _ & G).
    assert (K : forall l, l = fst (p_kw l) ++ snd (p_kw l)).
    { induction l as [| c l IH]; [reflexivity |]. cbn [p_kw]. destruct (_ || _); [reflexivity |]. destruct (p_kw l) as [k r']. cbn [fst snd app] in *. congruence. }
    exists g, (snd (p_kw (b :: r))). rewrite G. f_equal. apply K. }
  destruct X as (a & b & X). exists (ztake (pos s) file ++ a), b. rewrite <- app_assoc, <- X. rewrite (wf_rest _ _ W). symmetry. apply ztake_zdrop. apply (wf_pos _ _ W).
Qed.
Lemma no_streams_fetched : forall E file, ~ occurs (lit "stream") file -> forall n q, reads file q -> exists f, GetObject f E file n q <> OutOfFuel.
Proof.
  intros E file N n q W. exists 1%nat. unfold GetObject. cbn [get_object]. destruct (xget n (pxref q)) as [e |]; [| discriminate].
  destruct (x_type e =? XrefTypeIndirectObject); [| discriminate]. rewrite get_in_use_eq.
  assert (K1 : wf file (snd (read_object_header (seek file (x_off e) (prd q))))).
  { apply (read_object_header_rel file (keeps file) (keeps_respects file) (seek file (x_off e) (prd q)) (seek file (x_off e) (prd q))). split; [reflexivity | apply seek_wf; exact W]. }
  pose proof (ReadObject_rel file (keeps file) (keeps_respects file) (new_decryptor E (if x_enc e then sh_string (psh q) else CFNone) n (x_gen e)) _ _ (conj eq_refl K1)) as K2.
  pose proof (ReadObject_fuel file (new_decryptor E (if x_enc e then sh_string (psh q) else CFNone) n (x_gen e)) _ K1 (new_decryptor_decent _ _ _ _)) as NF.
  destruct (ReadObject file _ _) as [[[v er] s2] | |]; [| discriminate | congruence]. destruct K2 as [_ [_ W2]].
  unfold object_end. destruct (bseq (fst (read_keyword s2)) (lit "stream")) eqn:B; [| discriminate]. exfalso. apply bseq_eq in B.
  destruct (keyword_in_file file s2 W2) as (a & b & X). apply N. exists a, b. rewrite B in X. exact X.
Qed.
Theorem load_ends_no_streams : forall E file ord pw, ~ occurs (lit "stream") file ->
  exists f0, forall fuel, (f0 <= fuel)%nat -> load fuel E ord file pw (new_parser file) <> OutOfFuel.
Proof.
  intros E file ord pw N. apply (load_ends E file (psh (new_parser file))); [| apply open_wf | reflexivity]. intros n q W _. apply no_streams_fetched; assumption.
Qed.
