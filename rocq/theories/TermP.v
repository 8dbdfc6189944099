(** TermP.v -- GetObject returns when no stream object can reach itself through
    references (C15). *)
From Verif Require Import Base BaseP Msg Reader ReaderP Num Lexer LexerP Obj ReadObj ReadObjP Bits Filters Env Getters Crypt Stream GetObj RelP GetObjP
  SpecRead SpecFetch TiffP FetchP.
From Coq Require Import Strings.String.
Local Open Scope m_scope.

(** ** The TIFF predictor's loops end for all parameters *)
Lemma upd_zlen : forall d i x, 0 <= i < zlen d -> zlen (upd d i x) = zlen d.
Proof.
  intros d i x H. unfold upd, zlen in *. rewrite app_length, firstn_length. cbn [List.length]. rewrite skipn_length. lia.
Qed.
Lemma set_bits_loop_zlen : forall k d q i dv d', set_bits_loop k d q i dv = Some d' -> zlen d' = zlen d.
Proof.
  induction k as [|k IH]; intros d q i dv d' H; cbn [set_bits_loop] in H; [congruence|].
  destruct (q + i <? zlen d) eqn:A; [|congruence]. destruct (q + i <? 0) eqn:B; [discriminate|].
  apply Z.ltb_lt in A. apply Z.ltb_ge in B. apply IH in H. rewrite H. apply upd_zlen. lia.
Qed.
Lemma set_bits_zlen : forall d p n v d', set_bits d p n v = Some d' -> zlen d' = zlen d.
Proof. intros d p n v d' H. unfold set_bits in H. destruct (get_bits _ _ _); [|discriminate]. eapply set_bits_loop_zlen; eauto. Qed.

Lemma tiff_ends : forall rw bpc colors columns, 0 < rw -> forall nr nc ni r c i data,
  0 <= r -> (Z.to_nat (zlen data - r * rw) <= nr)%nat -> (Z.to_nat (columns - c) <= nc)%nat -> (Z.to_nat (colors - i) <= ni)%nat ->
  exists f, tiff_loop f rw bpc colors columns r c i data <> OutOfFuel.
Proof.
  intros rw bpc colors columns Hrw. induction nr as [nr IHr] using lt_wf_ind. induction nc as [|nc IHc].
  - intros ni r c i data Hr Lr Lc Li. destruct (r * rw <? zlen data) eqn:A.
    + apply Z.ltb_lt in A. destruct (IHr (pred nr) ltac:(lia) (Z.to_nat (columns - 1)) (Z.to_nat (colors - 0)) (r + 1) 1 0 data) as (f & F); try lia.
      exists (S f). cbn [tiff_loop]. destruct (r * rw <? zlen data) eqn:A'; [|discriminate].
      destruct (c <? columns) eqn:B; [apply Z.ltb_lt in B; lia|exact F].
    + exists 1%nat. cbn [tiff_loop]. rewrite A. discriminate.
  - induction ni as [|ni IHi]; intros r c i data Hr Lr Lc Li.
    + destruct (r * rw <? zlen data) eqn:A; [|exists 1%nat; cbn [tiff_loop]; rewrite A; discriminate].
      apply Z.ltb_lt in A. destruct (c <? columns) eqn:B.
      * apply Z.ltb_lt in B. destruct (IHc (Z.to_nat (colors - 0)) r (c + 1) 0 data) as (f & F); try lia.
        exists (S f). cbn [tiff_loop]. destruct (r * rw <? zlen data) eqn:A'; [|discriminate].
        destruct (c <? columns) eqn:B'; [|apply Z.ltb_ge in B'; lia].
        destruct (i <? colors) eqn:C; [apply Z.ltb_lt in C; lia|exact F].
      * apply Z.ltb_ge in B. destruct (IHr (pred nr) ltac:(lia) (Z.to_nat (columns - 1)) (Z.to_nat (colors - 0)) (r + 1) 1 0 data) as (f & F); try lia.
        exists (S f). cbn [tiff_loop]. destruct (r * rw <? zlen data) eqn:A'; [|discriminate].
        destruct (c <? columns) eqn:B'; [apply Z.ltb_lt in B'; lia|exact F].
    + destruct (r * rw <? zlen data) eqn:A; [|exists 1%nat; cbn [tiff_loop]; rewrite A; discriminate].
      apply Z.ltb_lt in A. destruct (c <? columns) eqn:B.
      * apply Z.ltb_lt in B. destruct (i <? colors) eqn:C.
        -- apply Z.ltb_lt in C.
           set (p := wrap64 (r * rw * 8 + wrap64 (wrap64 (wrap64 (c * colors) + i) * bpc))).
           destruct (zlen data * 8 <=? p) eqn:P.
           { exists 1%nat. cbn [tiff_loop]. destruct (r * rw <? zlen data); [|discriminate].
             destruct (c <? columns) eqn:B'; [|apply Z.ltb_ge in B'; lia]. destruct (i <? colors) eqn:C'; [|apply Z.ltb_ge in C'; lia].
             cbv zeta. fold p. rewrite P. discriminate. }
           destruct (get_bits data (wrap64 (p - wrap64 (colors * bpc))) bpc) as [pv|] eqn:G1.
           2:{ exists 1%nat. cbn [tiff_loop]. destruct (r * rw <? zlen data); [|discriminate].
             destruct (c <? columns) eqn:B'; [|apply Z.ltb_ge in B'; lia]. destruct (i <? colors) eqn:C'; [|apply Z.ltb_ge in C'; lia].
             cbv zeta. fold p. rewrite P, G1. discriminate. }
           destruct (get_bits data p bpc) as [v|] eqn:G2.
           2:{ exists 1%nat. cbn [tiff_loop]. destruct (r * rw <? zlen data); [|discriminate].
             destruct (c <? columns) eqn:B'; [|apply Z.ltb_ge in B'; lia]. destruct (i <? colors) eqn:C'; [|apply Z.ltb_ge in C'; lia].
             cbv zeta. fold p. rewrite P, G1, G2. discriminate. }
           destruct (set_bits data p bpc (wrap32 (v + pv))) as [d'|] eqn:G3.
           2:{ exists 1%nat. cbn [tiff_loop]. destruct (r * rw <? zlen data); [|discriminate].
             destruct (c <? columns) eqn:B'; [|apply Z.ltb_ge in B'; lia]. destruct (i <? colors) eqn:C'; [|apply Z.ltb_ge in C'; lia].
             cbv zeta. fold p. rewrite P, G1, G2, G3. discriminate. }
           destruct (IHi r c (i + 1) d') as (f & F); try lia. { rewrite (set_bits_zlen _ _ _ _ _ G3). lia. }
           exists (S f). cbn [tiff_loop]. destruct (r * rw <? zlen data); [|discriminate].
           destruct (c <? columns) eqn:B'; [|apply Z.ltb_ge in B'; lia]. destruct (i <? colors) eqn:C'; [|apply Z.ltb_ge in C'; lia].
           cbv zeta. fold p. rewrite P, G1, G2, G3. exact F.
        -- apply Z.ltb_ge in C. destruct (IHc (Z.to_nat (colors - 0)) r (c + 1) 0 data) as (f & F); try lia.
           exists (S f). cbn [tiff_loop]. destruct (r * rw <? zlen data) eqn:A'; [|discriminate].
           destruct (c <? columns) eqn:B'; [|apply Z.ltb_ge in B'; lia].
           destruct (i <? colors) eqn:C'; [apply Z.ltb_lt in C'; lia|exact F].
      * apply Z.ltb_ge in B. destruct (IHr (pred nr) ltac:(lia) (Z.to_nat (columns - 1)) (Z.to_nat (colors - 0)) (r + 1) 1 0 data) as (f & F); try lia.
        exists (S f). cbn [tiff_loop]. destruct (r * rw <? zlen data) eqn:A'; [|discriminate].
        destruct (c <? columns) eqn:B'; [apply Z.ltb_lt in B'; lia|exact F].
Qed.

Lemma predictor_ends : forall predictor bpc colors columns data,
  exists f, reverse_predictor f predictor bpc colors columns data <> OutOfFuel.
Proof.
  intros predictor bpc colors columns data. unfold reverse_predictor.
  destruct ((bpc <=? 0) || (16 <? bpc)); [exists 0%nat; discriminate|]. cbv zeta.
  match goal with |- context [?w <=? 0] => set (rw := w) end.
  destruct (rw <=? 0) eqn:RW; [exists 0%nat; discriminate|]. apply Z.leb_gt in RW.
  destruct (predictor =? 1); [exists 0%nat; discriminate|]. destruct (predictor =? 2).
  - eapply tiff_ends; auto; try lia.
  - exists 0%nat. destruct (_ && _); [|discriminate]. destruct (png_loop _ _ _ _ _ _); discriminate.
Qed.

(** ** Families of computations indexed by fuel *)
Section Term.
  Variables (E : env) (file : bytes) (p0 : pst).
  Hypothesis O : offsets_ok (pxref p0).

  Definition here (p : pst) : Prop := pwf file p /\ alike p0 p.
  (** at [p] the family settles for large fuel: on a panic or on a value with [Q] *)
  Definition settles {A} (m : nat -> M A) (p : pst) (Q : A -> Prop) : Prop :=
    exists f0, (forall f, (f0 <= f)%nat -> m f p = m f0 p) /\
      match m f0 p with OutOfFuel => False | Panic => True | Ok (a, p') => Q a /\ here p' end.
  Definition term {A} (m : nat -> M A) (Q : A -> Prop) : Prop := forall p, here p -> settles m p Q.

  Lemma term_ret : forall A (a : A) (Q : A -> Prop), Q a -> term (fun _ => ret a) Q.
  Proof. intros A a Q H p Hp. exists 0%nat. split; auto. split; auto. Qed.
  Lemma term_const : forall A (m : M A) (Q : A -> Prop), relm (keeps file) m -> (forall p a p', here p -> m p = Ok (a, p') -> Q a) ->
    (forall p, here p -> m p <> OutOfFuel) -> term (fun _ => m) Q.
  Proof.
    intros A m Q Hm HQ N p Hp. exists 0%nat. split; auto. specialize (N p Hp). specialize (HQ p).
    destruct (m p) as [[a p']| |] eqn:X; auto. split; [eapply HQ; eauto|].
    destruct Hp as [W [A1 A2]]. destruct (relm_keeps file _ m p a p' Hm W X) as [W' [F1 _ F3]].
    split; auto. split; congruence.
  Qed.
  Lemma term_bind : forall A B (m : nat -> M A) (k : nat -> A -> M B) (Q : A -> Prop) (Q' : B -> Prop),
    term m Q -> (forall a, Q a -> term (fun f => k f a) Q') -> term (fun f => bind (m f) (k f)) Q'.
  Proof.
    intros A B m k Q Q' Hm Hk p Hp. destruct (Hm p Hp) as (f0 & S & X). unfold settles, bind.
    destruct (m f0 p) as [[a p']| |] eqn:Y; [| |tauto].
    - destruct X as [Qa Hp']. destruct (Hk a Qa p' Hp') as (f1 & S' & X').
      exists (f0 + f1)%nat. split.
      + intros f L. rewrite (S f) by lia. rewrite (S (f0 + f1)%nat) by lia. rewrite (S' f) by lia. rewrite (S' (f0 + f1)%nat) by lia. auto.
      + rewrite (S (f0 + f1)%nat) by lia. rewrite (S' (f0 + f1)%nat) by lia. exact X'.
    - exists f0. split.
      + intros f L. rewrite (S f L), Y. reflexivity.
      + rewrite Y. exact I.
  Qed.
  Lemma term_weaken : forall A (m : nat -> M A) (Q Q' : A -> Prop), term m Q -> (forall a, Q a -> Q' a) -> term m Q'.
  Proof.
    intros A m Q Q' H K p Hp. destruct (H p Hp) as (f0 & S & X). exists f0. split; auto.
    destruct (m f0 p) as [[a p']| |]; auto. destruct X; auto.
  Qed.
  Lemma term_ext : forall A (m m' : nat -> M A) Q, (forall f p, m f p = m' f p) -> term m Q -> term m' Q.
  Proof.
    intros A m m' Q H T p Hp. destruct (T p Hp) as (f0 & S & X). exists f0. split.
    - intros f L. rewrite <- !H. auto.
    - rewrite <- H. exact X.
  Qed.
  Lemma term_local : forall A (m : pst -> nat -> M A) Q, (forall q, here q -> term (m q) Q) -> term (fun f p => m p f p) Q.
  Proof. intros A m Q H p Hp. exact (H p Hp p Hp). Qed.
  (** one more step of fuel *)
  Lemma term_S : forall A (m m' : nat -> M A) Q, (forall f p, m (S f) p = m' f p) -> term m' Q -> term m Q.
  Proof.
    intros A m m' Q H T p Hp. destruct (T p Hp) as (f0 & S' & X). exists (S f0). split.
    - intros f L. destruct f as [|f]; [lia|]. rewrite !H. apply S'. lia.
    - rewrite H. exact X.
  Qed.
  Lemma term_lift : forall A (x : nat -> res A), (forall f f', (f <= f')%nat -> le_res (x f) (x f')) -> (exists f, x f <> OutOfFuel) ->
    term (fun f => lift (x f)) (fun _ => True).
  Proof.
    intros A x Mx (f0 & N) p Hp. exists f0. unfold lift. split.
    - intros f L. destruct (Mx f0 f L) as [Q|Q]; [congruence|]. rewrite Q. reflexivity.
    - destruct (x f0); auto.
  Qed.

  (** ** Resolving references of bounded rank *)
  Variable rank : Z -> nat.
  Definition ranked (k : nat) (o : obj) : Prop := forall m, refers m o -> (rank m < k)%nat.

  Lemma ranked_arr : forall k l o, ranked k (OArr l) -> In o l -> ranked k o.
  Proof. intros k l o H I m R. apply H. eapply rf_arr; eauto. Qed.
  Lemma ranked_dict : forall k d n o, ranked k (ODict d) -> In (n, o) d -> ranked k o.
  Proof. intros k d n o H I m R. apply H. eapply rf_dict; eauto. Qed.
  Lemma ranked_simple : forall k o, (forall m, ~ refers m o) -> ranked k o.
  Proof. intros k o H m R. exfalso. eapply H; eauto. Qed.
  Lemma ranked_null : forall k, ranked k KEYWORD_NULL.
  Proof. intros k. apply ranked_simple. intros m H. inversion H. Qed.
  Lemma dget_In : forall k d o, dget k d = Some o -> exists k', In (k', o) d.
  Proof.
    intros k d o H. induction d as [|[k' v] d IH]; [discriminate|]. unfold dget in *. cbn [mget] in H.
    destruct (bseq k k').
    - exists k'. left. congruence.
    - destruct (IH H) as (k2 & I). exists k2. right; auto.
  Qed.
  Lemma zget_In : forall (l : list obj) i o, zget l i = Some o -> In o l.
  Proof. intros l i o H. apply zget_Some in H. eapply nth_error_In. apply H. Qed.

  Section Rs.
    Variable rs : nat -> Z -> M iobj.
    Variable k : nat.
    Hypothesis Hrs : forall n, (rank n < k)%nat -> term (fun f => rs f n) (fun o => ranked k (ival o)).

    Notation rkd := (fun x : obj * bool => ranked k (fst x)).
    Lemma d_object_term : forall d key, ranked k (ODict d) -> term (fun f => d_object (rs f) d key) rkd.
    Proof.
      intros d key H. unfold d_object. destruct (dget key d) as [o|] eqn:G.
      - destruct (dget_In _ _ _ G) as (k' & I). pose proof (ranked_dict _ _ _ _ H I) as RO.
        destruct o; try (apply term_ret; exact RO).
        eapply term_bind; [apply Hrs; apply RO; constructor|]. intros a Ha. apply term_ret. exact Ha.
      - apply term_ret. apply ranked_null.
    Qed.
    Lemma a_object_term : forall l i, ranked k (OArr l) -> term (fun f => a_object (rs f) l i) rkd.
    Proof.
      intros l i H. unfold a_object. destruct (zget l i) as [o|] eqn:G.
      - apply zget_In in G. pose proof (ranked_arr _ _ _ H G) as RO.
        destruct o; try (apply term_ret; exact RO).
        eapply term_bind; [apply Hrs; apply RO; constructor|]. intros a Ha. apply term_ret. exact Ha.
      - apply term_ret. apply ranked_null.
    Qed.
    Lemma get_as : forall A (as_ : obj * bool -> A * bool) (Q : A * bool -> Prop) (m : nat -> M (obj * bool)), term m rkd ->
      (forall x, rkd x -> Q (as_ x)) -> term (fun f => x <- m f ;; ret (as_ x)) Q.
    Proof. intros A as_ Q m Hm HQ. eapply term_bind; [exact Hm|]. intros a Ha. apply term_ret. auto. Qed.

    Definition any {A} (_ : A) : Prop := True.
    Lemma as_array_ranked : forall x, rkd x -> ranked k (OArr (fst (as_array x))).
    Proof.
      intros [o ok] H. destruct o; destruct ok; simpl in *; auto; apply ranked_simple; intros m R; inversion R; subst; contradiction.
    Qed.
    Lemma as_dict_ranked : forall x, rkd x -> ranked k (ODict (fst (as_dict x))).
    Proof.
      intros [o ok] H. destruct o; destruct ok; simpl in *; auto; apply ranked_simple; intros m R; inversion R; subst; contradiction.
    Qed.

    Lemma int_or_term : forall d key z, ranked k (ODict d) -> term (fun f => int_or (rs f) d key z) any.
    Proof.
      intros. unfold int_or, d_int. eapply term_bind with (Q := any).
      - apply get_as with (as_ := as_int); [apply d_object_term; auto|intros; exact I].
      - intros [v ok] _. apply term_ret. exact I.
    Qed.
    Lemma rev_predictor_term : forall data parms, ranked k (ODict parms) -> term (fun f => rev_predictor (rs f) f data parms) any.
    Proof.
      intros data parms H. unfold rev_predictor.
      eapply term_bind; [apply int_or_term; auto|intros a1 _]. eapply term_bind; [apply int_or_term; auto|intros a2 _].
      eapply term_bind; [apply int_or_term; auto|intros a3 _]. eapply term_bind; [apply int_or_term; auto|intros a4 _].
      apply term_lift; [|apply predictor_ends]. intros; apply reverse_predictor_mono; auto.
    Qed.
    Lemma decode_stream_term : forall flt data parms, ranked k (ODict parms) -> term (fun f => decode_stream E (rs f) f flt data parms) any.
    Proof.
      intros flt data parms H. unfold decode_stream. destruct data as [[|x data]|]; try (apply term_ret; exact I).
      repeat (match goal with |- context [if ?b then _ else _] => destruct b end; [try (apply term_ret; exact I)|]); try (apply term_ret; exact I).
      - unfold flate_decode. destruct (e_zlib E (x :: data)) as [[out err]|].
        + destruct (_ && _).
          * eapply term_bind with (Q := any); [apply term_ret; exact I|]. intros; apply term_ret; exact I.
          * eapply term_bind; [apply rev_predictor_term; auto|]. intros; apply term_ret; exact I.
        + eapply term_bind with (Q := any); [apply term_ret; exact I|]. intros; apply term_ret; exact I.
      - unfold lzw_decode. eapply term_bind with (Q := any); [|intros; apply term_ret; exact I].
        eapply term_bind; [apply int_or_term; auto|]. intros early _. destruct (if early =? 0 then _ else _) as [out err].
        destruct (_ && _); [apply term_ret; exact I|apply rev_predictor_term; auto].
    Qed.
    Lemma a_name_term : forall l i, ranked k (OArr l) -> term (fun f => a_name (rs f) l i) any.
    Proof. intros. unfold a_name. apply get_as with (as_ := as_name); [apply a_object_term; auto|intros; exact I]. Qed.
    Lemma d_name_term : forall l i, ranked k (ODict l) -> term (fun f => d_name (rs f) l i) any.
    Proof. intros. unfold d_name. apply get_as with (as_ := as_name); [apply d_object_term; auto|intros; exact I]. Qed.
    Lemma a_dict_term : forall l i, ranked k (OArr l) -> term (fun f => a_dict (rs f) l i) (fun x => ranked k (ODict (fst x))).
    Proof. intros. unfold a_dict. apply get_as with (as_ := as_dict); [apply a_object_term; auto|intros; apply as_dict_ranked; auto]. Qed.
    Lemma d_dict_term : forall l i, ranked k (ODict l) -> term (fun f => d_dict (rs f) l i) (fun x => ranked k (ODict (fst x))).
    Proof. intros. unfold d_dict. apply get_as with (as_ := as_dict); [apply d_object_term; auto|intros; apply as_dict_ranked; auto]. Qed.
    Lemma d_array_term : forall l i, ranked k (ODict l) -> term (fun f => d_array (rs f) l i) (fun x => ranked k (OArr (fst x))).
    Proof. intros. unfold d_array. apply get_as with (as_ := as_array); [apply d_object_term; auto|intros; apply as_array_ranked; auto]. Qed.

    Lemma decode_loop_term : forall n i fl pl data, ranked k (OArr fl) -> ranked k (OArr pl) ->
      term (fun f => decode_loop E (rs f) f n i fl pl data) any.
    Proof.
      induction n as [|n IH]; intros i fl pl data Hf Hp; cbn [decode_loop]; [apply term_ret; exact I|].
      eapply term_bind; [apply a_name_term; auto|]. intros [flt ok] _.
      eapply term_bind; [apply a_dict_term; auto|]. intros [dp ok2] Hd.
      eapply term_bind; [apply decode_stream_term; exact Hd|]. intros d' _. apply IH; auto.
    Qed.

    Lemma read_stream_term : forall dec fl pl, decent dec -> ranked k (OArr fl) -> ranked k (OArr pl) ->
      term (fun f => read_stream E (rs f) f dec fl pl) any.
    Proof.
      intros dec fl pl D Hf Hp. unfold read_stream. eapply term_bind with (Q := any).
      - apply term_const; [apply onrd_rel, (read_stream_raw_rel file), keeps_respects|intros; exact I|].
        intros p Hq. unfold onrd. destruct (read_stream_raw (prd p)). discriminate.
      - intros [d|] _; [|apply term_ret; exact I]. eapply term_bind with (Q := any).
        + apply term_const; [apply lift_rel|intros; exact I|]. intros p Hq. unfold lift. pose proof (D d). destruct (dec d); congruence.
        + intros d' _. apply decode_loop_term; auto.
    Qed.

    Lemma arr_nil : ranked k (OArr []).
    Proof. apply ranked_simple. intros m H. inversion H; contradiction. Qed.
    Lemma filter_list_term : forall d, ranked k (ODict d) -> term (fun f => filter_list (rs f) d) (fun l => ranked k (OArr l)).
    Proof.
      intros d H. unfold filter_list. eapply term_bind; [apply d_array_term; auto|]. intros [l ok] Hl. destruct ok; [apply term_ret; auto|].
      eapply term_bind; [apply d_name_term; auto|]. intros [nm ok] _. apply term_ret. destruct ok; [|apply arr_nil].
      apply ranked_simple. intros m R. inversion R as [|o l' I R' EQ|]; subst; destruct I as [<-|[]]. inversion R'.
    Qed.
    Lemma parms_list_term : forall d, ranked k (ODict d) -> term (fun f => parms_list (rs f) d) (fun l => ranked k (OArr l)).
    Proof.
      intros d H. unfold parms_list. eapply term_bind; [apply d_array_term; auto|]. intros [l ok] Hl. destruct ok; [apply term_ret; auto|].
      eapply term_bind; [apply d_dict_term; auto|]. intros [nm ok] Hd. apply term_ret. destruct ok; [|apply arr_nil].
      intros m R. inversion R as [|o l' I R' EQ|]; subst; destruct I as [<-|[]]. apply Hd. exact R'.
    Qed.
    Lemma ranked_tl : forall l, ranked k (OArr l) -> ranked k (OArr (tl l)).
    Proof. intros l H m R. apply H. inversion R as [|o l' I R'|]; subst. eapply rf_arr; eauto. destruct l; [auto|right; auto]. Qed.
    Lemma choose_crypt_term : forall enc d fl pl, ranked k (ODict d) -> ranked k (OArr fl) -> ranked k (OArr pl) ->
      term (fun f => choose_crypt (rs f) enc d fl pl) (fun x => ranked k (OArr (fst (snd x))) /\ ranked k (OArr (snd (snd x)))).
    Proof.
      intros enc d fl pl Hd Hf Hp. unfold choose_crypt. destruct enc; [|apply term_ret; simpl; auto].
      assert (G : forall h, term (fun f =>
        '(t, ok) <- d_name (rs f) d (lit "Type") ;;
        let cf := if ok && bseq t (lit "EmbeddedFile") then sh_file h else sh_stream h in
        match fl with
        | [] => ret (cf, (fl, pl))
        | _ :: fl' =>
          '(f0, _) <- a_name (rs f) fl 0 ;;
          if bseq f0 (lit "Crypt") then
            '(dp, _) <- a_dict (rs f) pl 0 ;;
            '(name, ok) <- d_name (rs f) dp (lit "Name") ;;
            let name := if ok : bool then name else lit "Identity" in
            let cf := match mget bseq name (sh_filters h) with Some c => c | None => cf end in
            ret (cf, (fl', tl pl))
          else ret (cf, (fl, pl))
        end) (fun x => ranked k (OArr (fst (snd x))) /\ ranked k (OArr (snd (snd x))))).
      2:{ intros q Hq. exact (G (psh q) q Hq). }
      intros h.
      eapply term_bind; [apply d_name_term; auto|]. intros [t ok] _.
      destruct fl as [|f0 fl']; [apply term_ret; simpl; auto|].
      eapply term_bind; [apply a_name_term; auto|]. intros [flt ok2] _. destruct (bseq flt (lit "Crypt")); [|apply term_ret; simpl; auto].
      eapply term_bind; [apply a_dict_term; auto|]. intros [dp ok3] Hdp.
      eapply term_bind; [apply d_name_term; exact Hdp|]. intros [nm ok4] _. apply term_ret. simpl. split.
      - apply (ranked_tl (f0 :: fl')). auto.
      - apply ranked_tl; auto.
    Qed.
  End Rs.

  Hypothesis HK : forall n v st m, stored E file p0 n v st -> refers m v ->
    (rank m <= rank n)%nat /\ (st -> (rank m < rank n)%nat).

  Lemma restoring_term : forall (m : nat -> M iobj) Q, term m Q -> term (fun f => restoring file (m f)) Q.
  Proof.
    intros m Q H.
    assert (G : forall off, term (fun f => o <- m f ;; pseek file off ;;; ret o) Q).
    { intros off. eapply term_bind; [exact H|]. intros o Qo. eapply term_bind with (Q := any).
      - apply term_const; [apply pseek_rel, keeps_seek|intros; exact I|]. intros; discriminate.
      - intros _ _. apply term_ret. exact Qo. }
    intros q Hq. exact (G (pos (prd q)) q Hq).
  Qed.

  Definition good (n : Z) (o : iobj) : Prop :=
    ranked (S (rank n)) (ival o) /\ (forall n' g, ival o = ORef n' g -> In n (map fst (pxref p0))).

  Lemma xget_In : forall n (x : xmap) e, xget n x = Some e -> In n (map fst x).
  Proof.
    intros n x e H. induction x as [|[k v] x IH]; [discriminate|]. unfold xget in *. cbn [mget] in H. cbn [map fst].
    destruct (n =? k) eqn:B; [left; apply Z.eqb_eq in B; auto|right; auto].
  Qed.

  Lemma get_term : forall k, (forall n, (rank n < k)%nat -> term (fun f r => resolve f E file n [] r) (fun o => ranked k (ival o))) ->
    forall n, rank n = k -> term (fun f => get_object f E file n) (good n).
  Proof.
    intros k Hk n Rn p Hp. pose proof Hp as [W [A1 A2]].
    assert (Null : good n (new_iobj n)).
    { split; [apply ranked_null|]. intros n' g X. discriminate X. }
    destruct (xget n (pxref p0)) as [e|] eqn:X.
    2:{ exists 1%nat. split.
        - intros f L. destruct f as [|f]; [lia|]. cbn [get_object]. rewrite <- A1, X. reflexivity.
        - cbn [get_object]. rewrite <- A1, X. split; auto. }
    destruct (x_type e =? XrefTypeIndirectObject) eqn:T.
    2:{ exists 1%nat. split.
        - intros f L. destruct f as [|f]; [lia|]. cbn [get_object]. rewrite <- A1, X, T. reflexivity.
        - cbn [get_object]. rewrite <- A1, X, T. split; auto. }
    pose proof T as T1. apply Z.eqb_eq in T1.
    set (rs := fun f r => restoring file (resolve f E file r [])).
    assert (Hrs : forall m, (rank m < k)%nat -> term (fun f => rs f m) (fun o => ranked k (ival o))).
    { intros m Hm. apply (restoring_term (fun f => resolve f E file m [])). apply Hk. exact Hm. }
    assert (G : settles (fun f => get_in_use E (rs f) f file n e) p (good n)).
    { set (dec := new_decryptor E (if x_enc e then sh_string (psh p0) else CFNone) n (x_gen e)).
      assert (D : decent dec) by apply new_decryptor_decent.
      set (R := same_but_log (log (prd p0)) (log (prd p))).
      assert (HR : respects file R) by apply same_respects.
      assert (S0 : R (seek file (x_off e) (prd p0)) (seek file (x_off e) (prd p))) by (apply seek_same; eapply O; eauto).
      destruct (read_object_header_rel file R HR _ _ S0) as [_ S1].
      pose proof (ReadObject_rel file R HR dec _ _ S1) as S2.
      assert (K1 : keeps file (snd (read_object_header (seek file (x_off e) (prd p)))) (snd (read_object_header (seek file (x_off e) (prd p))))).
      { apply (read_object_header_rel file (keeps file) (keeps_respects file)). split; auto. apply seek_wf. exact W. }
      pose proof (ReadObject_rel file (keeps file) (keeps_respects file) dec _ _ K1) as K2.
      pose proof (ReadObject_fuel file dec _ (proj2 K1) D) as NF.
      assert (EQ : forall f, get_in_use E (rs f) f file n e p =
        match ReadObject file dec (snd (read_object_header (seek file (x_off e) (prd p)))) with
        | Ok ((v, er), s2) => object_end E (rs f) f n e v (fst (read_keyword s2)) (with_rd (snd (read_keyword s2)) p)
        | Panic => Panic
        | OutOfFuel => OutOfFuel
        end) by (intros f; rewrite get_in_use_eq, <- A2; reflexivity).
      destruct (ReadObject file dec (snd (read_object_header (seek file (x_off e) (prd p))))) as [[[v er] s2]| |] eqn:RO; [| |congruence].
      2:{ exists 0%nat. rewrite EQ. split; [intros; apply EQ|exact I]. }
      destruct K2 as [_ K2].
      assert (Hp2 : here (with_rd (snd (read_keyword s2)) p)).
      { split; [|exact (conj A1 A2)]. destruct (read_keyword_rel file (keeps file) (keeps_respects file) _ _ K2) as [_ K3]. apply K3. }
      destruct (ReadObject file dec (snd (read_object_header (seek file (x_off e) (prd p0))))) as [[[v0 er0] s20]| |] eqn:RO0; simpl in S2; try tauto.
      destruct S2 as [Ev S2]. injection Ev as -> ->.
      destruct (read_keyword_rel file R HR _ _ S2) as [Ekw _].
      assert (ST : stored E file p0 n v (fst (read_keyword s2) = lit "stream")).
      { exists e, er, s20. split; auto. split; auto. split; auto. rewrite Ekw. tauto. }
      assert (Gv : good n {| inum := n; igen := x_gen e; ival := v; istream := None |}).
      { split; [|intros; eapply xget_In; eauto]. intros m Rm. destruct (HK _ _ _ _ ST Rm). simpl. lia. }
      assert (GT : term (fun f => object_end E (rs f) f n e v (fst (read_keyword s2))) (good n)).
      { unfold object_end. destruct (bseq (fst (read_keyword s2)) (lit "stream")) eqn:KW; [|apply term_ret; exact Gv].
        apply bseq_eq in KW. set (d := match v with ODict d => d | _ => [] end).
        assert (Rv : ranked k v) by (intros m Rm; destruct (HK _ _ _ _ ST Rm); rewrite <- Rn; auto).
        assert (Rd : ranked k (ODict d)).
        { unfold d. destruct v; auto; apply ranked_simple; intros m Hm; inversion Hm; subst; contradiction. }
        eapply term_bind; [apply (filter_list_term rs k Hrs); auto|]. intros fl Hfl.
        eapply term_bind; [apply (parms_list_term rs k Hrs); auto|]. intros pl Hpl.
        eapply term_bind; [apply (choose_crypt_term rs k Hrs); auto|]. intros [cf [fl2 pl2]] [H1 H2].
        eapply term_bind; [apply (read_stream_term rs k Hrs); auto; apply new_decryptor_decent|]. intros st _.
        apply term_ret. exact Gv. }
      destruct (GT _ Hp2) as (f0 & G1 & G2). exists f0. rewrite EQ. split; [|exact G2]. intros f L. rewrite EQ. apply G1. exact L. }
    destruct G as (f0 & G1 & G2). exists (S f0). cbn [get_object]. rewrite <- A1, X, T. fold rs. split; [|exact G2].
    intros f L. destruct f as [|f]; [lia|]. cbn [get_object]. rewrite <- A1, X, T. apply (G1 f). lia.
  Qed.

  (** resolve: each step visits a new entry of the table *)
  Definition unseen (seen : list Z) : nat := List.length (filter (fun k => negb (zmem k seen)) (map fst (pxref p0))).
  Lemma unseen_less : forall n seen, In n (map fst (pxref p0)) -> ~ In n seen -> (unseen (n :: seen) < unseen seen)%nat.
  Proof.
    intros n seen I N. unfold unseen. induction (map fst (pxref p0)) as [|a l IH]; [destruct I|]. cbn [filter].
    assert (LE : forall l, (List.length (filter (fun k => negb (zmem k (n :: seen))) l) <= List.length (filter (fun k => negb (zmem k seen)) l))%nat).
    { clear. induction l as [|a l IH]; auto. cbn [filter].
      change (zmem a (n :: seen)) with ((a =? n) || zmem a seen). destruct (a =? n); cbn [orb negb]; destruct (zmem a seen); cbn [negb List.length]; lia. }
    destruct I as [->|I].
    - replace (zmem n (n :: seen)) with true by (symmetry; apply zmem_In; left; auto).
      assert (Z : zmem n seen = false) by (destruct (zmem n seen) eqn:Z; auto; apply zmem_In in Z; contradiction).
      rewrite Z. cbn [negb List.length]. specialize (LE l). lia.
    - specialize (IH I). change (zmem a (n :: seen)) with ((a =? n) || zmem a seen). destruct (a =? n); cbn [orb negb]; destruct (zmem a seen); cbn [negb List.length]; lia.
  Qed.

  Lemma resolve_term : forall k, (forall n, (rank n < k)%nat -> term (fun f => get_object f E file n) (good n)) ->
    forall c seen n, (unseen seen <= c)%nat -> (rank n < k)%nat -> term (fun f => resolve f E file n seen) (fun o => ranked k (ival o)).
  Proof.
    intros k Hk c. induction c as [c IH] using lt_wf_ind. intros seen n U Rn.
    apply term_S with (m' := fun f => if zmem n seen then ret (new_iobj n) else
      o <- get_object f E file n ;; match ival o with ORef n' _ => resolve f E file n' (n :: seen) | _ => ret o end).
    { intros f p. reflexivity. }
    destruct (zmem n seen) eqn:Z; [apply term_ret; apply ranked_null|].
    eapply term_bind; [apply Hk; exact Rn|]. intros o [Ro Io].
    assert (Ro' : ranked k (ival o)) by (intros m Hm; specialize (Ro m Hm); lia).
    destruct (ival o) as [| | | |n' g| |] eqn:V; try (apply term_ret; rewrite V; exact Ro').
    assert (L : (unseen (n :: seen) < unseen seen)%nat).
    { apply unseen_less; [eapply Io; eauto|]. intros I. apply zmem_In in I. congruence. }
    apply (IH (unseen (n :: seen))); [lia|lia|]. apply Ro'. constructor.
  Qed.

  Lemma all_term : forall k n, (rank n < k)%nat -> term (fun f => get_object f E file n) (good n).
  Proof.
    induction k as [|k IH]; intros n L; [lia|]. apply (get_term (rank n)); auto. intros m Hm.
    apply resolve_term with (c := unseen []); auto. intros n' Hn'. apply IH. lia.
  Qed.
End Term.

Lemma get_object_ends : forall E file p n rank, reads file p -> offsets_ok (pxref p) ->
  (forall n v st m, stored E file p n v st -> refers m v -> (rank m <= rank n)%nat /\ (st -> (rank m < rank n)%nat)) ->
  exists f0, forall fuel, (f0 <= fuel)%nat -> GetObject fuel E file n p <> OutOfFuel.
Proof.
  intros E file p n rank W O HK. destruct (all_term E file p O rank HK (S (rank n)) n ltac:(lia) p (conj W (conj eq_refl eq_refl))) as (f0 & S' & X).
  exists f0. intros fuel L. unfold GetObject. rewrite (S' fuel L). destruct (get_object f0 E file n p); tauto || discriminate.
Qed.

Lemma resolve_ends : forall E file p n rank, reads file p -> offsets_ok (pxref p) ->
  (forall n v st m, stored E file p n v st -> refers m v -> (rank m <= rank n)%nat /\ (st -> (rank m < rank n)%nat)) ->
  exists f0, forall fuel, (f0 <= fuel)%nat -> Resolve fuel E file n p <> OutOfFuel.
Proof.
  intros E file p n rank W O HK.
  pose proof (resolve_term E file p rank (S (rank n)) (fun m H => all_term E file p O rank HK (S (rank n)) m H)
    (unseen p []) [] n (Nat.le_refl _) ltac:(lia)) as T.
  destruct (restoring_term file p (fun f => resolve f E file n []) _ T p (conj W (conj eq_refl eq_refl))) as (f0 & S' & X).
  exists f0. intros fuel L. unfold Resolve. rewrite (S' fuel L). destruct (restoring _ _ _); tauto || discriminate.
Qed.

