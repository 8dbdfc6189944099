(** AlongP.v -- relations between the states before and after: a reflexive and
    transitive relation that holds along every resolution of a reference holds
    along the whole extraction. *)
From Verif Require Import Base BaseP Msg Reader ReaderP Num Lexer Obj ReadObj Env Getters Crypt GetObj Font Page Tree Output Render Extract Load Parse
  RelP GetObjP SpecRead FetchP LookP SecurityP CryptObjP SpecFetch SpecLook SpecOut OutP.
From Coq Require Import Strings.String Sorting.Permutation.
Local Open Scope m_scope.

Section Along.
  Variable T : pst -> pst -> Prop.
  Hypothesis T_refl : forall p, T p p.
  Hypothesis T_trans : forall p q r, T p q -> T q r -> T p r.
  Variables (E : env) (OD : order) (fuel : nat).
  Hypothesis OK : order_ok OD.
  Variable rs : Z -> M iobj.

  Definition goes {A} (m : M A) : Prop := forall p a p', m p = Ok (a, p') -> T p p'.
  Hypothesis rs_goes : forall n, goes (rs n).

  Lemma ret_goes : forall A (a : A), goes (ret a).
  Proof. intros A a p b p' H. unfold ret in H. assert (p' = p) by congruence. subst. apply T_refl. Qed.
  Lemma lift_goes : forall A (x : res A), goes (lift x).
  Proof. intros A x p b p' H. unfold lift in H. destruct x; try discriminate. assert (p' = p) by congruence. subst. apply T_refl. Qed.
  Lemma bind_goes : forall A B (m : M A) (k : A -> M B), goes m -> (forall a, goes (k a)) -> goes (bind m k).
  Proof.
    intros A B m k Hm Hk p b p' H. unfold bind in H. destruct (m p) as [[a q]| |] eqn:Q; try discriminate.
    eapply T_trans; [exact (Hm _ _ _ Q) | exact (Hk _ _ _ _ H)].
  Qed.
  Lemma fuel_goes : forall A, goes (fun _ => @OutOfFuel (A * pst)).
  Proof. intros A p a p' H. discriminate. Qed.
  Ltac rm := repeat match goal with
    | |- goes (ret _) => apply ret_goes
    | |- goes (lift _) => apply lift_goes
    | |- goes (bind _ _) => apply bind_goes; [|intros]
    | |- goes (let '(_, _) := ?x in _) => destruct x
    | |- goes (if ?b then _ else _) => destruct b
    | |- forall _, _ => intro
    end; auto.
  Lemma d_object_goes : forall d k, goes (d_object rs d k).
  Proof. intros d k. unfold d_object. destruct (dget k d) as [[]|]; rm. Qed.
  Lemma a_object_goes : forall d k, goes (a_object rs d k).
  Proof. intros d k. unfold a_object. destruct (zget d k) as [[]|]; rm. Qed.
  Hint Resolve d_object_goes a_object_goes : core.
  Lemma d_name_goes : forall d k, goes (d_name rs d k). Proof. intros; unfold d_name; rm. Qed.
  Lemma d_int_goes : forall d k, goes (d_int rs d k). Proof. intros; unfold d_int; rm. Qed.
  Lemma d_array_goes : forall d k, goes (d_array rs d k). Proof. intros; unfold d_array; rm. Qed.
  Lemma d_dict_goes : forall d k, goes (d_dict rs d k). Proof. intros; unfold d_dict; rm. Qed.
  Lemma d_string_goes : forall d k, goes (d_string rs d k). Proof. intros; unfold d_string; rm. Qed.
  Lemma d_stream_goes : forall d k, goes (d_stream rs d k).
  Proof. intros; unfold d_stream. destruct (dget k d) as [[]|]; rm. Qed.
  Lemma a_name_goes : forall d k, goes (a_name rs d k). Proof. intros; unfold a_name; rm. Qed.
  Lemma a_dict_goes : forall d k, goes (a_dict rs d k). Proof. intros; unfold a_dict; rm. Qed.
  Lemma a_string_goes : forall d k, goes (a_string rs d k). Proof. intros; unfold a_string; rm. Qed.
  Lemma a_stream_goes : forall d k, goes (a_stream rs d k).
  Proof. intros; unfold a_stream. destruct (zget d k) as [[]|]; rm. Qed.
  Hint Resolve d_name_goes d_int_goes d_array_goes d_dict_goes a_name_goes a_dict_goes : core.

  (** decoding of streams *)
  Lemma int_or_goes : forall d k z, goes (int_or rs d k z).
  Proof. intros; unfold int_or; rm. Qed.
  Hint Resolve int_or_goes : core.
  Lemma rev_predictor_goes : forall data parms, goes (rev_predictor rs fuel data parms).
  Proof. intros; unfold rev_predictor; rm. Qed.
  Hint Resolve rev_predictor_goes : core.
  Lemma decode_stream_goes : forall f data parms, goes (decode_stream E rs fuel f data parms).
  Proof.
    intros f data parms; unfold decode_stream. destruct data as [[|x data]|]; rm.
    - unfold flate_decode. destruct (e_zlib E (x :: data)) as [[out err]|]; rm.
    - unfold lzw_decode; rm.
  Qed.
  Hint Resolve decode_stream_goes : core.
  Lemma decode_loop_goes : forall k i fl pl data, goes (decode_loop E rs fuel k i fl pl data).
  Proof. induction k as [|k IH]; intros; cbn [decode_loop]; rm. Qed.
  Lemma filter_list_goes : forall d, goes (filter_list rs d). Proof. intros; unfold filter_list; rm. Qed.
  Lemma parms_list_goes : forall d, goes (parms_list rs d). Proof. intros; unfold parms_list; rm. Qed.
  Lemma choose_crypt_goes : forall e d fl pl, goes (choose_crypt rs e d fl pl).
  Proof.
    intros e d fl pl. unfold choose_crypt. destruct e; [|rm]. intros p a p' H.
    match type of H with ?m p = _ => assert (Q : goes m); [|exact (Q p a p' H)] end. destruct fl; rm.
  Qed.

  Lemma name_goes : forall f, (forall d s, goes (name_tree rs f d s)) /\
    (forall k i kids acc s, goes (name_kids rs f k i kids acc s)).
  Proof.
    induction f as [| f [IH1 IH2]]; [split; intros; apply fuel_goes |]. split.
    - intros d s. cbn [name_tree]. apply bind_goes; [apply d_array_goes |]. intros [n ok].
      cbv zeta. apply bind_goes; [apply d_array_goes |]. intros [kids ok']. destruct ok'; [apply IH2 | apply ret_goes].
    - intros k i kids acc s. cbn [name_kids]. destruct k as [| k]; [apply ret_goes |]. cbv zeta.
      match goal with |- goes (if ?c then _ else _) => destruct c end; [apply IH2 |].
      apply bind_goes; [apply a_dict_goes |]. intros [kid ok]. apply bind_goes; [apply IH1 |]. intros [l s']. apply IH2.
  Qed.
  Lemma name_tree_map_goes : forall f d k, goes (name_tree_map rs f d k).
  Proof.
    intros. unfold name_tree_map. apply bind_goes; [apply d_dict_goes |]. intros [r ok]. destruct ok; [| apply ret_goes].
    apply bind_goes; [apply name_goes |]. intros [l s]. apply ret_goes.
  Qed.
  Lemma page_goes : forall f, (forall d s, goes (resolve_kids rs f d s)) /\
    (forall kids acc s, goes (page_kids rs f kids acc s)).
  Proof.
    induction f as [| f [IH1 IH2]]; [split; intros; apply fuel_goes |]. split.
    - intros d s. cbn [resolve_kids]. apply bind_goes; [apply d_array_goes |]. intros [kids ok]. destruct ok; [apply IH2 | apply ret_goes].
    - intros kids acc s. cbn [page_kids]. destruct kids as [| x kids]; [apply ret_goes |]. destruct x; try apply IH2.
      destruct (zmem n s); [apply IH2 |]. apply bind_goes; [apply rs_goes |]. intros o. destruct (ival o); try apply IH2.
      apply bind_goes; [apply IH1 |]. intros [l s']. apply IH2.
  Qed.
  Lemma page_tree_goes : forall f d k, goes (page_tree rs f d k).
  Proof.
    intros. unfold page_tree. apply bind_goes; [apply d_dict_goes |]. intros [r ok]. destruct ok; [| apply ret_goes].
    apply bind_goes; [apply page_goes |]. intros [l s]. apply ret_goes.
  Qed.
  Lemma load_fonts_goes : forall names fonts fm, goes (load_fonts E rs fuel names fonts fm).
  Proof.
    induction names as [| k names IH]; intros fonts fm; cbn [load_fonts]; [apply ret_goes |].
    apply bind_goes; [apply d_dict_goes |]. intros [i ok]. apply bind_goes; [| intros; apply IH].
    unfold new_font. apply bind_goes; [apply d_stream_goes |]. intros [c ok']. apply lift_goes.
  Qed.
  Lemma xfa_goes : forall k i a acc, goes (xfa_streams rs k i a acc).
  Proof.
    induction k as [| k IH]; intros i a acc; cbn [xfa_streams]; [apply ret_goes |]. apply bind_goes; [apply a_stream_goes |]. intros [s ok]. apply IH.
  Qed.

  (** ... and with the events *)
  Definition xgoes {A} (m : X A) : Prop := forall p w a p', m p = (w, Ok (a, p')) -> T p p'.
  Lemma xgoes_ret : forall A (a : A), xgoes (xret a).
  Proof. intros A a p w b p' H. unfold xret in H. assert (p' = p) by congruence. subst. apply T_refl. Qed.
  Lemma xgoes_out : forall w, xgoes (xout w).
  Proof. intros w p w' b p' H. unfold xout in H. assert (p' = p) by congruence. subst. apply T_refl. Qed.
  Lemma xgoes_lift : forall A (m : M A), goes m -> xgoes (xlift m).
  Proof. intros A m H p w b p' Q. unfold xlift in Q. injection Q as _ Q. eapply H; exact Q. Qed.
  Lemma xgoes_pure : forall A (x : list ev * res A), xgoes (xpure x).
  Proof.
    intros A x p w b p' Q. unfold xpure in Q. destruct (snd x); try discriminate. injection Q as _ _ <-. apply T_refl.
  Qed.
  Lemma xgoes_bind : forall A B (m : X A) (k : A -> X B), xgoes m -> (forall a, xgoes (k a)) -> xgoes (xbind m k).
  Proof.
    intros A B m k Hm Hk p w b p' H. unfold xbind in H. destruct (m p) as [w1 [[a q]| |]] eqn:M; try discriminate.
    destruct (k a q) as [w2 r] eqn:K. assert (r = Ok (b, p')) by congruence. subst r.
    eapply T_trans; [exact (Hm _ _ _ _ M) |]. eapply Hk; exact K.
  Qed.
  Lemma xgoes_seq : forall l, (forall m, In m l -> xgoes m) -> xgoes (xseq l).
  Proof.
    induction l as [| m l IH]; intros H; [apply xgoes_ret |]. cbn [xseq]. apply xgoes_bind; [apply H; left; reflexivity |].
    intros _. apply IH. intros m' I. apply H. right. assumption.
  Qed.

  Ltac xs := repeat first [match goal with |- xgoes (xret _) => apply xgoes_ret end
    | match goal with |- xgoes (xout _) => apply xgoes_out end
    | match goal with |- xgoes (xpure _) => apply xgoes_pure end
    | match goal with |- xgoes (xlift _) => apply xgoes_lift;
        first [apply d_string_goes | apply d_dict_goes | apply d_name_goes | apply d_array_goes
              | apply d_stream_goes | apply a_string_goes | apply a_dict_goes | apply a_stream_goes | apply xfa_goes | apply load_fonts_goes
              | apply name_tree_map_goes | apply page_tree_goes] end
    | match goal with |- xgoes (xbind _ _) => apply xgoes_bind; [| intros] end
    | match goal with |- xgoes (let '(_, _) := ?x in _) => destruct x end
    | match goal with |- xgoes (match ?x with (_, _) => _ end) => destruct x end
    | match goal with |- xgoes (if ?b then _ else _) => destruct b end].

  Lemma contents_array_goes : forall k i fm a, xgoes (contents_array E rs fuel k i fm a).
  Proof. induction k as [| k IH]; intros i fm a; cbn [contents_array]; xs. apply IH. Qed.
  Lemma page_extract_goes : forall st d, xgoes (page_extract E OD rs fuel st d).
  Proof. intros. unfold page_extract. xs. apply contents_array_goes. Qed.
  Lemma file_extract_goes : forall d c, xgoes (file_extract E rs d c).
  Proof. intros. unfold file_extract. xs. Qed.
  Lemma action_extract_goes : forall d, xgoes (action_extract E rs d).
  Proof. intros. unfold action_extract. xs; apply file_extract_goes. Qed.
  Lemma action_at_goes : forall d k, xgoes (action_at E rs d k).
  Proof. intros. unfold action_at. xs. apply action_extract_goes. Qed.
  Lemma additional_actions_goes : forall st d, xgoes (additional_actions E OD rs st d).
  Proof.
    intros. unfold additional_actions. xs. apply xgoes_seq. intros m I. apply in_map_iff in I. destruct I as (k & <- & _). apply action_at_goes.
  Qed.
  Lemma forms_goes : forall d, xgoes (forms E rs d).
  Proof. intros. unfold forms. xs. Qed.
  Lemma embedded_loop_goes : forall k i l, xgoes (embedded_loop E rs k i l).
  Proof. induction k as [| k IH]; intros i l; cbn [embedded_loop]; xs; try apply IH; apply file_extract_goes. Qed.
  Lemma embedded_files_goes : forall d, xgoes (embedded_files E rs fuel d).
  Proof. intros. unfold embedded_files. xs. apply embedded_loop_goes. Qed.
  Lemma javascript_goes : forall d, xgoes (javascript rs d).
  Proof. intros. unfold javascript. xs. Qed.
  Lemma pages_loop_goes : forall l st i, xgoes (pages_loop E OD rs fuel st i l).
  Proof. induction l as [| d l IH]; intros st i; cbn [pages_loop]; xs; [apply page_extract_goes | apply IH]. Qed.
  Lemma page_text_of_goes : forall st d, xgoes (page_text_of E OD rs fuel st d).
  Proof. intros. unfold page_text_of. xs. apply pages_loop_goes. Qed.
  Lemma uris_goes : forall d, xgoes (uris rs d).
  Proof. intros. unfold uris. xs. Qed.
  Lemma urls_loop_goes : forall k i l, xgoes (urls_loop rs k i l).
  Proof. induction k as [| k IH]; intros i l; cbn [urls_loop]; xs; apply IH. Qed.
  Lemma urls_tree_goes : forall d, xgoes (urls_tree rs fuel d).
  Proof. intros. unfold urls_tree. xs. apply urls_loop_goes. Qed.
  Lemma extract_here_goes : forall st d, xgoes (extract_here E OD rs fuel st d).
  Proof.
    intros st d. unfold extract_here.
    apply xgoes_bind; [apply action_at_goes | intros _]. apply xgoes_bind; [apply action_at_goes | intros _].
    apply xgoes_bind; [apply additional_actions_goes | intros _]. apply xgoes_bind; [apply forms_goes | intros _].
    apply xgoes_bind; [apply embedded_files_goes | intros _]. apply xgoes_bind; [apply javascript_goes | intros _].
    apply xgoes_bind; [apply page_text_of_goes | intros _]. apply xgoes_bind; [apply uris_goes | intros _]. apply urls_tree_goes.
  Qed.
  Lemma extract_goes : forall o st, xgoes (extract E OD rs fuel st o).
  Proof.
    intros o. induction o as [| | | | | l IH | d IH] using obj_nested_ind; intros st; try apply xgoes_ret.
    - rewrite extract_array. apply xgoes_seq. intros m I. apply in_extracts in I. destruct I as (st' & x & Ix & ->). eapply Forall_forall in IH; [apply IH | exact Ix].
    - rewrite extract_dict. apply xgoes_bind; [apply extract_here_goes | intros _]. apply xgoes_seq. intros m I.
      apply (Permutation_in m (Permutation_sym (proj1 OK (2 :: st) _ _))) in I. apply in_extracts in I. destruct I as (st' & x & Ix & ->).
      eapply Forall_forall in IH; [apply IH | exact Ix].
  Qed.
  Lemma object_extract_goes : forall o st, xgoes (object_extract E OD rs fuel st o).
  Proof. intros. unfold object_extract. destruct (ival o); try apply xgoes_ret. apply extract_goes. Qed.

  Lemma extract_one_goes : forall file n e, rs = Resolve fuel E file -> goes (GetObject fuel E file n) -> xgoes (extract_one E OD fuel file (n, e)).
  Proof.
    intros file n e Q G. unfold extract_one. rewrite <- Q. destruct (x_type e =? XrefTypeIndirectObject); [| apply xgoes_ret].
    apply xgoes_bind; [apply xgoes_lift, lift_goes | intros _]. apply xgoes_bind; [apply xgoes_lift; exact G | intros o].
    apply xgoes_bind; [apply object_extract_goes | intros _; apply xgoes_out].
  Qed.
  Lemma extract_all_goes : forall file l, rs = Resolve fuel E file -> (forall n, goes (GetObject fuel E file n)) -> xgoes (extract_all E OD fuel file l).
  Proof.
    intros file l Q G. induction l as [| [n e] l IH]; [apply xgoes_ret |]. cbn [extract_all].
    apply xgoes_bind; [apply extract_one_goes; auto | intros _; exact IH].
  Qed.
End Along.
