(** OutP.v -- proofs about the output of extraction. *)
From Verif Require Import Base BaseP Msg Reader ReaderP Num Lexer Obj ReadObj Env Getters Crypt GetObj Font Page Tree Output Render Extract Load Parse
  RelP GetObjP SpecRead FetchP LookP SecurityP CryptObjP SpecFetch SpecLook SpecOut.
From Coq Require Import Strings.String Sorting.Permutation.
Local Open Scope x_scope.

(** ** The shape of extract *)
Section Nested.
  Variable P : obj -> Prop.
  Hypotheses (Hn : forall v, P (ONum v)) (Hs : forall v, P (OStr v)) (Hm : forall v, P (OName v)) (Hk : forall v, P (OKw v))
    (Hr : forall n g, P (ORef n g)) (Ha : forall l, Forall P l -> P (OArr l)) (Hd : forall d, Forall P (map snd d) -> P (ODict d)).
  Fixpoint obj_nested_ind (o : obj) : P o :=
    match o with
    | ONum v => Hn v
    | OStr v => Hs v
    | OName v => Hm v
    | OKw v => Hk v
    | ORef n g => Hr n g
    | OArr l => Ha l ((fix go (l : list obj) : Forall P l :=
        match l with [] => Forall_nil P | x :: l' => Forall_cons x (obj_nested_ind x) (go l') end) l)
    | ODict d => Hd d ((fix go (d : list (bytes * obj)) : Forall P (map snd d) :=
        match d with [] => Forall_nil P | (k, x) :: d' => Forall_cons x (obj_nested_ind x) (go d') end) d)
    end.
End Nested.

Section Shape.
  Variables (E : env) (OD : order) (rs : Z -> M iobj) (fuel : nat).
  Fixpoint extracts (tag i : Z) (st : site) (l : list obj) : list (X unit) :=
    match l with
    | [] => []
    | x :: l' => extract E OD rs fuel (i :: tag :: st) x :: extracts tag (i + 1) st l'
    end.
  Lemma extract_array : forall st l, extract E OD rs fuel st (OArr l) = xseq (extracts 4 0 st l).
  Proof.
    intros st l. cbn [extract]. f_equal. generalize 0. induction l as [| x l IH]; intros i; [reflexivity |]. cbn [extracts]. f_equal. apply IH.
  Qed.
  Lemma extract_dict : forall st d, extract E OD rs fuel st (ODict d) =
    (extract_here E OD rs fuel st d ;;; xseq (o_map OD (2 :: st) (X unit) (extracts 3 0 st (map snd d)))).
  Proof.
    intros st d. cbn [extract]. enough (Q : forall i,
      (fix go (i : Z) (d : list (bytes * obj)) : list (X unit) :=
         match d with [] => [] | (_, x) :: d' => extract E OD rs fuel (i :: 3 :: st) x :: go (i + 1) d' end) i d = extracts 3 i st (map snd d)).
    { rewrite Q. reflexivity. }
    induction d as [| [k x] d IH]; intros i; [reflexivity |]. cbn [extracts map snd]. f_equal. apply IH.
  Qed.
  Lemma in_extracts : forall m tag st l i, In m (extracts tag i st l) -> exists st' x, In x l /\ m = extract E OD rs fuel st' x.
  Proof.
    induction l as [| x l IH]; intros i I; [destruct I |]. destruct I as [<- | I]; [exists (i :: tag :: st), x; split; [left |]; reflexivity |].
    destruct (IH _ I) as (st' & y & Iy & Q). exists st', y. split; [right |]; assumption.
  Qed.
  Lemma extracts_in : forall x tag st l i, In x l -> exists st', In (extract E OD rs fuel st' x) (extracts tag i st l).
  Proof.
    induction l as [| y l IH]; intros i I; [destruct I |]. destruct I as [-> | I]; [exists (i :: tag :: st); left; reflexivity |].
    destruct (IH (i + 1) I) as (st' & Q). exists st'. right. assumption.
  Qed.
End Shape.

(** ** What can be written at all *)
Section Emits.
  Variables (E : env) (OD : order) (P : list ev -> Prop).
  Hypothesis OK : order_ok OD.
  Hypothesis Pnil : P [].
  Hypothesis Papp : forall a b, P a -> P b -> P (a ++ b).
  Hypothesis Pwrite : forall f b, f <> FRaw -> P [EWrite f b].
  Hypothesis Pdump : forall n d, P (dump_file E n d).

  Definition emits {A} (m : X A) : Prop := forall p, P (fst (m p)).
  Lemma emits_ret : forall A (a : A), emits (xret a).
  Proof. intros A a p. exact Pnil. Qed.
  Lemma emits_lift : forall A (m : M A), emits (xlift m).
  Proof. intros A m p. exact Pnil. Qed.
  Lemma emits_fuel : forall A, emits (fun _ => ([], @OutOfFuel (A * pst))).
  Proof. intros A p. exact Pnil. Qed.
  Lemma emits_bind : forall A B (m : X A) (k : A -> X B), emits m -> (forall a, emits (k a)) -> emits (xbind m k).
  Proof.
    intros A B m k Hm Hk p. unfold xbind. specialize (Hm p). destruct (m p) as [w [[a q]| |]]; try exact Hm.
    specialize (Hk a q). destruct (k a q) as [w' r]. apply Papp; assumption.
  Qed.
  Lemma emits_out : forall w, P w -> emits (xout w).
  Proof. intros w H p. exact H. Qed.
  Lemma emits_seq : forall l, (forall m, In m l -> emits m) -> emits (xseq l).
  Proof.
    induction l as [| m l IH]; intros H; [apply emits_ret |]. cbn [xseq]. apply emits_bind; [apply H; left; reflexivity |].
    intros _. apply IH. intros m' I. apply H. right. assumption.
  Qed.
  Lemma write2 : forall f b g c, f <> FRaw -> g <> FRaw -> P [EWrite f b; EWrite g c].
  Proof. intros. apply (Papp [EWrite f b] [EWrite g c]); apply Pwrite; assumption. Qed.

  Ltac em := repeat first [match goal with |- emits (xret _) => apply emits_ret end | match goal with |- emits (xlift _) => apply emits_lift end | match goal with |- emits (xbind _ _) => apply emits_bind; [| intros] end
    | match goal with |- emits (xout _) => apply emits_out; first [apply Pdump | apply Pwrite; discriminate | apply write2; discriminate] end
    | match goal with |- emits (let '(_, _) := ?x in _) => destruct x end
    | match goal with |- emits (match ?x with (_, _) => _ end) => destruct x end
    | match goal with |- emits (if ?b then _ else _) => destruct b end].

  Lemma show_emits : forall f s, emits (show f s).
  Proof. intros. unfold show. em. Qed.
  Lemma text_loop_emits : forall fuel c fm cur, emits (text_loop E c fm fuel cur).
  Proof.
    induction fuel as [| n IH]; intros c fm cur; cbn [text_loop]; [apply emits_fuel |].
    apply emits_bind; [apply emits_lift |]. intros [[cmd ops] e].
    assert (B : emits (if bseq cmd (lit "ET") then xret tt
      else if bseq cmd (lit "Tf") then '(name, _) <- xlift (a_name (Resolve n E c) ops (zlen ops - 2)) ;;
              text_loop E c fm n (match mget bseq name fm with Some f => f | None => font_default end)
      else if bseq cmd (lit "Tj") || bseq cmd (lit "'") || bseq cmd [x22] then
              '(s, _) <- xlift (a_string (Resolve n E c) ops (zlen ops - 1)) ;; show cur s ;;; text_loop E c fm n cur
      else if bseq cmd (lit "TJ") then '(a, _) <- xlift (a_array (Resolve n E c) ops (zlen ops - 1)) ;;
              s <- xlift (tj_strings (S (List.length a)) (Resolve n E c) 0 a []) ;; show cur s ;;; text_loop E c fm n cur
      else text_loop E c fm n cur)).
    { em; try apply IH; apply show_emits. }
    destruct e; first [exact B | apply emits_ret].
  Qed.
  Lemma contents_loop_emits : forall fuel c fm, emits (contents_loop E c fm fuel).
  Proof.
    induction fuel as [| n IH]; intros c fm; cbn [contents_loop]; [apply emits_fuel |].
    apply emits_bind; [apply emits_lift |]. intros [[cmd ops] e].
    assert (B : emits (if bseq cmd (lit "BT") then text_loop E c fm n font_default ;;; contents_loop E c fm n else contents_loop E c fm n)).
    { destruct (bseq cmd (lit "BT")); [| apply IH]. apply emits_bind; [apply text_loop_emits | intros _; apply IH]. }
    destruct e; first [exact B | apply emits_ret].
  Qed.
  Lemma page_text_emits : forall fuel fm c, P (fst (page_text fuel E fm c)).
  Proof.
    intros fuel fm c. unfold page_text. pose proof (contents_loop_emits fuel c fm (new_parser c)) as H.
    destruct (contents_loop E c fm fuel (new_parser c)) as [w [[a q]| |]]; exact H.
  Qed.

  Section Rs.
    Variables (rs : Z -> M iobj) (fuel : nat).
    Lemma contents_array_emits : forall k i fm a, emits (contents_array E rs fuel k i fm a).
    Proof.
      induction k as [| k IH]; intros i fm a; cbn [contents_array]; [apply emits_ret |]. apply emits_bind; [apply emits_lift |].
      intros [c ok]. apply emits_bind; [| intros _; apply IH]. destruct ok; [| apply emits_ret]. intros p. apply page_text_emits.
    Qed.
    Lemma page_extract_emits : forall st d, emits (page_extract E OD rs fuel st d).
    Proof.
      intros st d. unfold page_extract. em; try (intros p; apply page_text_emits). apply contents_array_emits.
    Qed.
    Lemma file_extract_emits : forall d c, emits (file_extract E rs d c).
    Proof. intros d c. unfold file_extract. destruct c; em. Qed.
    Lemma action_extract_emits : forall d, emits (action_extract E rs d).
    Proof. intros d. unfold action_extract. em; apply file_extract_emits. Qed.
    Lemma action_at_emits : forall d k, emits (action_at E rs d k).
    Proof. intros d k. unfold action_at. em. apply action_extract_emits. Qed.
    Lemma additional_actions_emits : forall st d, emits (additional_actions E OD rs st d).
    Proof.
      intros st d. unfold additional_actions. em. apply emits_seq. intros m I. apply in_map_iff in I. destruct I as (k & <- & _).
      apply action_at_emits.
    Qed.
    Lemma forms_emits : forall d, emits (forms E rs d).
    Proof. intros d. unfold forms. em. Qed.
    Lemma embedded_loop_emits : forall k i l, emits (embedded_loop E rs k i l).
    Proof.
      induction k as [| k IH]; intros i l; cbn [embedded_loop]; [apply emits_ret |]. em; try apply IH; apply file_extract_emits.
    Qed.
    Lemma urls_loop_emits : forall k i l, emits (urls_loop rs k i l).
    Proof. induction k as [| k IH]; intros i l; cbn [urls_loop]; [apply emits_ret |]. em; apply IH. Qed.
    Lemma pages_loop_emits : forall l st i, emits (pages_loop E OD rs fuel st i l).
    Proof.
      induction l as [| d l IH]; intros st i; cbn [pages_loop]; [apply emits_ret |]. apply emits_bind; [apply page_extract_emits | intros _; apply IH].
    Qed.
    Lemma extract_here_emits : forall st d, emits (extract_here E OD rs fuel st d).
    Proof.
      intros st d. unfold extract_here.
      apply emits_bind; [apply action_at_emits | intros _]. apply emits_bind; [apply action_at_emits | intros _].
      apply emits_bind; [apply additional_actions_emits | intros _]. apply emits_bind; [apply forms_emits | intros _].
      apply emits_bind; [unfold embedded_files; apply emits_bind; [apply emits_lift | intros; apply embedded_loop_emits] | intros _].
      apply emits_bind; [unfold javascript; em | intros _].
      apply emits_bind; [unfold page_text_of; apply emits_bind; [apply emits_lift | intros [l ok]; destruct ok; [apply pages_loop_emits | apply emits_ret]] | intros _].
      apply emits_bind; [unfold uris; em | intros _].
      unfold urls_tree. apply emits_bind; [apply emits_lift | intros; apply urls_loop_emits].
    Qed.

    Lemma extract_emits : forall o st, emits (extract E OD rs fuel st o).
    Proof.
      intros o. induction o as [| | | | | l IH | d IH] using obj_nested_ind; intros st; try apply emits_ret.
      - rewrite extract_array. apply emits_seq. intros m I. apply in_extracts in I. destruct I as (st' & x & Ix & ->). eapply Forall_forall in IH; [apply IH | exact Ix].
      - rewrite extract_dict. apply emits_bind; [apply extract_here_emits | intros _]. apply emits_seq. intros m I.
        apply (Permutation_in m (Permutation_sym (proj1 OK (2 :: st) _ _))) in I. apply in_extracts in I. destruct I as (st' & x & Ix & ->).
        eapply Forall_forall in IH; [apply IH | exact Ix].
    Qed.
    Lemma object_extract_emits : forall o st, emits (object_extract E OD rs fuel st o).
    Proof. intros o st. unfold object_extract. destruct (ival o); try apply emits_ret. apply extract_emits. Qed.
  End Rs.
End Emits.

(** ** Extraction leaves the parser as it is *)
Section Kept.
  Variables (E : env) (OD : order) (file : bytes) (fuel : nat).
  Hypothesis OK : order_ok OD.
  Let rs := Resolve fuel E file.

  Lemma rs_still : forall n, still file (rs n).
  Proof. intros n. apply Resolve_still. Qed.
  Lemma d_stream_still : forall d k, still file (d_stream rs d k).
  Proof. intros. apply (getters_stay fuel E file). Qed.
  Lemma a_stream_still : forall d k, still file (a_stream rs d k).
  Proof. intros. apply (getters_stay fuel E file). Qed.
  Lemma a_dict_still : forall d k, still file (a_dict rs d k).
  Proof. intros. apply (getters_stay fuel E file). Qed.
  Lemma fuel_still : forall A, still file (fun _ => @OutOfFuel (A * pst)).
  Proof. intros A p a p' _ H. discriminate. Qed.

  Lemma name_still : forall f, (forall d s, still file (name_tree rs f d s)) /\
    (forall k i kids acc s, still file (name_kids rs f k i kids acc s)).
  Proof.
    induction f as [| f [IH1 IH2]]; [split; intros; apply fuel_still |]. split.
    - intros d s. cbn [name_tree]. apply bind_still; [apply d_array_still, rs_still |]. intros [n ok].
      cbv zeta. apply bind_still; [apply d_array_still, rs_still |]. intros [kids ok']. destruct ok'; [apply IH2 | apply ret_still].
    - intros k i kids acc s. cbn [name_kids]. destruct k as [| k]; [apply ret_still |]. cbv zeta.
      match goal with |- still _ (if ?c then _ else _) => destruct c end; [apply IH2 |].
      apply bind_still; [apply a_dict_still |]. intros [kid ok]. apply bind_still; [apply IH1 |]. intros [l s']. apply IH2.
  Qed.
  Lemma name_tree_map_still : forall f d k, still file (name_tree_map rs f d k).
  Proof.
    intros. unfold name_tree_map. apply bind_still; [apply d_dict_still, rs_still |]. intros [r ok]. destruct ok; [| apply ret_still].
    apply bind_still; [apply name_still |]. intros [l s]. apply ret_still.
  Qed.
  Lemma page_still : forall f, (forall d s, still file (resolve_kids rs f d s)) /\
    (forall kids acc s, still file (page_kids rs f kids acc s)).
  Proof.
    induction f as [| f [IH1 IH2]]; [split; intros; apply fuel_still |]. split.
    - intros d s. cbn [resolve_kids]. apply bind_still; [apply d_array_still, rs_still |]. intros [kids ok]. destruct ok; [apply IH2 | apply ret_still].
    - intros kids acc s. cbn [page_kids]. destruct kids as [| x kids]; [apply ret_still |]. destruct x; try apply IH2.
      destruct (zmem n s); [apply IH2 |]. apply bind_still; [apply rs_still |]. intros o. destruct (ival o); try apply IH2.
      apply bind_still; [apply IH1 |]. intros [l s']. apply IH2.
  Qed.
  Lemma page_tree_still : forall f d k, still file (page_tree rs f d k).
  Proof.
    intros. unfold page_tree. apply bind_still; [apply d_dict_still, rs_still |]. intros [r ok]. destruct ok; [| apply ret_still].
    apply bind_still; [apply page_still |]. intros [l s]. apply ret_still.
  Qed.
  Lemma load_fonts_still : forall names fonts fm, still file (load_fonts E rs fuel names fonts fm).
  Proof.
    induction names as [| k names IH]; intros fonts fm; cbn [load_fonts]; [apply ret_still |].
    apply bind_still; [apply d_dict_still, rs_still |]. intros [i ok]. apply bind_still; [| intros; apply IH].
    unfold new_font. apply bind_still; [apply d_stream_still |]. intros [c ok']. apply lift_still.
  Qed.
  Lemma xfa_still : forall k i a acc, still file (xfa_streams rs k i a acc).
  Proof.
    induction k as [| k IH]; intros i a acc; cbn [xfa_streams]; [apply ret_still |]. apply bind_still; [apply a_stream_still |]. intros [s ok]. apply IH.
  Qed.

  (** ... and with the events *)
  Definition xstill {A} (m : X A) : Prop := forall p w a p', reads file p -> m p = (w, Ok (a, p')) -> stays file p p'.
  Lemma xstill_ret : forall A (a : A), xstill (xret a).
  Proof. intros A a p w b p' W H. unfold xret in H. assert (p' = p) by congruence. subst. apply stays_refl. assumption. Qed.
  Lemma xstill_out : forall w, xstill (xout w).
  Proof. intros w p w' b p' W H. unfold xout in H. assert (p' = p) by congruence. subst. apply stays_refl. assumption. Qed.
  Lemma xstill_lift : forall A (m : M A), still file m -> xstill (xlift m).
  Proof. intros A m H p w b p' W Q. unfold xlift in Q. injection Q as _ Q. eapply H; [exact W | exact Q]. Qed.
  Lemma xstill_pure : forall A (x : list ev * res A), xstill (xpure x).
  Proof.
    intros A x p w b p' W Q. unfold xpure in Q. destruct (snd x); try discriminate. injection Q as _ _ <-. apply stays_refl. assumption.
  Qed.
  Lemma xstill_bind : forall A B (m : X A) (k : A -> X B), xstill m -> (forall a, xstill (k a)) -> xstill (xbind m k).
  Proof.
    intros A B m k Hm Hk p w b p' W H. unfold xbind in H. destruct (m p) as [w1 [[a q]| |]] eqn:M; try discriminate.
    destruct (k a q) as [w2 r] eqn:K. assert (r = Ok (b, p')) by congruence. subst r. pose proof (Hm _ _ _ _ W M) as S1.
    eapply stays_trans; [exact S1 |]. eapply Hk; [apply S1 | exact K].
  Qed.
  Lemma xstill_seq : forall l, (forall m, In m l -> xstill m) -> xstill (xseq l).
  Proof.
    induction l as [| m l IH]; intros H; [apply xstill_ret |]. cbn [xseq]. apply xstill_bind; [apply H; left; reflexivity |].
    intros _. apply IH. intros m' I. apply H. right. assumption.
  Qed.

  Ltac xs := repeat first [match goal with |- xstill (xret _) => apply xstill_ret end
    | match goal with |- xstill (xout _) => apply xstill_out end
    | match goal with |- xstill (xpure _) => apply xstill_pure end
    | match goal with |- xstill (xlift _) => apply xstill_lift;
        first [apply d_string_still; exact rs_still | apply d_dict_still; exact rs_still | apply d_name_still; exact rs_still | apply d_array_still; exact rs_still
              | apply d_stream_still | apply a_string_still; exact rs_still | apply a_dict_still | apply a_stream_still | apply xfa_still | apply load_fonts_still
              | apply name_tree_map_still | apply page_tree_still] end
    | match goal with |- xstill (xbind _ _) => apply xstill_bind; [| intros] end
    | match goal with |- xstill (let '(_, _) := ?x in _) => destruct x end
    | match goal with |- xstill (match ?x with (_, _) => _ end) => destruct x end
    | match goal with |- xstill (if ?b then _ else _) => destruct b end].

  Lemma contents_array_still : forall k i fm a, xstill (contents_array E rs fuel k i fm a).
  Proof. induction k as [| k IH]; intros i fm a; cbn [contents_array]; xs. apply IH. Qed.
  Lemma page_extract_still : forall st d, xstill (page_extract E OD rs fuel st d).
  Proof. intros. unfold page_extract. xs. apply contents_array_still. Qed.
  Lemma file_extract_still : forall d c, xstill (file_extract E rs d c).
  Proof. intros. unfold file_extract. xs. Qed.
  Lemma action_extract_still : forall d, xstill (action_extract E rs d).
  Proof. intros. unfold action_extract. xs; apply file_extract_still. Qed.
  Lemma action_at_still : forall d k, xstill (action_at E rs d k).
  Proof. intros. unfold action_at. xs. apply action_extract_still. Qed.
  Lemma additional_actions_still : forall st d, xstill (additional_actions E OD rs st d).
  Proof.
    intros. unfold additional_actions. xs. apply xstill_seq. intros m I. apply in_map_iff in I. destruct I as (k & <- & _). apply action_at_still.
  Qed.
  Lemma forms_still : forall d, xstill (forms E rs d).
  Proof. intros. unfold forms. xs. Qed.
  Lemma embedded_loop_still : forall k i l, xstill (embedded_loop E rs k i l).
  Proof. induction k as [| k IH]; intros i l; cbn [embedded_loop]; xs; try apply IH; apply file_extract_still. Qed.
  Lemma embedded_files_still : forall d, xstill (embedded_files E rs fuel d).
  Proof. intros. unfold embedded_files. xs. apply embedded_loop_still. Qed.
  Lemma javascript_still : forall d, xstill (javascript rs d).
  Proof. intros. unfold javascript. xs. Qed.
  Lemma pages_loop_still : forall l st i, xstill (pages_loop E OD rs fuel st i l).
  Proof. induction l as [| d l IH]; intros st i; cbn [pages_loop]; xs; [apply page_extract_still | apply IH]. Qed.
  Lemma page_text_of_still : forall st d, xstill (page_text_of E OD rs fuel st d).
  Proof. intros. unfold page_text_of. xs. apply pages_loop_still. Qed.
  Lemma uris_still : forall d, xstill (uris rs d).
  Proof. intros. unfold uris. xs. Qed.
  Lemma urls_loop_still : forall k i l, xstill (urls_loop rs k i l).
  Proof. induction k as [| k IH]; intros i l; cbn [urls_loop]; xs; apply IH. Qed.
  Lemma urls_tree_still : forall d, xstill (urls_tree rs fuel d).
  Proof. intros. unfold urls_tree. xs. apply urls_loop_still. Qed.
  Lemma extract_here_still : forall st d, xstill (extract_here E OD rs fuel st d).
  Proof.
    intros st d. unfold extract_here.
    apply xstill_bind; [apply action_at_still | intros _]. apply xstill_bind; [apply action_at_still | intros _].
    apply xstill_bind; [apply additional_actions_still | intros _]. apply xstill_bind; [apply forms_still | intros _].
    apply xstill_bind; [apply embedded_files_still | intros _]. apply xstill_bind; [apply javascript_still | intros _].
    apply xstill_bind; [apply page_text_of_still | intros _]. apply xstill_bind; [apply uris_still | intros _]. apply urls_tree_still.
  Qed.
  Lemma extract_still : forall o st, xstill (extract E OD rs fuel st o).
  Proof.
    intros o. induction o as [| | | | | l IH | d IH] using obj_nested_ind; intros st; try apply xstill_ret.
    - rewrite extract_array. apply xstill_seq. intros m I. apply in_extracts in I. destruct I as (st' & x & Ix & ->). eapply Forall_forall in IH; [apply IH | exact Ix].
    - rewrite extract_dict. apply xstill_bind; [apply extract_here_still | intros _]. apply xstill_seq. intros m I.
      apply (Permutation_in m (Permutation_sym (proj1 OK (2 :: st) _ _))) in I. apply in_extracts in I. destruct I as (st' & x & Ix & ->).
      eapply Forall_forall in IH; [apply IH | exact Ix].
  Qed.
  Lemma object_extract_still : forall o st, xstill (object_extract E OD rs fuel st o).
  Proof. intros. unfold object_extract. destruct (ival o); try apply xstill_ret. apply extract_still. Qed.
End Kept.
