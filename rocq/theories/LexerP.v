(** LexerP.v -- the buffered token readers compute the plain ones, whatever
    the state of the buffer; in particular their loops never run out of fuel. *)
From Verif Require Import Base BaseP Msg Reader ReaderP Num Lexer Plain.
From Coq Require Import Strings.String.

Section Sim.
  Variable file : bytes.

  Ltac rb H s' H' L' :=
    let E := fresh "E" in
    destruct (rb_cons _ _ _ _ _ _ H) as (s' & E & H' & L'); rewrite E; clear E.
  Ltac rn H := rewrite (rb_nil _ _ _ _ H).

  (** consumeComment *)
  Fixpoint p_comment (l : bytes) : bytes :=
    match l with
    | [] => []
    | b :: r =>
        if beq b x0a then r
        else if beq b x0d then match r with x0a :: r' => r' | _ => r end
        else p_comment r
    end.

  Lemma p_comment_cm : forall l, p_ws (p_comment l) = p_cm l.
  Proof.
    induction l as [|b r IH]; [reflexivity|]. simpl.
    destruct (beq b x0a) eqn:E1; [reflexivity|]. simpl.
    destruct (beq b x0d) eqn:E2; [|exact IH].
    destruct r as [|c r]; [reflexivity|].
    destruct (beq c x0a) eqn:E3.
    - apply beq_eq in E3; subst c. reflexivity.
    - destruct c; solve [reflexivity | discriminate].
  Qed.

  Lemma p_comment_len : forall l, (List.length (p_comment l) <= List.length l)%nat.
  Proof.
    induction l as [|b r IH]; simpl; [lia|].
    destruct (beq b x0a); [lia|]. destruct (beq b x0d); [|lia].
    destruct r as [|c r]; simpl; [lia|]. destruct c; simpl; lia.
  Qed.

  Lemma consume_comment_sim : forall n s l e lg, St file s l e lg -> (List.length l < n)%nat ->
    St file (consume_comment_loop n s) (p_comment l) e lg.
  Proof.
    induction n as [|n IH]; intros s l e lg H Hn; [lia|]. simpl.
    destruct l as [|b r].
    - rn H. exact H.
    - rb H s1 H1 L1. simpl.
      destruct (beq b x0a); [exact H1|].
      destruct (beq b x0d).
      + destruct r as [|c r].
        * rn H1. exact H1.
        * rb H1 s2 H2 L2. destruct (beq c x0a) eqn:E3.
          -- apply beq_eq in E3; subst. exact H2.
          -- pose proof (ur_St _ _ _ _ _ _ H2 L2) as H3.
             destruct c; solve [exact H3 | discriminate].
      + apply IH; auto. simpl in Hn. lia.
  Qed.

  Lemma consume_ws_loop_sim : forall n s l e lg, St file s l e lg -> (List.length l < n)%nat ->
    St file (consume_ws_loop n s) (p_ws l) e lg.
  Proof.
    induction n as [|n IH]; intros s l e lg H Hn; [lia|]. simpl.
    destruct l as [|b r].
    - rn H. exact H.
    - rb H s1 H1 L1. simpl. simpl in Hn.
      destruct (beq b "%"%byte).
      + rewrite <- p_comment_cm. apply IH.
        * unfold consume_comment. destruct H1 as (W & R & X). apply consume_comment_sim; [|rewrite R; lia].
          split; auto.
        * pose proof (p_comment_len r). lia.
      + destruct (is_ws b).
        * apply IH; auto. lia.
        * apply ur_St; auto.
  Qed.

  Lemma ws_sim : forall s l e lg, St file s l e lg -> St file (consume_ws s) (p_ws l) e lg.
  Proof.
    intros s l e lg H. unfold consume_ws. apply consume_ws_loop_sim; auto.
    destruct H as (_ & -> & _). lia.
  Qed.

  (** ReadInt64 *)
  Lemma read_int_loop_sim : forall n s l e lg v, St file s l e lg -> (List.length l < n)%nat ->
    exists s', read_int_loop n v s = (fst (p_digits v l), s') /\ St file s' (snd (p_digits v l)) e lg.
  Proof.
    induction n as [|n IH]; intros s l e lg v H Hn; [lia|]. simpl.
    destruct l as [|b r].
    - rn H. simpl. eauto.
    - rb H s1 H1 L1. simpl. simpl in Hn. destruct (is_digit b).
      + apply IH; auto. lia.
      + simpl. eexists; split; eauto. apply ur_St; auto.
  Qed.

  Lemma St_len : forall s l e lg, St file s l e lg -> (List.length l < S (List.length (rest s)))%nat.
  Proof. intros s l e lg (_ & -> & _). lia. Qed.

  (** on success, or failure in front of some byte *)
  Lemma read_int_sim : forall s l e lg, St file s l e lg -> p_ws l <> [] ->
    exists s', read_int s = (fst (p_int l), s') /\ St file s' (snd (p_int l)) e lg.
  Proof.
    intros s l e lg H Hne. unfold read_int, read_int64, p_int.
    apply ws_sim in H. destruct (p_ws l) as [|b r]; [contradiction|].
    rb H s1 H1 L1. destruct (is_digit b).
    - destruct (read_int_loop_sim _ s1 r e lg (bv b - 48) H1 (St_len _ _ _ _ H1)) as (s2 & -> & H2).
      destruct (p_digits (bv b - 48) r) as [v r']. simpl in *. eauto.
    - simpl. eexists; split; eauto. apply ur_St; auto.
  Qed.

  (** at the end of the file: failure, and the byte read last is put back if
      there is one to put back *)
  Lemma read_int_eof : forall s l e lg, St file s l e lg -> p_ws l = [] ->
    exists s', read_int s = ((0, false), s') /\ St file s' (rest s') e lg /\ (List.length (rest s') <= 1)%nat.
  Proof.
    intros s l e lg H Hne. unfold read_int, read_int64.
    apply ws_sim in H. rewrite Hne in H. rn H.
    eexists; split; [reflexivity|]. destruct (last (consume_ws s)) as [b|] eqn:L.
    - pose proof (ur_St _ _ _ _ _ _ H L) as H2. destruct H2 as (W & R & P & G). rewrite R.
      split; [split; auto|simpl; lia].
    - unfold unread_byte. rewrite L. destruct H as (W & R & P & G). rewrite R.
      split; [split; auto|simpl; lia].
  Qed.

  (** ReadInt's result in both cases *)
  Lemma read_int_any : forall s l e lg, St file s l e lg ->
    exists s', read_int s = (fst (p_int l), s') /\ St file s' (rest s') e lg /\
      (snd (fst (p_int l)) = true -> rest s' = snd (p_int l)).
  Proof.
    intros s l e lg H. destruct (p_ws l) as [|b r] eqn:E.
    - destruct (read_int_eof _ _ _ _ H E) as (s' & H1 & H2 & _). exists s'.
      unfold p_int. rewrite E. simpl. split; auto. split; auto. discriminate.
    - assert (p_ws l <> []) by congruence.
      destruct (read_int_sim _ _ _ _ H H0) as (s' & H1 & H2). exists s'.
      split; auto. destruct H2 as (W & R & X). rewrite R. split; auto. split; auto.
  Qed.

  (** ReadKeyword *)
  Lemma read_keyword_loop_sim : forall n s l e lg acc, St file s l e lg -> (List.length l < n)%nat ->
    exists s', read_keyword_loop n acc s = (acc ++ fst (p_kw l), s') /\ St file s' (snd (p_kw l)) e lg.
  Proof.
    induction n as [|n IH]; intros s l e lg acc H Hn; [lia|]. simpl.
    destruct l as [|b r].
    - rn H. simpl. rewrite app_nil_r. eauto.
    - rb H s1 H1 L1. simpl. simpl in Hn. destruct (is_ws b || is_delim b).
      + simpl. rewrite app_nil_r. eexists; split; eauto. apply ur_St; auto.
      + destruct (IH s1 r e lg (acc ++ [b]) H1) as (s2 & -> & H2); [lia|].
        destruct (p_kw r) as [k r']. simpl in *. rewrite <- app_assoc. simpl. eauto.
  Qed.

  Lemma read_keyword_sim : forall s l e lg, St file s l e lg ->
    exists s', read_keyword s = (fst (p_keyword l), s') /\ St file s' (snd (p_keyword l)) e lg.
  Proof.
    intros s l e lg H. unfold read_keyword, p_keyword. apply ws_sim in H.
    destruct (read_keyword_loop_sim _ _ _ _ _ [] H (St_len _ _ _ _ H)) as (s2 & -> & H2). eauto.
  Qed.

  (** ReadName *)
  Lemma read_name_code_sim : forall s l e lg, St file s l e lg ->
    exists c r ms s', read_name_code s = (c, s') /\ St file s' r e (lg ++ ms) /\
      (match l with
       | [] => c = hex2 "0" "0" /\ r = [] /\ ms = []
       | a :: r1 =>
           if is_hex a then
             match r1 with
             | [] => c = hex2 a "0" /\ r = [] /\ ms = []
             | b :: r2 => if is_hex b then c = hex2 a b /\ r = r2 /\ ms = []
                          else c = hex2 a "0" /\ r = r1 /\ ms = [InvalidNameEscapeChar]
             end
           else c = hex2 "0" "0" /\ r = l /\ ms = [InvalidNameEscapeChar]
       end).
  Proof.
    intros s l e lg H. unfold read_name_code. destruct l as [|a r1].
    - rn H. exists (hex2 "0" "0"), [], [], s. rewrite app_nil_r. auto.
    - rb H s1 H1 L1. destruct (is_hex a).
      + destruct r1 as [|b r2].
        * rn H1. exists (hex2 a "0"), [], [], s1. rewrite app_nil_r. auto.
        * rb H1 s2 H2 L2. destruct (is_hex b).
          -- exists (hex2 a b), r2, [], s2. rewrite app_nil_r. auto.
          -- eexists _, _, _, _. split; [reflexivity|]. split.
             ++ apply ur_St; [apply le_St; exact H2|exact L2].
             ++ auto.
      + eexists _, _, _, _. split; [reflexivity|]. split.
        * apply ur_St; [apply le_St; exact H1|exact L1].
        * auto.
  Qed.

  Lemma name_log_St : forall c s l e lg, St file s l e lg ->
    St file (if name_needless c then log_error UnnecessaryEscapeName s else s) l e (lg ++ name_msg c).
  Proof.
    intros c s l e lg H. unfold name_msg. destruct (name_needless c).
    - apply le_St; auto.
    - rewrite app_nil_r. auto.
  Qed.

  Lemma read_name_loop_sim : forall n s l e lg acc, St file s l e lg -> (List.length l < n)%nat ->
    exists s', read_name_loop n acc s = (acc ++ fst (fst (p_name l)), s') /\
               St file s' (snd (fst (p_name l))) e (lg ++ snd (p_name l)).
  Proof.
    induction n as [|n IH]; intros s l e lg acc H Hn; [lia|]. simpl.
    destruct l as [|b r].
    - rn H. simpl. rewrite !app_nil_r. eauto.
    - rb H s1 H1 L1. simpl. simpl in Hn. destruct (is_delim b || is_ws b).
      { simpl. rewrite !app_nil_r. eexists; split; eauto. apply ur_St; auto. }
      destruct (beq b "#"%byte).
      + destruct (read_name_code_sim _ _ _ _ H1) as (c & r' & ms & s2 & -> & H2 & S2).
        apply (name_log_St c) in H2. rewrite <- app_assoc in H2.
        assert (Hr : (List.length r' < n)%nat).
        { destruct r as [|a r1]; [destruct S2 as (_ & -> & _); simpl in *; lia|].
          destruct (is_hex a); [|destruct S2 as (_ & -> & _); simpl in *; lia].
          destruct r1 as [|a2 r2]; [destruct S2 as (_ & -> & _); simpl in *; lia|].
          destruct (is_hex a2); destruct S2 as (_ & -> & _); simpl in *; lia. }
        destruct (IH _ _ _ _ (acc ++ [c]) H2 Hr) as (s3 & -> & H3).
        rewrite <- !app_assoc in *. simpl in H3.
        destruct r as [|a r1].
        { destruct S2 as (-> & -> & ->). simpl in *. eexists; split; [reflexivity|]. rewrite ?app_nil_r in *. exact H3. }
        destruct (is_hex a).
        * destruct r1 as [|a2 r2].
          { destruct S2 as (-> & -> & ->). simpl in *. eexists; split; [reflexivity|]. rewrite ?app_nil_r in *. exact H3. }
          destruct (is_hex a2); destruct S2 as (-> & -> & ->).
          -- destruct (p_name r2) as [[v rr] mm]. simpl in *. eexists; split; [reflexivity|].
             exact H3.
          -- destruct (p_name (a2 :: r2)) as [[v rr] mm]. simpl in *. eexists; split; [reflexivity|].
             exact H3.
        * destruct S2 as (-> & -> & ->).
          destruct (p_name (a :: r1)) as [[v rr] mm]. simpl in *. eexists; split; [reflexivity|].
          exact H3.
      + destruct (IH s1 r e lg (acc ++ [b]) H1) as (s2 & -> & H2); [lia|].
        destruct (p_name r) as [[v r'] ms]. simpl in *. rewrite <- app_assoc. simpl. eauto.
  Qed.

  Lemma read_name_sim : forall s r e lg, St file s ("/"%byte :: r) e lg ->
    exists s', read_name s = (fst (fst (p_name r)), s') /\
               St file s' (snd (fst (p_name r))) e (lg ++ snd (p_name r)).
  Proof.
    intros s r e lg H. unfold read_name. apply ws_sim in H. change (p_ws ("/"%byte :: r)) with ("/"%byte :: r) in H.
    rb H s1 H1 L1. rewrite beq_refl.
    destruct (read_name_loop_sim _ _ _ _ _ [] H1 (St_len _ _ _ _ H1)) as (s2 & -> & H2). eauto.
  Qed.

  (** ReadHexString *)
  Lemma p_hex_ws : forall l c1, p_hex c1 (p_ws l) = p_hex c1 l /\ p_hex c1 (p_cm l) = p_hexcm c1 l.
  Proof.
    induction l as [|b r IH]; intros c1; split; try reflexivity; simpl.
    - destruct (beq b "%"%byte) eqn:E1; [apply IH|].
      destruct (is_ws b) eqn:E2; [apply IH|].
      simpl. rewrite E1, E2. reflexivity.
    - destruct (beq b x0a || beq b x0d); apply IH.
  Qed.

  Lemma p_ws_idem : forall l, p_ws (p_ws l) = p_ws l /\ p_ws (p_cm l) = p_cm l.
  Proof.
    induction l as [|b r IH]; split; try reflexivity; simpl.
    - destruct (beq b "%"%byte) eqn:E1; [apply IH|].
      destruct (is_ws b) eqn:E2; [apply IH|].
      simpl. rewrite E1, E2. reflexivity.
    - destruct (beq b x0a || beq b x0d); apply IH.
  Qed.

  Lemma p_ws_cons : forall l b r, p_ws l = b :: r -> beq b "%"%byte = false /\ is_ws b = false.
  Proof.
    intros l b r H. pose proof (proj1 (p_ws_idem l)) as I. rewrite H in I. simpl in I.
    destruct (beq b "%"%byte).
    - exfalso. assert (L : forall l, (List.length (p_ws l) <= List.length l)%nat /\
                                    (List.length (p_cm l) <= List.length l)%nat).
      { induction l0 as [|x y IH]; simpl; split; try lia.
        - destruct (beq x "%"%byte); [simpl; lia|]. destruct (is_ws x); simpl; lia.
        - destruct (beq x x0a || beq x x0d); lia. }
      pose proof (proj2 (L r)). rewrite I in H0. simpl in H0. lia.
    - split; auto. destruct (is_ws b); auto. exfalso.
      assert (L : forall l, (List.length (p_ws l) <= List.length l)%nat /\
                                    (List.length (p_cm l) <= List.length l)%nat).
      { induction l0 as [|x y IH]; simpl; split; try lia.
        - destruct (beq x "%"%byte); [simpl; lia|]. destruct (is_ws x); simpl; lia.
        - destruct (beq x x0a || beq x x0d); lia. }
      pose proof (proj1 (L r)). rewrite I in H0. simpl in H0. lia.
  Qed.

  Lemma p_ws_len : forall l, (List.length (p_ws l) <= List.length l)%nat /\
                             (List.length (p_cm l) <= List.length l)%nat.
  Proof.
    induction l as [|x y IH]; simpl; split; try lia.
    - destruct (beq x "%"%byte); [simpl; lia|]. destruct (is_ws x); simpl; lia.
    - destruct (beq x x0a || beq x x0d); lia.
  Qed.

  Lemma read_hex_loop_sim : forall n s l e lg c1 acc, St file s l e lg -> (List.length l < n)%nat ->
    exists s', read_hex_loop n c1 acc s = (acc ++ fst (fst (p_hex c1 l)), s') /\
               St file s' (snd (fst (p_hex c1 l))) e (lg ++ snd (p_hex c1 l)).
  Proof.
    induction n as [|n IH]; intros s l e lg c1 acc H Hn; [lia|]. simpl.
    apply ws_sim in H. rewrite <- (proj1 (p_hex_ws l c1)).
    pose proof (proj1 (p_ws_len l)) as HL.
    destruct (p_ws l) as [|b r] eqn:E.
    - rn H. simpl. eexists; split; [|apply le_St; exact H].
      destruct c1; simpl; rewrite ?app_nil_r; reflexivity.
    - destruct (p_ws_cons _ _ _ E) as [E1 E2].
      rb H s1 H1 L1. simpl. rewrite E1, E2. simpl in HL.
      destruct (beq b ">"%byte).
      { simpl. rewrite app_nil_r. eexists; split; [|exact H1].
        destruct c1; simpl; rewrite ?app_nil_r; reflexivity. }
      destruct (is_hex b); simpl.
      + destruct c1 as [a|].
        * destruct (IH s1 r e lg None (acc ++ [hex2 a b]) H1) as (s2 & -> & H2); [lia|].
          destruct (p_hex None r) as [[v r'] ms]. simpl in *. rewrite <- app_assoc. simpl. eauto.
        * destruct (IH s1 r e lg (Some b) acc H1) as (s2 & -> & H2); [lia|]. eauto.
      + destruct (IH _ r e _ c1 acc (le_St _ _ _ _ _ InvalidHexStringChar H1)) as (s2 & -> & H2); [lia|].
        destruct (p_hex c1 r) as [[v r'] ms]. simpl in *. rewrite <- app_assoc in H2. eauto.
  Qed.

  Lemma read_hex_raw_sim : forall s r e lg, St file s ("<"%byte :: r) e lg ->
    exists s', read_hex_raw s = (Some (fst (fst (p_hex None r))), s') /\
               St file s' (snd (fst (p_hex None r))) e (lg ++ snd (p_hex None r)).
  Proof.
    intros s r e lg H. unfold read_hex_raw. apply ws_sim in H. change (p_ws ("<"%byte :: r)) with ("<"%byte :: r) in H.
    rb H s1 H1 L1. rewrite beq_refl.
    destruct (read_hex_loop_sim _ _ _ _ _ None [] H1 (St_len _ _ _ _ H1)) as (s2 & -> & H2). eauto.
  Qed.

  (** ReadString *)
  Lemma str_log_St : forall c s l e lg, St file s l e lg ->
    St file (if string_needless c then log_error UnnecessaryEscapeString s else s) l e (lg ++ str_msg c).
  Proof.
    intros c s l e lg H. unfold str_msg. destruct (string_needless c).
    - apply le_St; auto.
    - rewrite app_nil_r. auto.
  Qed.

  Lemma is_octal_unescape : forall c, is_octal (unescape c) = is_octal c.
  Proof. destruct c; reflexivity. Qed.
  Lemma unescape_octal : forall c, is_octal c = true -> unescape c = c.
  Proof. destruct c; intros H; try reflexivity; discriminate. Qed.

  Lemma octal_range : forall c, is_octal c = true -> 0 <= bv c - 48 <= 7.
  Proof.
    intros c H. unfold is_octal in H. apply andb_prop in H as [A B].
    apply Z.leb_le in A. apply Z.leb_le in B. lia.
  Qed.

  (** the octal code behind a backslash and a first octal digit [c] *)
  Lemma octal_sim : forall c s l e lg, is_octal c = true -> St file s l e lg ->
    exists b r ms s', (let '(code, s) := read_octal_loop 2 [c] s in octal_byte code s) = (b, s') /\
      St file s' r e (lg ++ ms) /\
      match l with
      | [] => b = oct [c] /\ r = [] /\ ms = [UnclosedStringOctal]
      | d :: r2 =>
          if is_octal d then
            match r2 with
            | [] => b = oct [c; d] /\ r = [] /\ ms = [UnclosedStringOctal]
            | x :: r3 =>
                if is_octal x then
                  if octval [c; d; x] <=? 255 then b = oct [c; d; x] /\ r = r3 /\ ms = []
                  else b = oct [c; d] /\ r = r2 /\ ms = [InvalidOctal]
                else b = oct [c; d] /\ r = r2 /\ ms = []
            end
          else b = oct [c] /\ r = l /\ ms = []
      end.
  Proof.
    intros c s l e lg Hc H. pose proof (octal_range _ Hc) as Rc.
    assert (O1 : octval [c] <=? 255 = true) by (apply Z.leb_le; unfold octval; simpl; lia).
    simpl. destruct l as [|d r2].
    - rn H. unfold octal_byte. rewrite O1. eexists _, _, _, _. split; [reflexivity|].
      split; [apply le_St; exact H|auto].
    - rb H s1 H1 L1. destruct (is_octal d) eqn:Hd.
      + pose proof (octal_range _ Hd) as Rd.
        assert (O2 : octval [c; d] <=? 255 = true) by (apply Z.leb_le; unfold octval; simpl; lia).
        destruct r2 as [|x r3].
        * rn H1. unfold octal_byte. simpl. rewrite O2. eexists _, _, _, _. split; [reflexivity|].
          split; [apply le_St; exact H1|auto].
        * rb H1 s2 H2 L2. destruct (is_octal x) eqn:Hx.
          -- unfold octal_byte. simpl. destruct (octval [c; d; x] <=? 255) eqn:O3.
             ++ eexists _, _, [], _. rewrite app_nil_r. split; [reflexivity|]. split; [exact H2|auto].
             ++ eexists _, _, _, _. split; [reflexivity|].
                split; [apply ur_St; [apply le_St; exact H2|exact L2]|auto].
          -- unfold octal_byte. simpl. rewrite O2. eexists _, _, [], _. rewrite app_nil_r.
             split; [reflexivity|]. split; [apply ur_St; eauto|auto].
      + unfold octal_byte. rewrite O1. eexists _, _, [], _. rewrite app_nil_r.
        split; [reflexivity|]. split; [apply ur_St; eauto|auto].
  Qed.

  Lemma p_str_cons : forall opn b r, p_str opn (b :: r) =
      if beq b "\"%byte then
        match r with
        | [] => ((["\"%byte], []), [UnclosedStringEscape])
        | c :: r1 =>
            if beq c x0a then p_str opn r1
            else if beq c x0d then
              match r1 with
              | [] => (([], []), [UnclosedStringEscape])
              | d :: r2 => if beq d x0a then p_str opn r2 else p_str opn r1
              end
            else if is_octal c then
              match r1 with
              | [] => out (UnclosedStringOctal :: str_msg (oct [c])) (oct [c]) (([], []), [UnclosedString])
              | d :: r2 =>
                  if is_octal d then
                    match r2 with
                    | [] => out (UnclosedStringOctal :: str_msg (oct [c; d])) (oct [c; d])
                                (([], []), [UnclosedString])
                    | e :: r3 =>
                        if is_octal e then
                          if octval [c; d; e] <=? 255
                          then out (str_msg (oct [c; d; e])) (oct [c; d; e]) (p_str opn r3)
                          else out (InvalidOctal :: str_msg (oct [c; d])) (oct [c; d]) (p_str opn r2)
                        else out (str_msg (oct [c; d])) (oct [c; d]) (p_str opn r2)
                    end
                  else out (str_msg (oct [c])) (oct [c]) (p_str opn r1)
              end
            else out [] (unescape c) (p_str opn r1)
        end
      else
        let opn' := if beq b "("%byte then opn + 1
                    else if beq b ")"%byte then opn - 1 else opn in
        if opn' =? 0 then (([], r), []) else out [] b (p_str opn' r).
  Proof. reflexivity. Qed.

  Lemma read_string_loop_sim : forall n s l e lg opn acc, St file s l e lg -> (List.length l < n)%nat ->
    exists s', read_string_loop n opn acc s = (acc ++ fst (fst (p_str opn l)), s') /\
               St file s' (snd (fst (p_str opn l))) e (lg ++ snd (p_str opn l)).
  Proof.
    induction n as [|n IH]; intros s l e lg opn acc H Hn; [lia|].
    destruct l as [|b r].
    - simpl. rn H. simpl. rewrite app_nil_r. eexists; split; [reflexivity|apply le_St; exact H].
    - cbn [read_string_loop]. rb H s1 H1 L1. simpl in Hn.
      destruct (beq b "\"%byte) eqn:Eb.
      + destruct r as [|c r1].
        { rn H1. simpl. rewrite Eb. simpl. eexists; split; [reflexivity|apply le_St; exact H1]. }
        rb H1 s2 H2 L2. simpl in Hn.
        destruct (beq c x0a) eqn:Ec.
        { rewrite p_str_cons, Eb, Ec. apply IH; auto. lia. }
        destruct (beq c x0d) eqn:Ec2.
        { destruct r1 as [|d r2].
          - rn H2. simpl. rewrite Eb, Ec, Ec2. simpl. rewrite app_nil_r.
            eexists; split; [reflexivity|apply le_St; exact H2].
          - rb H2 s3 H3 L3. rewrite p_str_cons, Eb, Ec, Ec2. simpl in Hn.
            destruct (beq d x0a) eqn:Ed.
            + apply IH; auto. lia.
            + apply IH; [apply ur_St; auto|simpl; lia]. }
        rewrite is_octal_unescape. destruct (is_octal c) eqn:Ho.
        * rewrite (unescape_octal _ Ho).
          destruct (octal_sim c s2 r1 e lg Ho H2) as (x & r' & ms & s3 & E3 & H3 & S3).
          destruct (read_octal_loop 2 [c] s2) as [code s2']. rewrite E3. clear E3.
          apply (str_log_St x) in H3. rewrite <- app_assoc in H3.
          assert (Hr : (List.length r' < n)%nat).
          { destruct r1 as [|d r2]; [destruct S3 as (_ & -> & _); simpl in *; lia|].
            destruct (is_octal d); [|destruct S3 as (_ & -> & _); simpl in *; lia].
            destruct r2 as [|y r3]; [destruct S3 as (_ & -> & _); simpl in *; lia|].
            destruct (is_octal y); [|destruct S3 as (_ & -> & _); simpl in *; lia].
            destruct (octval [c; d; y] <=? 255); destruct S3 as (_ & -> & _); simpl in *; lia. }
          destruct (IH _ _ _ _ opn (acc ++ [x]) H3 Hr) as (s4 & -> & H4).
          rewrite <- !app_assoc in *. cbn [app] in H4 |- *. rewrite p_str_cons, Eb, Ec, Ec2, Ho.
          destruct r1 as [|d r2].
          { destruct S3 as (-> & -> & ->). simpl in *. eexists; split; [reflexivity|].
            rewrite <- ?app_assoc in H4. exact H4. }
          destruct (is_octal d).
          -- destruct r2 as [|y r3].
             { destruct S3 as (-> & -> & ->). simpl in *. eexists; split; [reflexivity|].
               rewrite <- ?app_assoc in H4. exact H4. }
             destruct (is_octal y).
             ++ destruct (octval [c; d; y] <=? 255); destruct S3 as (-> & -> & ->).
                ** destruct (p_str opn r3) as [[v rr] mm]. simpl in *. eexists; split; [reflexivity|].
                   exact H4.
                ** destruct (p_str opn (y :: r3)) as [[v rr] mm]. simpl in *. eexists; split; [reflexivity|].
                   rewrite <- ?app_assoc in H4. exact H4.
             ++ destruct S3 as (-> & -> & ->).
                destruct (p_str opn (y :: r3)) as [[v rr] mm]. simpl in *. eexists; split; [reflexivity|].
                exact H4.
          -- destruct S3 as (-> & -> & ->).
             destruct (p_str opn (d :: r2)) as [[v rr] mm]. simpl in *. eexists; split; [reflexivity|].
             exact H4.
        * destruct (IH s2 r1 e lg opn (acc ++ [unescape c]) H2) as (s3 & -> & H3); [lia|].
          rewrite p_str_cons, Eb, Ec, Ec2, Ho.
          destruct (p_str opn r1) as [[v rr] mm]. simpl in *. rewrite <- app_assoc. simpl. eauto.
      + rewrite p_str_cons, Eb.
        set (opn' := if beq b "("%byte then opn + 1 else if beq b ")"%byte then opn - 1 else opn).
        cbv zeta. destruct (opn' =? 0).
        { simpl. rewrite !app_nil_r. eauto. }
        destruct (IH s1 r e lg opn' (acc ++ [b]) H1) as (s2 & -> & H2); [lia|].
        destruct (p_str opn' r) as [[v rr] mm]. simpl in *. rewrite <- app_assoc. simpl. eauto.
  Qed.

  Lemma read_string_raw_sim : forall s r e lg, St file s ("("%byte :: r) e lg ->
    exists s', read_string_raw s = (Some (fst (fst (p_str 1 r))), s') /\
               St file s' (snd (fst (p_str 1 r))) e (lg ++ snd (p_str 1 r)).
  Proof.
    intros s r e lg H. unfold read_string_raw. apply ws_sim in H. change (p_ws ("("%byte :: r)) with ("("%byte :: r) in H.
    rb H s1 H1 L1. rewrite beq_refl.
    destruct (read_string_loop_sim _ _ _ _ _ 1 [] H1 (St_len _ _ _ _ H1)) as (s2 & -> & H2). eauto.
  Qed.

  (** ReadNumber *)
  Lemma read_num_int_loop_sim : forall n s l e lg v, St file s l e lg -> (List.length l < n)%nat ->
    exists s', read_num_int_loop n v s = (fst (p_num_int v l), s') /\ St file s' (snd (p_num_int v l)) e lg.
  Proof.
    induction n as [|n IH]; intros s l e lg v H Hn; [lia|]. simpl.
    destruct l as [|b r].
    - rn H. simpl. eauto.
    - rb H s1 H1 L1. simpl. simpl in Hn. destruct (is_digit b).
      + apply IH; auto. lia.
      + destruct (beq b "."%byte); simpl; eexists; split; eauto. apply ur_St; auto.
  Qed.

  Lemma read_num_real_loop_sim : forall n s l e lg i v, St file s l e lg -> (List.length l < n)%nat ->
    exists s', read_num_real_loop n i v s = (fst (p_num_real i v l), s') /\ St file s' (snd (p_num_real i v l)) e lg.
  Proof.
    induction n as [|n IH]; intros s l e lg i v H Hn; [lia|]. simpl.
    destruct l as [|b r].
    - rn H. simpl. eauto.
    - rb H s1 H1 L1. simpl. simpl in Hn. destruct (is_digit b).
      + apply IH; auto. lia.
      + simpl; eexists; split; eauto. apply ur_St; auto.
  Qed.

  Lemma num_body_sim : forall s l e lg v (real : bool), St file s l e lg ->
    exists s',
      (let '((v, real), s) := if real then ((v, true), s)
                              else read_num_int_loop (S (List.length (rest s))) v s in
       if real : bool then read_num_real_loop (S (List.length (rest s))) 1 v s else (v, s))
      = (fst (p_num_body v real l), s') /\ St file s' (snd (p_num_body v real l)) e lg.
  Proof.
    intros s l e lg v real H. unfold p_num_body. destruct real.
    - destruct (read_num_real_loop_sim _ s l e lg 1 v H (St_len _ _ _ _ H)) as (s2 & -> & H2). eauto.
    - destruct (read_num_int_loop_sim _ s l e lg v H (St_len _ _ _ _ H)) as (s2 & -> & H2).
      destruct (p_num_int v l) as [[v' real'] r']. cbn [fst snd] in *. destruct real'.
      + destruct (read_num_real_loop_sim _ _ _ _ _ 1 v' H2 (St_len _ _ _ _ H2)) as (s3 & -> & H3). eauto.
      + simpl. eauto.
  Qed.

  Lemma read_number_sim : forall s l e lg, St file s l e lg ->
    exists s', read_number s = (fst (p_number l), s') /\ St file s' (snd (p_number l)) e lg.
  Proof.
    intros s l e lg H. unfold read_number, p_number. apply ws_sim in H.
    destruct (p_ws l) as [|b r].
    - rn H. simpl. eauto.
    - rb H s1 H1 L1. cbv zeta. destruct (beq b "-"%byte).
      + destruct (num_body_sim s1 r e lg num_zero false H1) as (s2 & E2 & H2).
        rewrite E2. clear E2. destruct (p_num_body num_zero false r) as [v r']. simpl in *. eauto.
      + destruct (is_digit b); [exact (num_body_sim s1 r e lg _ false H1)|].
        destruct (beq b "."%byte); [exact (num_body_sim s1 r e lg _ true H1)|].
        destruct (beq b "+"%byte); [exact (num_body_sim s1 r e lg _ false H1)|].
        simpl. eexists; split; eauto. apply ur_St; auto.
  Qed.
End Sim.
