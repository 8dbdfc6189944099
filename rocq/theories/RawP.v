(** RawP.v -- proofs about raw.pdf (C55). *)
From Verif Require Import Base BaseP Msg Reader ReaderP Num Lexer Obj ReadObj Env Getters Crypt GetObj Font Page Tree Output Render Extract Load Parse
  RelP GetObjP SpecRead FetchP LookP SecurityP CryptObjP LoadInvP OutP OutTopP SpecFetch SpecLook SpecOut.
From Coq Require Import Strings.String Sorting.Permutation Numbers.DecimalN Numbers.DecimalFacts.
From Coq Require Decimal.
Local Open Scope x_scope.

(** ** Decimal numbers *)
(** digits behind a number *)
Fixpoint more (v : Z) (u : Decimal.uint) : Z :=
  match u with
  | Decimal.Nil => v
  | Decimal.D0 u => more (10 * v) u
  | Decimal.D1 u => more (10 * v + 1) u
  | Decimal.D2 u => more (10 * v + 2) u
  | Decimal.D3 u => more (10 * v + 3) u
  | Decimal.D4 u => more (10 * v + 4) u
  | Decimal.D5 u => more (10 * v + 5) u
  | Decimal.D6 u => more (10 * v + 6) u
  | Decimal.D7 u => more (10 * v + 7) u
  | Decimal.D8 u => more (10 * v + 8) u
  | Decimal.D9 u => more (10 * v + 9) u
  end.
Lemma more_acc : forall u acc, Z.pos (Pos.of_uint_acc u acc) = more (Z.pos acc) u.
Proof.
  induction u as [| u IH| u IH| u IH| u IH| u IH| u IH| u IH| u IH| u IH| u IH]; intros acc; cbn [Pos.of_uint_acc more]; [reflexivity | ..]; rewrite IH; f_equal; lia.
Qed.
Lemma natural_more : forall u v t, natural v t -> 0 < v -> natural (more v u) (t ++ uint_bytes u).
Proof.
  assert (N : forall v t d c, natural v t -> 0 < v -> bv c = 48 + d -> 0 <= d < 10 -> natural (10 * v + d) (t ++ [c])).
  { intros v t d c H L B R. apply nt_next; [exact H | exact L |]. split; assumption. }
  induction u as [| u IH| u IH| u IH| u IH| u IH| u IH| u IH| u IH| u IH| u IH]; intros v t H L; cbn [more uint_bytes]; [rewrite List.app_nil_r; exact H | ..];
    match goal with |- natural _ (t ++ ?c :: _) => replace (t ++ c :: uint_bytes u) with ((t ++ [c]) ++ uint_bytes u) by (rewrite <- List.app_assoc; reflexivity) end;
    (apply IH; [| lia]).
  - replace (10 * v) with (10 * v + 0) by lia. apply N; [exact H | exact L | reflexivity | lia].
  - apply N; [exact H | exact L | reflexivity | lia].
  - apply N; [exact H | exact L | reflexivity | lia].
  - apply N; [exact H | exact L | reflexivity | lia].
  - apply N; [exact H | exact L | reflexivity | lia].
  - apply N; [exact H | exact L | reflexivity | lia].
  - apply N; [exact H | exact L | reflexivity | lia].
  - apply N; [exact H | exact L | reflexivity | lia].
  - apply N; [exact H | exact L | reflexivity | lia].
  - apply N; [exact H | exact L | reflexivity | lia].
Qed.
Lemma natural_start : forall u d c v, bv c = 48 + Z.pos d -> Z.pos d < 10 -> Z.pos (Pos.of_uint_acc u d) = v -> natural v (c :: uint_bytes u).
Proof.
  intros u d c v B R <-. rewrite more_acc. apply (natural_more u (Z.pos d) [c]); [| lia]. apply nt_digit. split; [lia | exact B].
Qed.
Lemma uint_head : forall u, Decimal.unorm u = u -> forall u', u = Decimal.D0 u' -> u' = Decimal.Nil.
Proof.
  intros u H u' ->. unfold Decimal.unorm in H. cbn [Decimal.nzhead] in H. pose proof (nzhead_nonzero u') as N. destruct (Decimal.nzhead u') eqn:Q; try congruence; try discriminate.
Qed.
Lemma dec_of_N_natural : forall n, natural (Z.of_N n) (dec_of_N n).
Proof.
  intros n. unfold dec_of_N.
  assert (V : N.of_uint (N.to_uint n) = n) by apply Unsigned.of_to.
  assert (U : Decimal.unorm (N.to_uint n) = N.to_uint n) by (rewrite <- Unsigned.to_of, V; reflexivity).
  pose proof (uint_head _ U) as Hd. revert V U Hd. generalize (N.to_uint n). intros u V U Hd. destruct u as [| u| u| u| u| u| u| u| u| u| u]; cbn [uint_bytes].
  - discriminate.
  - rewrite (Hd u eq_refl) in *. cbn in V. subst n. apply nt_digit. split; [lia | reflexivity].
  - apply (natural_start u 1); [reflexivity | lia | rewrite <- V; reflexivity].
  - apply (natural_start u 2); [reflexivity | lia | rewrite <- V; reflexivity].
  - apply (natural_start u 3); [reflexivity | lia | rewrite <- V; reflexivity].
  - apply (natural_start u 4); [reflexivity | lia | rewrite <- V; reflexivity].
  - apply (natural_start u 5); [reflexivity | lia | rewrite <- V; reflexivity].
  - apply (natural_start u 6); [reflexivity | lia | rewrite <- V; reflexivity].
  - apply (natural_start u 7); [reflexivity | lia | rewrite <- V; reflexivity].
  - apply (natural_start u 8); [reflexivity | lia | rewrite <- V; reflexivity].
  - apply (natural_start u 9); [reflexivity | lia | rewrite <- V; reflexivity].
Qed.
Lemma dec_of_Z_decimal : forall z, decimal z (dec_of_Z z).
Proof.
  intros z. unfold dec_of_Z. destruct (z <? 0) eqn:L.
  - apply Z.ltb_lt in L. pose proof (dec_of_N_natural (Z.to_N (- z))) as H. rewrite Z2N.id in H by lia.
    pose proof (dc_neg _ _ H ltac:(lia)) as D. rewrite Z.opp_involutive in D. exact D.
  - apply Z.ltb_ge in L. pose proof (dec_of_N_natural (Z.to_N z)) as H. rewrite Z2N.id in H by lia. apply dc_pos. exact H.
Qed.

(** ** The text of objects *)
Section Text.
  Variables (E : env) (OD : order).
  Hypothesis OK : order_ok OD.
  Section Site.
    Variable st : site.
    Fixpoint array_text (i : Z) (l : list obj) : bytes :=
      match l with
      | [] => []
      | [x] => obj_string E OD (i :: st) x
      | x :: l' => obj_string E OD (i :: st) x ++ lit " " ++ array_text (i + 1) l'
      end.
    Fixpoint dict_texts (i : Z) (d : list (bytes * obj)) : list bytes :=
      match d with
      | [] => []
      | (k, x) :: d' => (lit "/" ++ k ++ lit " " ++ obj_string E OD (i :: st) x) :: dict_texts (i + 1) d'
      end.
  End Site.
  Lemma array_string : forall st l, obj_string E OD st (OArr l) = lit "[" ++ array_text st 0 l ++ lit "]".
  Proof. reflexivity. Qed.
  Lemma dict_string : forall st d, obj_string E OD st (ODict d) = lit "<<" ++ List.concat (o_map OD st bytes (dict_texts st 0 d)) ++ lit ">>".
  Proof. reflexivity. Qed.
  Lemma array_written : forall st l i, Forall (fun x => forall st, written (e_fmt E) x (obj_string E OD st x)) l ->
    exists ts, Forall2 (written (e_fmt E)) l ts /\ array_text st i l = spaced ts.
  Proof.
    intros st. induction l as [| x l IH]; intros i H; [exists []; split; [constructor | reflexivity] |]. inversion H as [| y l' Hx Hl]; subst.
    destruct (IH (i + 1) Hl) as (ts & F & Q). exists (obj_string E OD (i :: st) x :: ts). split; [constructor; [apply Hx | exact F] |].
    destruct l as [| y l]; [inversion F; subst; reflexivity |]. change (array_text st i (x :: y :: l)) with (obj_string E OD (i :: st) x ++ lit " " ++ array_text st (i + 1) (y :: l)).
    rewrite Q. inversion F; subst. reflexivity.
  Qed.
  Lemma dict_written : forall st d i, Forall (fun x => forall st, written (e_fmt E) x (obj_string E OD st x)) (map snd d) ->
    Forall2 (fun (kv : bytes * obj) t => exists t', written (e_fmt E) (snd kv) t' /\ t = lit "/" ++ fst kv ++ lit " " ++ t') d (dict_texts st i d).
  Proof.
    intros st. induction d as [| [k x] d IH]; intros i H; [constructor |]. cbn [map] in H. inversion H as [| y l' Hx Hl]; subst.
    cbn [dict_texts]. constructor; [| apply IH; exact Hl]. eexists. split; [apply Hx | reflexivity].
  Qed.
  Lemma obj_string_written : forall o st, written (e_fmt E) o (obj_string E OD st o).
  Proof.
    intros o. induction o as [| | | | | l IH | d IH] using obj_nested_ind; intros st.
    - apply wr_num.
    - apply wr_str.
    - apply wr_name.
    - apply wr_kw.
    - apply wr_ref; apply dec_of_Z_decimal.
    - rewrite array_string. destruct (array_written st l 0 IH) as (ts & F & ->). apply wr_arr. exact F.
    - rewrite dict_string. eapply wr_dict; [apply (dict_written st d 0 IH) | apply (proj1 OK)].
  Qed.
  Lemma iobj_string_written : forall o st, written_object (e_fmt E) o (iobj_string E OD st o).
  Proof.
    intros o st. exists (dec_of_Z (inum o)), (dec_of_Z (igen o)), (obj_string E OD st (ival o)). split; [apply dec_of_Z_decimal |]. split; [apply dec_of_Z_decimal |].
    split; [apply obj_string_written |]. unfold iobj_string, stream_text. destruct (istream o); reflexivity.
  Qed.
End Text.

(** ** GetObject numbers the object as asked *)
Definition yields {A} (m : M A) (Q : A -> Prop) : Prop := forall p a p', m p = Ok (a, p') -> Q a.
Lemma yields_bind : forall A B (m : M A) (k : A -> M B) Q, (forall a, yields (k a) Q) -> yields (bind m k) Q.
Proof. intros A B m k Q H p b p' R. unfold bind in R. destruct (m p) as [[a q]| |]; try discriminate. eapply H; exact R. Qed.
Lemma yields_ret : forall A (a : A) (Q : A -> Prop), Q a -> yields (ret a) Q.
Proof. intros A a Q H p b p' R. unfold ret in R. congruence. Qed.
Lemma GetObject_number : forall fuel E file n p o p', GetObject fuel E file n p = Ok (o, p') -> inum o = n.
Proof.
  intros fuel E file n p o p' H. destruct fuel as [| f]; [discriminate |]. unfold GetObject in H. cbn [get_object] in H.
  destruct (xget n (pxref p)) as [e |]; [| assert (o = new_iobj n) by congruence; subst; reflexivity].
  destruct (x_type e =? _); [| assert (o = new_iobj n) by congruence; subst; reflexivity].
  revert p o p' H. match goal with |- forall p o p', ?m p = _ -> _ => change (yields m (fun o => inum o = n)) end.
  unfold get_in_use. apply yields_bind. intros _. apply yields_bind. intros _. intros p o p' H. cbv zeta in H. revert H.
  match goal with |- ?m p = _ -> _ => enough (Y : yields m (fun o => inum o = n)) by (apply Y) end.
  apply yields_bind. intros [v e']. apply yields_bind. intros kw. destruct (bseq kw (lit "stream")); [| apply yields_ret; reflexivity].
  cbv zeta. apply yields_bind. intros fl. apply yields_bind. intros pl. apply yields_bind. intros [cf [fl' pl']]. apply yields_bind. intros s.
  apply yields_ret. reflexivity.
Qed.

(** ** The loop over the cross-reference table *)
Lemma content_app : forall f a b, content f (a ++ b) = content f a ++ content f b.
Proof. intros. unfold content. rewrite map_app, concat_app. reflexivity. Qed.
Lemma quiet : forall E OD rs fuel st o p, order_ok OD -> content FRaw (map OpEv (fst (object_extract E OD rs fuel st o p))) = [].
Proof.
  intros E OD rs fuel st o p OK. refine (object_extract_emits E OD (fun w => content FRaw (map OpEv w) = []) OK _ _ _ _ rs fuel o st p).
  - reflexivity.
  - intros a b Ha Hb. rewrite map_app, content_app, Ha, Hb. reflexivity.
  - intros [] b N; try reflexivity. congruence.
  - intros n d. reflexivity.
Qed.
Lemma kept_trans : forall file p q r, kept file p q -> kept file q r -> kept file p r.
Proof. intros file p q r (_ & A & B & C) (W & A' & B' & C'). split; [exact W |]. repeat split; congruence. Qed.
Lemma GetObject_kept : forall fuel E file n p o p', reads file p -> GetObject fuel E file n p = Ok (o, p') -> kept file p p'.
Proof.
  intros fuel E file n p o p' W H. destruct (get_object_keeps _ _ _ _ _ _ _ W H) as [W' [X T S]]. split; [exact W' |]. repeat split; congruence.
Qed.

Lemma xbind_ok : forall A B (m : X A) (k : A -> X B) p w b q, xbind m k p = (w, Ok (b, q)) ->
  exists w1 a q1 w2, m p = (w1, Ok (a, q1)) /\ k a q1 = (w2, Ok (b, q)) /\ w = w1 ++ w2.
Proof.
  intros A B m k p w b q H. unfold xbind in H. destruct (m p) as [w1 [[a q1]| |]]; try discriminate. destruct (k a q1) as [w2 r] eqn:Q.
  exists w1, a, q1, w2. split; [reflexivity |]. rewrite Q. split; congruence.
Qed.
Section Loop.
  Variables (E : env) (OD : order) (file : bytes) (p1 : pst).
  Hypothesis OK : order_ok OD.
  Definition listed (objs : list (Z * iobj)) (ts : list bytes) (w : list ev) : Prop :=
    Forall (fun no => inum (snd no) = fst no /\ exists q, kept file p1 q /\ fetched E file q (fst no) (snd no)) objs /\
    Forall2 (fun no t => written_object (e_fmt E) (snd no) t) objs ts /\
    content FRaw (map OpEv w) = List.concat (map (fun t => t ++ [x0a]) ts).
  Lemma extract_one_raw : forall fuel n e q w u q', kept file p1 q -> extract_one E OD fuel file (n, e) q = (w, Ok (u, q')) ->
    kept file p1 q' /\ if x_type e =? 1 then exists o t, listed [(n, o)] [t] w else w = [].
  Proof.
    intros fuel n e q w u q' K H. unfold extract_one in H. change XrefTypeIndirectObject with 1 in H. destruct (x_type e =? 1).
    2: { unfold xret in H. assert (q' = q /\ w = []) as [-> ->] by (split; congruence). auto. }
    apply xbind_ok in H. destruct H as (w0 & u0 & q0 & w0' & H0 & H & ->). assert (w0 = [] /\ q0 = q) as [-> ->].
    { unfold xlift, lift in H0. destruct (debug E); try discriminate. split; congruence. }
    apply xbind_ok in H. destruct H as (w1' & o & q1 & w1'' & G & H & ->). unfold xlift in G. injection G as <- G.
    pose proof (GetObject_kept _ _ _ _ _ _ _ (proj1 K) G) as K1. pose proof (GetObject_number _ _ _ _ _ _ _ G) as N.
    apply xbind_ok in H. destruct H as (w1 & u1 & q2 & w2 & X & H & ->).
    pose proof (object_extract_still E OD file fuel OK o [0; n] q1 w1 u1 q2 (proj1 K1) X) as S2.
    pose proof (quiet E OD (Resolve fuel E file) fuel [0; n] o q1 OK) as C. rewrite X in C. cbn [fst] in C.
    unfold xout in H. assert (q' = q2 /\ w2 = [println FRaw (iobj_string E OD [1; n] o)]) as [-> ->] by (split; congruence). cbn [List.app].
    split. { eapply kept_trans; [exact K |]. eapply kept_trans; [exact K1 |]. destruct S2 as (W2 & _ & _ & A & B & D). split; [exact W2 |]. auto. }
    exists o, (iobj_string E OD [1; n] o). split; [| split].
    - constructor; [| constructor]. split; [exact N |]. exists q. split; [exact K |]. exists fuel, q1. exact G.
    - constructor; [| constructor]. apply iobj_string_written. exact OK.
    - rewrite map_app, content_app, C. cbn. rewrite !List.app_nil_r. reflexivity.
  Qed.
  Lemma extract_all_raw : forall fuel l q w u q', kept file p1 q -> extract_all E OD fuel file l q = (w, Ok (u, q')) ->
    kept file p1 q' /\ exists objs ts, map fst objs = map fst (filter (fun kv => x_type (snd kv) =? 1) l) /\ listed objs ts w.
  Proof.
    intros fuel. induction l as [| [n e] l IH]; intros q w u q' K H.
    - cbn [extract_all] in H. unfold xret in H. assert (q' = q /\ w = []) as [-> ->] by (split; congruence). split; [exact K |].
      exists [], []. split; [reflexivity |]. split; [constructor |]. split; [constructor | reflexivity].
    - cbn [extract_all] in H. unfold xbind in H. destruct (extract_one E OD fuel file (n, e) q) as [w1 [[u1 q1]| |]] eqn:X; try discriminate.
      destruct (extract_all E OD fuel file l q1) as [w2 r] eqn:Y. assert (r = Ok (u, q') /\ w = w1 ++ w2) as [-> ->] by (split; congruence).
      destruct (extract_one_raw _ _ _ _ _ _ _ K X) as [K1 R1]. destruct (IH _ _ _ _ K1 Y) as (K2 & objs & ts & M & L1 & L2 & L3). split; [exact K2 |].
      cbn [filter snd]. destruct (x_type e =? 1).
      + destruct R1 as (o & t & A1 & A2 & A3). exists ((n, o) :: objs), (t :: ts). split; [cbn [map fst]; f_equal; exact M |].
        inversion A1; subst. inversion A2; subst. split; [constructor; assumption |]. split; [constructor; assumption |].
        rewrite map_app, content_app, A3, L3. cbn [map List.concat]. rewrite List.app_nil_r. reflexivity.
      + subst w1. exists objs, ts. split; [exact M |]. split; [exact L1 |]. split; [exact L2 |]. exact L3.
  Qed.
End Loop.

Lemma kept_refl' : forall file p, reads file p -> kept file p p.
Proof. intros file p W. split; [exact W | auto]. Qed.
Lemma raw_listed : forall E OD file fuel p1 w u q', order_ok OD -> sound file p1 ->
  extract_all E OD fuel file (o_xref OD (pxref p1)) p1 = (w, Ok (u, q')) -> raw_of E file p1 (content FRaw (map OpEv w)).
Proof.
  intros E OD file fuel p1 w u q' OK [W N] H.
  destruct (extract_all_raw E OD file p1 OK _ _ _ _ _ _ (kept_refl' _ _ W) H) as (_ & objs & ts & M & L1 & L2 & L3).
  pose proof (proj2 (proj2 OK) (pxref p1)) as PX.
  assert (PF : Permutation (map fst (pxref p1)) (map fst (o_xref OD (pxref p1)))) by (apply Permutation_map; exact PX).
  assert (NX : NoDup (map fst (o_xref OD (pxref p1)))) by (eapply Permutation_NoDup; [exact PF | exact N]).
  exists objs, ts. split; [| split; [| split; [exact L1 | split; [exact L2 | exact L3]]]].
  - rewrite M. clear -NX. induction (o_xref OD (pxref p1)) as [| [k e] l IH]; [constructor |]. cbn [map fst filter snd] in *. inversion NX; subst.
    destruct (x_type e =? 1); [| apply IH; assumption]. cbn [map fst]. constructor; [| apply IH; assumption].
    intros I. apply H1. apply in_map_iff in I. destruct I as (kv & Q & I). apply filter_In in I. apply in_map_iff. exists kv. tauto.
  - intros n. rewrite M. split.
    + intros I. apply in_map_iff in I. destruct I as ([k e] & Q & I). cbn [fst] in Q. subst k. apply filter_In in I. destruct I as [I T]. cbn [snd] in T.
      apply Z.eqb_eq in T. exists e. split; [| exact T]. apply (In_mget Z.eqb Zeqb_ok); [exact N |]. eapply Permutation_in; [apply Permutation_sym; exact PX | exact I].
    + intros (e & X & T). apply in_map_iff. exists (n, e). split; [reflexivity |]. apply filter_In. split; [| cbn [snd]; apply Z.eqb_eq; exact T].
      eapply Permutation_in; [exact PX |]. apply (mget_In Z.eqb Zeqb_ok). exact X.
Qed.

(** ** Parse *)
Lemma body_ok : forall E OD fuel file pw p w e q, parse_body E OD fuel file pw p = (w, Ok (e, q)) ->
  exists p1, load fuel E (o_objects OD) file pw p = Ok (e, p1) /\
    (e = None -> exists u, extract_all E OD fuel file (o_xref OD (pxref p1)) p1 = (w, Ok (u, q))) /\ (e <> None -> w = []).
Proof.
  intros E OD fuel file pw p w e q H. unfold parse_body in H. apply xbind_ok in H. destruct H as (w0 & u0 & q0 & w0' & H0 & H & ->).
  assert (w0 = [] /\ q0 = p) as [-> ->]. { unfold xlift, lift in H0. destruct (debug E); try discriminate. split; congruence. }
  apply xbind_ok in H. destruct H as (w1 & e1 & p1 & w2 & L & H & ->). unfold xlift in L. injection L as <- L. cbn [List.app]. exists p1.
  destruct e1 as [e1 |].
  - unfold xret in H. assert (e = Some e1 /\ w2 = []) as [-> ->] by (split; congruence). split; [exact L |]. split; [discriminate | reflexivity].
  - apply xbind_ok in H. destruct H as (w3 & u & q1 & w4 & X & H & ->). unfold xret in H. assert (e = None /\ w4 = [] /\ q1 = q) as (-> & -> & ->) by (repeat split; congruence).
    split; [exact L |]. rewrite List.app_nil_r. split; [intros _; exists u; exact X | congruence].
Qed.
Lemma silent : forall f l, (forall e, ~ In (OpEv e) l) -> content f l = [].
Proof.
  intros f l H. unfold content. induction l as [| o l IH]; [reflexivity |]. cbn [map List.concat]. rewrite IH by (intros e I; apply (H e); right; exact I).
  destruct o; try reflexivity. exfalso. apply (H e). left. reflexivity.
Qed.
Lemma new_output_silent : forall S f, content f (fst (fst (new_output S))) = [].
Proof. intros S f. apply silent. intros e I. destruct (new_output_ops _ _ I) as [X | [X | (g & X)]]; discriminate. Qed.
Lemma close_silent : forall l f, content f (close_output l) = [].
Proof. intros S f. apply silent. intros e I. destruct (close_ops _ _ I) as (g & X & _); discriminate. Qed.

Lemma parse_ok : forall E OD fuel S pw ops, parse E OD fuel S pw = (ops, Ok PNone) -> exists file p1 w u q,
  s_input S = Some file /\ load fuel E (o_objects OD) file pw (new_parser file) = Ok (None, p1) /\
  extract_all E OD fuel file (o_xref OD (pxref p1)) p1 = (w, Ok (u, q)) /\ forall f, content f ops = content f (map OpEv w).
Proof.
  intros E OD fuel S pw ops H. unfold parse in H. destruct (s_input S) as [file |]; [| discriminate].
  pose proof (new_output_silent S) as Z1. destruct (new_output S) as [[ops1 opened] ok]. cbn [fst] in Z1. destruct ok; [| discriminate].
  destruct (parse_body E OD fuel file pw (new_parser file)) as [w [[[e |] q]| |]] eqn:B; try discriminate.
  destruct (body_ok _ _ _ _ _ _ _ _ _ B) as (p1 & L & X & _). destruct (X eq_refl) as (u & Y). exists file, p1, w, u, q.
  split; [reflexivity |]. split; [exact L |]. split; [exact Y |]. intros f. assert (ops = ops1 ++ map OpEv w ++ close_output opened) by congruence. subst ops.
  rewrite !content_app, Z1, close_silent, List.app_nil_r. reflexivity.
Qed.
Lemma new_sound : forall file, sound file (new_parser file).
Proof. intros file. split; [exact (open_wf file) | constructor]. Qed.
Lemma parse_raw : forall E OD fuel S pw ops, order_ok OD -> parse E OD fuel S pw = (ops, Ok PNone) ->
  exists file p1, s_input S = Some file /\ load fuel E (o_objects OD) file pw (new_parser file) = Ok (None, p1) /\
    raw_of E file p1 (content FRaw ops).
Proof.
  intros E OD fuel S pw ops OK H. destruct (parse_ok _ _ _ _ _ _ H) as (file & p1 & w & u & q & I & L & X & C). exists file, p1.
  split; [exact I |]. split; [exact L |]. rewrite C. eapply raw_listed; [exact OK | | exact X]. eapply tidy_load; [apply new_sound | exact L].
Qed.
Lemma parse_error_quiet : forall E OD fuel S pw ops r, parse E OD fuel S pw = (ops, Ok r) -> r <> PNone -> forall f, content f ops = [].
Proof.
  intros E OD fuel S pw ops r H N f. unfold parse in H. destruct (s_input S) as [file |]; [| assert (ops = []) by congruence; subst; reflexivity].
  pose proof (new_output_silent S) as Z1. destruct (new_output S) as [[ops1 opened] ok]. cbn [fst] in Z1. destruct ok.
  2: { assert (ops = ops1 ++ close_output opened) by congruence. subst. rewrite content_app, Z1, close_silent. reflexivity. }
  destruct (parse_body E OD fuel file pw (new_parser file)) as [w [[[e |] q]| |]] eqn:B; try discriminate; [| congruence].
  destruct (body_ok _ _ _ _ _ _ _ _ _ B) as (p1 & L & _ & X). rewrite X in H by discriminate. cbn [map List.app] in H.
  assert (ops = ops1 ++ close_output opened) by congruence. subst. rewrite content_app, Z1, close_silent. reflexivity.
Qed.

(** ** C52 *)
Lemma create_opened : forall S l f, In f (snd (fst (create_files S l))) <-> In (OpCreate f) (fst (fst (create_files S l))) /\ s_create S f = true.
Proof.
  intros S l f. induction l as [| g l IH]; [cbn; tauto |]. cbn [create_files]. destruct (s_create S g) eqn:G.
  - destruct (create_files S l) as [[ops opened] ok]. cbn [fst snd In] in *. rewrite IH. split.
    + intros [-> | [A B]]; auto.
    + intros [[Q | A] B]; [left; congruence | right; auto].
  - cbn [fst snd In]. split; [intros [] |]. intros [[Q | []] B]. assert (g = f) by congruence. subst. congruence.
Qed.
Lemma parse_closes : forall E OD fuel S pw, snd (parse E OD fuel S pw) <> OutOfFuel ->
  exists before after, fst (parse E OD fuel S pw) = before ++ after /\ (forall e, ~ In (OpEv e) after) /\
    forall f, (In (OpClose f) after -> In (OpCreate f) before /\ s_create S f = true) /\
      (In (OpCreate f) before -> s_create S f = true -> f <> FErrors -> In (OpClose f) after) /\ ~ In (OpClose f) before.
Proof.
  intros E OD fuel S pw H. destruct (parse_shape E OD fuel S pw) as [[Q _] | (file & w & tail & I & Q & T & _)].
  { rewrite Q. exists [], []. split; [reflexivity |]. split; [intros e [] |]. intros f. cbn. tauto. }
  assert (T' : tail = close_output (snd (fst (new_output S)))).
  { destruct T as [-> | ->]; [| reflexivity]. destruct (close_output (snd (fst (new_output S)))) as [| c cs] eqn:CO; [reflexivity | exfalso].
    unfold parse in *. rewrite I in *. destruct (new_output S) as [[ops opened] ok]. cbn [fst snd] in *.
    assert (LE : forall w1 w2, ops ++ map OpEv w1 ++ c :: cs = ops ++ map OpEv w2 ++ [] -> False).
    { intros w1 w2 X. apply app_inv_head in X. rewrite List.app_nil_r in X.
      assert (J : In c (map OpEv w2)) by (rewrite <- X; apply in_or_app; right; left; reflexivity). apply in_map_iff in J. destruct J as (e & <- & _).
      destruct (close_ops opened (OpEv e)) as (g & Y & _); [rewrite CO; left; reflexivity | discriminate]. }
    destruct ok.
    - destruct (parse_body E OD fuel file pw (new_parser file)) as [w0 [[[e |] q]| |]]; cbn [fst snd] in *; try congruence;
        rewrite CO in Q; apply LE in Q; exact Q.
    - cbn [fst] in Q. rewrite CO in Q. apply (LE []) in Q. exact Q. }
  exists (fst (fst (new_output S)) ++ map OpEv w), tail. rewrite Q, List.app_assoc. split; [reflexivity |].
  subst tail. split; [intros e J; destruct (close_ops _ _ J) as (g & X & _); discriminate |].
  assert (OP : forall f, In f (snd (fst (new_output S))) <-> In (OpCreate f) (fst (fst (new_output S)) ++ map OpEv w) /\ s_create S f = true).
  { intros f. rewrite in_app_iff, in_map_iff. unfold new_output. pose proof (create_opened S output_files f) as C. destruct (create_files S output_files) as [[o1 o2] o3].
    cbn [fst snd In] in *. rewrite C. split; [tauto |]. intros [[[X | [X | X]] | (e & X & _)] B]; try discriminate. tauto. }
  intros f. split; [| split].
  - intros J. destruct (close_ops _ _ J) as (g & X & Y). injection X as <-. apply is_open_in in Y. apply OP. exact Y.
  - intros A B N. apply closes; [exact N |]. apply OP. auto.
  - intros J. apply in_app_or in J. destruct J as [J | J]; [destruct (new_output_ops _ _ J) as [X | [X | (g & X)]]; discriminate |].
    apply in_map_iff in J. destruct J as (e & X & _). discriminate.
Qed.
