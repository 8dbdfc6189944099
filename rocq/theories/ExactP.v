(** ExactP.v -- exactly what extraction writes (C99). *)
From Verif Require Import Base BaseP Msg Reader ReaderP Num Lexer Obj ReadObj Env Getters Crypt GetObj Font Page Tree Output Render Extract Load Parse
  RelP GetObjP SpecRead FetchP LookP SecurityP CryptObjP TreeP LoadInvP OutP OutTopP RawP ExtractP SourceP AttachP SpecFetch SpecLook SpecTree SpecOut SpecSource SpecText SpecPage SpecPages PagesP SpecExact.
From Coq Require Import Strings.String Sorting.Permutation.
Local Open Scope x_scope.

Lemma perm_forall2 : forall A B (R : A -> B -> Prop) l l', Permutation l l' -> forall m, Forall2 R l m -> exists m', Permutation m m' /\ Forall2 R l' m'.
Proof.
  intros A B R l l' PE. induction PE as [| x l l' PE IH | x y l | l l1 l2 P1 IH1 P2 IH2]; intros m F.
  - exists m. inversion F; subst. split; constructor.
  - inversion F as [| ? y ? m0 H F']; subst. destruct (IH _ F') as (m' & PM & FM). exists (y :: m'). split; [constructor; exact PM | constructor; assumption].
  - inversion F as [| ? a ? m0 H F']; subst. inversion F' as [| ? b ? m1 H' F'']; subst. exists (b :: a :: m1). split; [constructor | constructor; [| constructor]; assumption].
  - destruct (IH1 _ F) as (m1 & PM & FM). destruct (IH2 _ FM) as (m2 & PM' & FM'). exists m2. split; [eapply Permutation_trans; eassumption | exact FM'].
Qed.
Lemma perm_concat : forall A (l l' : list (list A)), Permutation l l' -> Permutation (List.concat l) (List.concat l').
Proof.
  intros A l l' PE. induction PE as [| x l l' PE IH | x y l | l l1 l2 P1 IH1 P2 IH2]; cbn [List.concat]; [constructor | apply Permutation_app_head; exact IH | | eapply Permutation_trans; eassumption].
  rewrite !app_assoc. apply Permutation_app_tail. apply Permutation_app_comm.
Qed.

Section Exact.
  Variables (B C : Type) (g : ev -> list B) (shown : C -> list B).
  Variables (E : env) (OD : order) (file : bytes) (fuel : nat) (p : pst).
  Hypothesis OK : order_ok OD.
  Hypothesis W : reads file p.
  Hypothesis O : offsets_ok (pxref p).
  Let rs := Resolve fuel E file.

  (** the part [g] of what is written shows the things [L], in some order *)
  Definition shows_all (L : list C) (w : list B) : Prop := exists L', Permutation L' L /\ w = flat_map shown L'.
  Definition gives {A} (m : X A) (L : list C) : Prop := forall q w a q', kept file p q -> m q = (w, Ok (a, q')) -> shows_all L (flat_map g w).
  Lemma shows_nil : shows_all [] [].
  Proof. exists []. split; [constructor | reflexivity]. Qed.
  Lemma shows_app : forall L1 L2 w1 w2, shows_all L1 w1 -> shows_all L2 w2 -> shows_all (L1 ++ L2) (w1 ++ w2).
  Proof. intros L1 L2 w1 w2 (a & PA & ->) (b & PB & ->). exists (a ++ b). split; [apply Permutation_app; assumption | symmetry; apply flat_map_app]. Qed.
  Lemma gives_perm : forall A (m : X A) L L', Permutation L L' -> gives m L -> gives m L'.
  Proof. intros A m L L' PE H q w a q' K R. destruct (H _ _ _ _ K R) as (l & PL & Q). exists l. split; [eapply Permutation_trans; eassumption | exact Q]. Qed.
  Lemma gives_eq : forall A (m : X A) L L', gives m L -> L = L' -> gives m L'.
  Proof. intros A m L L' H <-. exact H. Qed.
  Lemma gives_ret : forall A (a : A), gives (xret a) [].
  Proof. intros A a q w b q' K R. unfold xret in R. injection R as <- _ _. apply shows_nil. Qed.
  Lemma gives_out : forall w L, flat_map g w = flat_map shown L -> gives (xout w) L.
  Proof. intros w L Q q w' b q' K R. unfold xout in R. injection R as <- _ _. exists L. split; [apply Permutation_refl | exact Q]. Qed.
  Lemma gives_just : forall A (m : X A) w L, just file p m w -> flat_map g w = flat_map shown L -> gives m L.
  Proof. intros A m w L J Q q w' b q' K R. destruct (J _ _ _ _ K R) as [-> _]. exists L. split; [apply Permutation_refl | exact Q]. Qed.
  Lemma gives_none : forall A (m : X A), all_say (fun e => g e = []) m -> gives m [].
  Proof.
    intros A m H q w b q' K R. specialize (H q). rewrite R in H. cbn [fst] in H. replace (flat_map g w) with (@nil B); [apply shows_nil |].
    clear R. induction H as [| e w Q F IH]; [reflexivity |]. cbn [flat_map]. rewrite Q. exact IH.
  Qed.
  Lemma gives_bind : forall A D (m : X A) (k : A -> X D) L1 L2, calm file m -> gives m L1 -> (forall a, gives (k a) L2) -> gives (xbind m k) (L1 ++ L2).
  Proof.
    intros A D m k L1 L2 CA H1 H2 q w b q' K R. apply RawP.xbind_ok in R. destruct R as (w1 & a & q1 & w2 & R1 & R2 & ->). rewrite flat_map_app.
    apply shows_app; [eapply H1; eassumption |]. eapply H2; [| exact R2]. eapply calm_kept; eassumption.
  Qed.
  Lemma gives_about : forall A D (m : M A) (k : A -> X D) (Q : A -> Prop) L, got file p m (fun r q => Q r /\ kept file p q) -> (forall a, Q a -> gives (k a) L) -> gives (xbind (xlift m) k) L.
  Proof.
    intros A D m k Q L G H q w b q' K R. apply RawP.xbind_ok in R. destruct R as (w1 & a & q1 & w2 & R1 & R2 & ->). unfold xlift in R1. injection R1 as <- R1.
    destruct (G _ _ _ K R1) as [HQ K1]. cbn [app]. eapply H; eassumption.
  Qed.
  Lemma gives_seq : forall ms Ls, (forall m, In m ms -> calm file m) -> Forall2 gives ms Ls -> gives (xseq ms) (List.concat Ls).
  Proof.
    intros ms Ls CA F. induction F as [| m L ms Ls H F IH]; cbn [xseq List.concat]; [apply gives_ret |].
    apply gives_bind; [apply CA; left; reflexivity | exact H | intros _; apply IH; intros m' I; apply CA; right; exact I].
  Qed.
  Lemma gives_seq_perm : forall ms ms' Ls, Permutation ms ms' -> (forall m, In m ms -> calm file m) -> Forall2 gives ms Ls -> gives (xseq ms') (List.concat Ls).
  Proof.
    intros ms ms' Ls PE CA F. destruct (perm_forall2 _ _ _ _ _ PE _ F) as (Ls' & PL & F'). eapply gives_perm; [apply perm_concat, Permutation_sym; exact PL |].
    apply gives_seq; [| exact F']. intros m I. apply CA. eapply Permutation_in; [apply Permutation_sym; exact PE | exact I].
  Qed.

  (** ** entries *)
  Lemma gives_dict : forall D d k (K : dict * bool -> X D) (R : dict -> list C -> Prop) L, of_entry E file p is_dict R (entry d k) L ->
    (forall a l, typed E file p is_dict (entry d k) a -> R a l -> gives (K (a, true)) l) -> gives (K ([], false)) [] -> gives (xbind (xlift (d_dict rs d k)) K) L.
  Proof.
    intros D d k K R L H H1 H2. destruct H as [a l T HR | U].
    - eapply gives_about; [apply (dict_known E file fuel p W O); exact T |]. intros r ->. apply H1; assumption.
    - eapply gives_about; [apply (dict_known_not E file fuel p W O); exact U |]. intros r ->. exact H2.
  Qed.
  Lemma gives_string : forall D d k (K : bytes * bool -> X D) (R : bytes -> list C -> Prop) L, of_entry E file p is_string R (entry d k) L ->
    (forall a l, typed E file p is_string (entry d k) a -> R a l -> gives (K (a, true)) l) -> gives (K ([], false)) [] -> gives (xbind (xlift (d_string rs d k)) K) L.
  Proof.
    intros D d k K R L H H1 H2. destruct H as [a l T HR | U].
    - eapply gives_about; [apply (string_known E file fuel p W O); exact T |]. intros r ->. apply H1; assumption.
    - eapply gives_about; [apply (string_known_not E file fuel p W O); exact U |]. intros r ->. exact H2.
  Qed.
  Lemma gives_dict_any : forall D d k (K : dict * bool -> X D) L, (forall r, answer E file p is_dict [] (entry d k) r -> gives (K r) L) -> gives (xbind (xlift (d_dict rs d k)) K) L.
  Proof. intros D d k K L H. eapply gives_about; [apply (dict_got E file fuel p W O) |]. exact H. Qed.
  Lemma gives_string_any : forall D d k (K : bytes * bool -> X D) L, (forall r, answer E file p is_string [] (entry d k) r -> gives (K r) L) -> gives (xbind (xlift (d_string rs d k)) K) L.
  Proof. intros D d k K L H. eapply gives_about; [apply (string_got E file fuel p W O) |]. exact H. Qed.

  (** ** actions *)
  Section Actions.
    Variable R : dict -> list C -> Prop.
    Hypothesis HA : forall a l, R a l -> gives (action_extract E rs a) l.
    Lemma action_at_gives : forall d k l, of_entry E file p is_dict R (entry d k) l -> gives (action_at E rs d k) l.
    Proof. intros d k l H. unfold action_at. eapply gives_dict; [exact H | |]; cbv beta iota; [intros a l' _; apply HA | apply gives_ret]. Qed.
    Lemma additional_gives : forall st d l, of_entry E file p is_dict (fun aa => of_each (fun k => of_entry E file p is_dict R (entry aa k)) (map fst aa)) (entry d (lit "AA")) l ->
      gives (additional_actions E OD rs st d) l.
    Proof.
      intros st d l H. unfold additional_actions. eapply gives_dict; [exact H | |]; cbv beta iota; [| apply gives_ret].
      intros aa l' _ (ls & F & ->). eapply (gives_seq_perm (map (action_at E rs aa) (map fst aa))).
      - apply Permutation_map. apply (proj1 OK).
      - intros m I. apply in_map_iff in I. destruct I as (k & <- & _). apply action_at_still.
      - induction F as [| k x ks ls H1 F IH]; cbn [map]; constructor; [apply action_at_gives; exact H1 | exact IH].
    Qed.
    End Actions.

  (** ** name trees *)
  Lemma element_next : forall (l : list obj) a b i, 0 <= i -> element (a :: b :: l) (2 + i) = element l i.
  Proof.
    intros l a b i Hi. unfold element. destruct (2 + i <? 0) eqn:B1; [apply Z.ltb_lt in B1; lia |]. destruct (i <? 0) eqn:B2; [apply Z.ltb_lt in B2; lia |].
    replace (Z.to_nat (2 + i)) with (Datatypes.S (Datatypes.S (Z.to_nat i))) by lia. reflexivity.
  Qed.
  Lemma flat_at : forall prs j kx, nth_error prs j = Some kx -> element (flat prs) (2 * Z.of_nat j) = Some (fst kx) /\ element (flat prs) (1 + 2 * Z.of_nat j) = Some (snd kx).
  Proof.
    induction prs as [| [k x] prs IH]; intros [| j] kx H; try discriminate H; cbn [nth_error] in H.
    - injection H as <-. split; reflexivity.
    - destruct (IH _ _ H) as [A D]. cbn [flat]. replace (2 * Z.of_nat (Datatypes.S j)) with (2 + 2 * Z.of_nat j) by lia.
      replace (1 + (2 + 2 * Z.of_nat j)) with (2 + (1 + 2 * Z.of_nat j)) by lia. rewrite !element_next by lia. auto.
  Qed.
  Lemma flat_length : forall prs, List.length (flat prs) = (2 * List.length prs)%nat.
  Proof. induction prs as [| [k x] prs IH]; cbn [flat List.length]; [reflexivity |]. rewrite IH. lia. Qed.
  Lemma nth_end : forall A (l pre : list A) x post, l = pre ++ x :: post -> nth_error l (List.length pre) = Some x.
  Proof. intros A l pre x post ->. rewrite nth_error_app2, Nat.sub_diag; [reflexivity | lia]. Qed.
  Section Names.
    Variables (R : obj * obj -> list C -> Prop).
    Lemma embedded_loop_gives : forall prs,
      (forall kx l j, nth_error prs j = Some kx -> R kx l -> forall rest L, gives rest L -> gives (embedded_step E file fuel (flat prs) (1 + 2 * Z.of_nat j) rest) (l ++ L)) ->
      forall post pre Ls, prs = pre ++ post -> Forall2 R post Ls -> forall k, (List.length post <= k)%nat -> gives (embedded_loop E rs k (1 + 2 * Z.of_nat (List.length pre)) (flat prs)) (List.concat Ls).
    Proof.
      intros prs H. induction post as [| kx post IH]; intros pre Ls Q F k LE.
      - inversion F; subst. cbn [List.concat]. destruct k as [| k]; cbn [embedded_loop]; [apply gives_ret |]. rewrite app_nil_r.
        destruct (Z.ltb_spec (1 + 2 * Z.of_nat (List.length pre)) (zlen (flat pre))) as [LT | LT]; [| apply gives_ret]. unfold zlen in LT. rewrite flat_length in LT. lia.
      - inversion F as [| ? l ? Ls' HR F']; subst Ls. destruct k as [| k]; [cbn [List.length] in LE; lia |]. cbn [embedded_loop List.concat].
        assert (LT : (1 + 2 * Z.of_nat (List.length pre) <? zlen (flat prs)) = true).
        { apply Z.ltb_lt. unfold zlen. rewrite flat_length, Q, app_length. cbn [List.length]. lia. }
        rewrite LT. refine (H kx l _ (nth_end _ _ _ _ _ Q) HR _ _ _).
        replace (1 + 2 * Z.of_nat (List.length pre) + 2) with (1 + 2 * Z.of_nat (List.length (pre ++ [kx]))) by (rewrite app_length; cbn [List.length]; lia).
        apply IH; [rewrite <- app_assoc; exact Q | exact F' | cbn [List.length] in LE; lia].
    Qed.
    Lemma urls_loop_gives : forall prs,
      (forall kx l j, nth_error prs j = Some kx -> R kx l -> forall rest L, gives rest L -> gives (urls_step E file fuel (flat prs) (2 * Z.of_nat j) rest) (l ++ L)) ->
      forall post pre Ls, prs = pre ++ post -> Forall2 R post Ls -> forall k, (List.length post <= k)%nat -> gives (urls_loop rs k (2 * Z.of_nat (List.length pre)) (flat prs)) (List.concat Ls).
    Proof.
      intros prs H. induction post as [| kx post IH]; intros pre Ls Q F k LE.
      - inversion F; subst. cbn [List.concat]. destruct k as [| k]; cbn [urls_loop]; [apply gives_ret |]. rewrite app_nil_r.
        destruct (Z.ltb_spec (2 * Z.of_nat (List.length pre)) (zlen (flat pre))) as [LT | LT]; [| apply gives_ret]. unfold zlen in LT. rewrite flat_length in LT. lia.
      - inversion F as [| ? l ? Ls' HR F']; subst Ls. destruct k as [| k]; [cbn [List.length] in LE; lia |]. cbn [urls_loop List.concat].
        assert (LT : (2 * Z.of_nat (List.length pre) <? zlen (flat prs)) = true).
        { apply Z.ltb_lt. unfold zlen. rewrite flat_length, Q, app_length. cbn [List.length]. lia. }
        rewrite LT. refine (H kx l _ (nth_end _ _ _ _ _ Q) HR _ _ _).
        replace (2 * Z.of_nat (List.length pre) + 2) with (2 * Z.of_nat (List.length (pre ++ [kx]))) by (rewrite app_length; cbn [List.length]; lia).
        apply IH; [rewrite <- app_assoc; exact Q | exact F' | cbn [List.length] in LE; lia].
    Qed.
    Lemma no_tree : forall d k, untyped E file p is_dict (entry d (lit k)) -> got file p (name_tree_map rs fuel d (lit k)) (fun r q => r = [] /\ kept file p q).
    Proof.
      intros d k H. unfold name_tree_map. eapply got_bind; [apply (dict_known_not E file fuel p W O); exact H |]. intros r ->. cbv beta iota.
      apply got_ret. intros q K. split; [reflexivity | exact K].
    Qed.
    Lemma embedded_gives : forall d L, (forall prs kx l j, nth_error prs j = Some kx -> R kx l -> forall rest L, gives rest L -> gives (embedded_step E file fuel (flat prs) (1 + 2 * Z.of_nat j) rest) (l ++ L)) ->
      of_names E file p R d "EmbeddedFiles" L -> gives (embedded_files E rs fuel d) L.
    Proof.
      intros d L H N. unfold embedded_files. destruct N as [prs l PR (ls & F & ->) | U].
      - eapply gives_about; [apply (pairs_known E file fuel p W O); exact PR |]. intros r ->. apply (embedded_loop_gives prs (H prs) prs [] ls eq_refl F). rewrite flat_length. lia.
      - eapply gives_about; [apply no_tree; exact U |]. intros r ->. apply gives_ret.
    Qed.
    Lemma urls_tree_gives : forall d L, (forall prs kx l j, nth_error prs j = Some kx -> R kx l -> forall rest L, gives rest L -> gives (urls_step E file fuel (flat prs) (2 * Z.of_nat j) rest) (l ++ L)) ->
      of_names E file p R d "URLS" L -> gives (urls_tree rs fuel d) L.
    Proof.
      intros d L H N. unfold urls_tree. destruct N as [prs l PR (ls & F & ->) | U].
      - eapply gives_about; [apply (pairs_known E file fuel p W O); exact PR |]. intros r ->. apply (urls_loop_gives prs (H prs) prs [] ls eq_refl F). rewrite flat_length. lia.
      - eapply gives_about; [apply no_tree; exact U |]. intros r ->. apply gives_ret.
    Qed.
  End Names.

  Lemma here_gives : forall st d l1 l2 l3 l4 l5 l6 l7 l8 l9,
    gives (action_at E rs d (lit "A")) l1 -> gives (action_at E rs d (lit "OpenAction")) l2 -> gives (additional_actions E OD rs st d) l3 ->
    gives (forms E rs d) l4 -> gives (embedded_files E rs fuel d) l5 -> gives (javascript rs d) l6 -> gives (page_text_of E OD rs fuel st d) l7 ->
    gives (uris rs d) l8 -> gives (urls_tree rs fuel d) l9 -> gives (extract_here E OD rs fuel st d) (l1 ++ l2 ++ l3 ++ l4 ++ l5 ++ l6 ++ l7 ++ l8 ++ l9).
  Proof.
    intros. unfold extract_here. repeat (apply gives_bind; [| assumption | intros _]); try assumption; try apply action_at_still.
    - apply additional_actions_still.
    - apply forms_still.
    - apply embedded_files_still.
    - apply javascript_still.
    - apply page_text_of_still.
    - apply uris_still.
  Qed.

  (** ** nested dictionaries *)
  Section Nested.
    Variable U : dict -> list C -> Prop.
    Hypothesis HU : forall st d l, U d l -> gives (extract_here E OD rs fuel st d) l.
    Lemma forall2_flat : forall A D F (R : D -> F -> Prop) (f : A -> list D) l m, Forall2 R (flat_map f l) m -> exists ms, m = List.concat ms /\ Forall2 (fun x y => Forall2 R (f x) y) l ms.
    Proof.
      intros A D F R f. induction l as [| x l IH]; intros m H; cbn [flat_map] in H.
      - inversion H; subst. exists []. split; [reflexivity | constructor].
      - apply Forall2_app_inv_l in H. destruct H as (m1 & m2 & H1 & H2 & ->). destruct (IH _ H2) as (ms & -> & F2). exists (m1 :: ms). split; [reflexivity | constructor; assumption].
    Qed.
    Lemma extracts_give : forall tag st l, Forall (fun x => forall st Ls, Forall2 U (nested x) Ls -> gives (extract E OD rs fuel st x) (List.concat Ls)) l ->
      forall ms, Forall2 (fun x y => Forall2 U (nested x) y) l ms -> forall i, Forall2 gives (extracts E OD rs fuel tag i st l) (map (@List.concat C) ms).
    Proof.
      intros tag st l H ms F. induction F as [| x m l ms H1 F IH]; intros i; cbn [extracts map]; constructor.
      - inversion H; subst. auto.
      - apply IH. inversion H; subst. assumption.
    Qed.
    Lemma concat_map_concat : forall (ms : list (list (list C))), List.concat (List.concat ms) = List.concat (map (@List.concat C) ms).
    Proof. induction ms as [| m ms IH]; [reflexivity |]. cbn [List.concat map]. rewrite concat_app, IH. reflexivity. Qed.
    Lemma extract_gives : forall o st Ls, Forall2 U (nested o) Ls -> gives (extract E OD rs fuel st o) (List.concat Ls).
    Proof.
      intros o. induction o as [| | | | | l IH | d IH] using obj_nested_ind; intros st Ls F; try (inversion F; subst; apply gives_ret).
      - cbn [nested] in F. apply forall2_flat in F. destruct F as (ms & -> & F). rewrite concat_map_concat, extract_array. apply gives_seq; [| apply extracts_give; assumption].
        intros m I. apply in_extracts in I. destruct I as (st' & x & _ & ->). apply extract_still. exact OK.
      - cbn [nested] in F. inversion F as [| ? L0 ? Ls' H0 F']; subst. cbn [List.concat]. rewrite extract_dict.
        apply gives_bind; [apply extract_here_still; exact OK | apply HU; exact H0 | intros _].
        assert (F2 : Forall2 U (flat_map nested (map snd d)) Ls') by (rewrite flat_map_concat_map, map_map, <- flat_map_concat_map; exact F').
        apply forall2_flat in F2. destruct F2 as (ms & -> & F2). rewrite concat_map_concat.
        eapply (gives_seq_perm (extracts E OD rs fuel 3 0 st (map snd d))); [apply (proj1 OK) | | apply extracts_give; [| exact F2]].
        + intros m I. apply in_extracts in I. destruct I as (st' & x & _ & ->). apply extract_still. exact OK.
        + clear -IH. induction d as [| [k x] d IHd]; cbn [map snd]; [constructor |]. inversion IH; subst. constructor; [assumption | apply IHd; assumption].
    Qed.

    (** ** objects *)
    Hypothesis HR : forall b, g (EWrite FRaw b) = [].
    Lemma one_gives : forall n o en Ls, x_type en = 1 -> fetched E file p n o ->
      Forall2 U (match ival o with ODict d => nested (ODict d) | _ => [] end) Ls -> gives (extract_one E OD fuel file (n, en)) (List.concat Ls).
    Proof.
      intros n o en Ls T F H. unfold extract_one. rewrite T. change (1 =? XrefTypeIndirectObject) with true. cbv iota.
      change (List.concat Ls) with ([] ++ List.concat Ls)%list. apply gives_bind; [apply xstill_lift, lift_still | apply gives_none; intros q; constructor | intros _].
      eapply (gives_about _ _ _ _ (fun r => r = o)).
      - intros q o' q' K G. split; [| eapply kept_trans; [exact K | eapply GetObject_kept; [exact (proj1 K) | exact G]]].
        destruct (fetched_at E file p q n o (kept_alike _ _ _ K) (fun e' X T' => O n e' X T') F) as (f0 & Hf).
        eapply fetched_det; [exists fuel, q'; exact G |]. destruct (Hf f0 (le_n _)) as (q2 & Q). exists f0, q2. exact Q.
      - intros o' ->. rewrite <- (app_nil_r (List.concat Ls)). apply gives_bind; [apply object_extract_still; exact OK | | intros _; apply gives_out; unfold println; cbn [flat_map]; rewrite HR; reflexivity].
        unfold object_extract. destruct (ival o); try (inversion H; subst; apply gives_ret). apply extract_gives. exact H.
    Qed.
    Lemma all_give : forall l objs Ls, Forall2 (fun kv no => fst kv = fst no) (filter (fun kv => x_type (snd kv) =? 1) l) objs ->
      Forall (fun no => fetched E file p (fst no) (snd no)) objs -> Forall2 U (dictionaries objs) Ls ->
      forall q w u q', kept file p q -> extract_all E OD fuel file l q = (w, Ok (u, q')) -> shows_all (List.concat Ls) (flat_map g w).
    Proof.
      induction l as [| [n en] l IH]; intros objs Ls F FE FU q w u q' K R; cbn [extract_all filter snd] in *.
      - inversion F; subst. inversion FU; subst. unfold xret in R. injection R as <- _ _. apply shows_nil.
      - apply RawP.xbind_ok in R. destruct R as (w1 & a & q1 & w2 & R1 & R2 & ->). pose proof (extract_one_calm E OD file fuel p OK _ _ _ _ _ K R1) as K1. rewrite flat_map_app.
        destruct (Z.eqb_spec (x_type en) 1) as [T | T].
        + inversion F as [| ? [n' o] ? objs' Q F']; subst. cbn [fst] in Q. subst n'. inversion FE as [| ? ? FE1 FE2]; subst. unfold dictionaries in FU. cbn [flat_map snd] in FU.
          apply Forall2_app_inv_l in FU. destruct FU as (L1 & L2 & HL1 & HL2 & ->). rewrite concat_app. cbn [fst snd] in *. apply shows_app; [exact (one_gives n o en L1 T FE1 HL1 _ _ _ _ K R1) | eapply IH; eassumption].
        + assert (Q : w1 = []). { unfold extract_one in R1. destruct (Z.eqb_spec (x_type en) XrefTypeIndirectObject) as [T' | T']; [exfalso; apply T; exact T' |]. unfold xret in R1. congruence. }
          subst w1. cbn [flat_map app]. eapply IH; eassumption.
    Qed.
  End Nested.
End Exact.

(** ** Parts of the output that a component does not touch *)
Section Quiet.
  Variables (E : env) (OD : order) (rs : Z -> M iobj) (fuel : nat) (P : ev -> Prop).
  Lemma all_out : forall w, Forall P w -> all_say P (xout w).
  Proof. intros w H q. exact H. Qed.
  Lemma all_seq : forall l, (forall m, In m l -> all_say P m) -> all_say P (xseq l).
  Proof. induction l as [| m l IH]; intros H; cbn [xseq]; [apply all_ret |]. apply all_bind; [apply H; left; reflexivity | intros _; apply IH; intros m' I; apply H; right; exact I]. Qed.
  Ltac al := repeat first [match goal with |- all_say _ (xret _) => apply all_ret end | match goal with |- all_say _ (xlift _) => apply all_lift end
    | match goal with |- all_say _ (xbind _ _) => apply all_bind; [| intros] end
    | match goal with |- all_say _ (let '(_, _) := ?x in _) => destruct x end
    | match goal with |- all_say _ (match ?x with (_, _) => _ end) => destruct x end
    | match goal with |- all_say _ (if ?b then _ else _) => destruct b end
    | match goal with |- all_say _ (xout _) => apply all_out; unfold dump_file, println, manifest_line; repeat constructor; auto end].
  Hypothesis QF : forall b, P (EWrite FFiles b).
  Hypothesis QD : forall n b, P (EDump n b).
  Lemma forms_all : forall d, all_say P (forms E rs d).
  Proof. intros d. unfold forms. al. Qed.
  Hypothesis QU : forall b, P (EWrite FURLs b).
  Hypothesis QC : forall b, P (EWrite FCommands b).
  Lemma file_all : forall d c, all_say P (file_extract E rs d c).
  Proof. intros d c. unfold file_extract. al. apply Forall_app. split; [destruct c |]; repeat constructor; auto. Qed.
  Lemma action_all : forall d, all_say P (action_extract E rs d).
  Proof. intros d. unfold action_extract. al; apply file_all. Qed.
  Lemma action_at_all : forall d k, all_say P (action_at E rs d k).
  Proof. intros d k. unfold action_at. al. apply action_all. Qed.
  Lemma additional_all : forall st d, all_say P (additional_actions E OD rs st d).
  Proof. intros st d. unfold additional_actions. al. apply all_seq. intros m I. apply in_map_iff in I. destruct I as (k & <- & _). apply action_at_all. Qed.
  Lemma embedded_all : forall d, all_say P (embedded_files E rs fuel d).
  Proof.
    intros d. unfold embedded_files. al. generalize 1. generalize (List.length a) at 1. intros k. induction k as [| k IH]; intros i; cbn [embedded_loop]; [apply all_ret |]. al; try apply file_all; apply IH.
  Qed.
End Quiet.
Section Quiet2.
  Variables (E : env) (OD : order) (rs : Z -> M iobj) (fuel : nat) (P : ev -> Prop).
  Ltac al := repeat first [match goal with |- all_say _ (xret _) => apply all_ret end | match goal with |- all_say _ (xlift _) => apply all_lift end
    | match goal with |- all_say _ (xbind _ _) => apply all_bind; [| intros] end
    | match goal with |- all_say _ (let '(_, _) := ?x in _) => destruct x end
    | match goal with |- all_say _ (match ?x with (_, _) => _ end) => destruct x end
    | match goal with |- all_say _ (if ?b then _ else _) => destruct b end
    | match goal with |- all_say _ (xout _) => apply all_out; unfold dump_file, println, manifest_line; repeat constructor; auto end].
  Lemma javascript_all : (forall b, P (EWrite FJavascript b)) -> forall d, all_say P (javascript rs d).
  Proof. intros H d. unfold javascript. al. Qed.
  Lemma uris_all : (forall b, P (EWrite FURLs b)) -> forall d, all_say P (uris rs d).
  Proof. intros H d. unfold uris. al. Qed.
  Lemma urls_tree_all : (forall b, P (EWrite FURLs b)) -> forall d, all_say P (urls_tree rs fuel d).
  Proof.
    intros H d. unfold urls_tree. al. generalize 0. generalize (List.length a) at 1. intros k. induction k as [| k IH]; intros i; cbn [urls_loop]; [apply all_ret |]. al. apply IH.
  Qed.
End Quiet2.

(** ** The views *)
Definition view_of (f : ofile) (e : ev) : bytes := appended f (OpEv e).
Definition with_newline (t : bytes) : bytes := t ++ [x0a].
Definition file_view (e : ev) : list ev := match e with EWrite FFiles _ | EDump _ _ => [e] | _ => [] end.
Definition item_view (E : env) (i : item) : list ev := match i with Inside n d => dump_file E n d | Outside n => [manifest_line zeros n] end.

Section Views.
  Variables (E : env) (OD : order) (file : bytes) (fuel : nat) (p : pst).
  Hypothesis OK : order_ok OD.
  Hypothesis W : reads file p.
  Hypothesis O : offsets_ok (pxref p).
  Let rs := Resolve fuel E file.
  Ltac quiet := apply gives_none;
    first [apply forms_all | apply file_all | apply action_at_all | apply additional_all | apply embedded_all | apply javascript_all | apply uris_all | apply urls_tree_all | apply page_text_of_all]; intros; reflexivity.

  (** scripts *)
  Lemma script_gives : forall st d l, scripts E file p d l -> gives _ _ (view_of FJavascript) with_newline file p (extract_here E OD rs fuel st d) l.
  Proof.
    intros st d l H. eapply gives_eq; [eapply (here_gives _ _ _ _ _ _ _ _ _ st d [] [] [] [] [] l [] [] []); try quiet | cbn [app]; apply app_nil_r].
    unfold javascript. destruct H as [s [s' T | s' U R] | U N].
    - eapply gives_about; [apply (string_known E file fuel p W O); exact T |]. intros r ->. apply gives_out. reflexivity.
    - eapply gives_about; [apply (string_known_not E file fuel p W O); exact U |]. intros r ->. cbv beta iota. eapply gives_about; [apply (stream_got E file fuel p W O) |].
      intros [s2 ok] A. destruct A as [[Z0 R'] | [_ N]]; cbn [fst snd] in *; [subst ok | exfalso; destruct R as (n & g & o & X & _); eapply N; exact X].
      rewrite (referred_det E file p _ _ _ R R'). apply gives_out. reflexivity.
    - eapply gives_about; [apply (string_known_not E file fuel p W O); exact U |]. intros r ->. cbv beta iota. eapply gives_about; [apply (stream_got E file fuel p W O) |].
      intros [s2 ok] A. destruct A as [[Z0 (n & g & o & X & _)] | [Z0 _]]; [exfalso; eapply N; exact X |]. injection Z0 as _ ->. apply gives_ret.
  Qed.

  (** texts *)
  Lemma text_gives : forall st d ls, texts E file p d ls -> gives _ _ (view_of FText) in_lines file p (extract_here E OD rs fuel st d) [ls].
  Proof.
    intros st d ls H. eapply gives_eq; [eapply (here_gives _ _ _ _ _ _ _ _ _ st d [] [] [] [] [] [] [ls] [] []); try quiet | reflexivity].
    destruct H as [pages lss PG F | U].
    - eapply gives_just; [eapply (page_text_of_just E OD file fuel p OK W O); eassumption |]. cbn [flat_map]. rewrite app_nil_r.
      generalize (List.concat lss). intros ls. induction ls as [| t ls IH]; [reflexivity |].
      change (t ++ [x0a] ++ flat_map (view_of FText) (lines ls) = (t ++ [x0a]) ++ in_lines ls). rewrite IH. rewrite <- app_assoc. reflexivity.
    - unfold page_text_of, page_tree. fold rs. intros q w a q' K R. apply RawP.xbind_ok in R. destruct R as (w1 & a1 & q1 & w2 & R1 & R2 & ->). unfold xlift in R1. injection R1 as <- R1.
      unfold bind in R1. fold rs in R1. destruct (d_dict rs d (lit "Pages") q) as [[r q2]| |] eqn:D; try discriminate R1.
      destruct (dict_known_not E file fuel p W O _ _ U _ _ _ K D) as [-> _]. cbv beta iota in R1. unfold ret in R1. injection R1 as <- <-. cbv beta iota in R2. unfold xret in R2. injection R2 as <- _ _.
      exists [[]]. split; [apply Permutation_refl | reflexivity].
  Qed.

  (** addresses *)
  Lemma url_dec : forall fs u ok, answer E file p is_string [] (entry fs (lit "FS")) (u, ok) -> (bseq u (lit "URL") = true /\ is_url E file p fs) \/ (bseq u (lit "URL") = false /\ ~ is_url E file p fs).
  Proof.
    intros fs u ok A. destruct (bseq u (lit "URL")) eqn:Q.
    - left. split; [reflexivity |]. apply bseq_eq in Q. subst u. destruct A as [[T _] | [_ Z0]]; [exact T | discriminate].
    - right. split; [reflexivity |]. exact (proj1 (typed_not_url E file p _ _ _ A Q)).
  Qed.
  Notation gu := (gives _ _ (view_of FURLs) with_newline file p).
  Lemma file_url_gives : forall fs c l, file_urls E file p fs l -> gu (file_extract E rs fs c) l.
  Proof.
    intros fs c l H. unfold file_extract. eapply gives_string_any; [exact W | exact O |]. intros [u ok] A. destruct (url_dec _ _ _ A) as [[Q U] | [Q U]]; rewrite Q; destruct H as [l IU H | N]; try contradiction.
    - eapply gives_string; [exact W | exact O | exact H | |]; cbv beta iota; [| apply gives_ret]. intros f l' _ HO. unfold one in HO. subst l'. apply gives_out. reflexivity.
    - apply gives_none. repeat first [apply all_ret | apply all_lift | apply all_bind; [| intros [? []]] | apply all_bind; [| intros]
        | apply all_out; unfold dump_file, println, manifest_line; try (destruct c); repeat constructor].
  Qed.
  Lemma action_url_gives : forall a l, action_urls E file p a l -> gu (action_extract E rs a) l.
  Proof.
    intros a l (l1 & l2 & H1 & H2 & ->). unfold action_extract. eapply gives_about; [apply (name_got E file fuel p W O) |]. intros [s ok] _. cbv zeta.
    eapply gives_string_any; [exact W | exact O |]. intros [f ok1] A1. apply gives_bind.
    - destruct ok1; [apply xstill_out |]. apply xstill_bind; [apply xstill_lift, d_dict_still; intros; apply Resolve_still |]. intros [f' ok'].
      destruct ok'; [apply file_extract_still | apply xstill_ret].
    - destruct ok1.
      + assert (l1 = []) as ->. { destruct H1 as [fs l T _ | _]; [| reflexivity]. exfalso. destruct A1 as [[T1 _] | [_ Z0]]; [| discriminate Z0].
          eapply typed_untyped; [exact T | eapply string_no_dict; exact T1]. }
        apply gives_out. reflexivity.
      + eapply gives_dict; [exact W | exact O | exact H1 | |]; cbv beta iota; [intros fs l' _ HF; apply file_url_gives; exact HF | apply gives_ret].
    - intros _. eapply gives_dict; [exact W | exact O | exact H2 | |]; cbv beta iota; [intros fs l' _ HF; apply file_url_gives; exact HF | apply gives_ret].
  Qed.
  (** the steps of the loops over name trees *)
  Lemma el_dict_gives : forall B C (g : ev -> list B) (shown : C -> list B) D l i x (K : dict * bool -> X D) (R : dict -> list C -> Prop) L, element l i = Some x -> of_entry E file p is_dict R (Some x) L ->
    (forall a l, R a l -> gives _ _ g shown file p (K (a, true)) l) -> gives _ _ g shown file p (K ([], false)) [] -> gives _ _ g shown file p (xbind (xlift (a_dict rs l i)) K) L.
  Proof.
    intros B C g shown D l i x K R L Q H H1 H2. destruct H as [a l' T HR | U].
    - eapply gives_about; [eapply known_typed; [apply is_dict_fun | apply (el_dict_got E file fuel p W O) | rewrite Q; exact T] |]. intros r ->. apply H1. exact HR.
    - eapply gives_about; [eapply known_untyped; [apply (el_dict_got E file fuel p W O) | rewrite Q; exact U] |]. intros r ->. exact H2.
  Qed.
  Lemma el_string_gives : forall B C (g : ev -> list B) (shown : C -> list B) D l i x (K : bytes * bool -> X D) (R : bytes -> list C -> Prop) L0 L, element l i = Some x -> of_entry E file p is_string R (Some x) L0 ->
    (forall a l, typed E file p is_string (Some x) a -> R a l -> L0 = l -> gives _ _ g shown file p (K (a, true)) L) -> (untyped E file p is_string (Some x) -> L0 = [] -> gives _ _ g shown file p (K ([], false)) L) ->
    gives _ _ g shown file p (xbind (xlift (a_string rs l i)) K) L.
  Proof.
    intros B C g shown D l i x K R L0 L Q H H1 H2. destruct H as [a l' T HR | U].
    - eapply gives_about; [eapply known_typed; [apply is_string_fun | apply (el_string_got E file fuel p W O) | rewrite Q; exact T] |]. intros r ->. eapply H1; [exact T | exact HR | reflexivity].
    - eapply gives_about; [eapply known_untyped; [apply (el_string_got E file fuel p W O) | rewrite Q; exact U] |]. intros r ->. apply H2; [exact U | reflexivity].
  Qed.
  Lemma step_calm : forall l i (ok : bool) f, calm file (if ok then xout [manifest_line unknownHash f] else '(f, ok) <- xlift (a_dict rs l i) ;; if ok : bool then file_extract E rs f false else xret tt).
  Proof. intros l i ok f. destruct ok; [apply xstill_out |]. apply xstill_bind; [apply xstill_lift, (getters_stay fuel E file) |]. intros [f' ok']. destruct ok'; [apply file_extract_still | apply xstill_ret]. Qed.
  Lemma url_step : forall prs kx l j, nth_error prs j = Some kx -> of_entry E file p is_dict (file_urls E file p) (Some (snd kx)) l -> forall rest L, gu rest L ->
    gu (embedded_step E file fuel (flat prs) (1 + 2 * Z.of_nat j) rest) (l ++ L).
  Proof.
    intros prs kx l j N H rest L HL. destruct (flat_at _ _ _ N) as [_ Q]. unfold embedded_step. eapply gives_about; [apply (el_string_got E file fuel p W O) |]. intros [f ok] A.
    apply gives_bind; [apply step_calm | | intros _; exact HL]. destruct ok.
    - assert (l = []) as ->. { destruct H as [fs l T _ | _]; [| reflexivity]. exfalso. rewrite Q in A. destruct A as [[T1 _] | [_ Z0]]; [| discriminate Z0].
        eapply typed_untyped; [exact T | eapply string_no_dict; exact T1]. }
      apply gives_out. reflexivity.
    - eapply el_dict_gives; [exact Q | exact H | |]; cbv beta iota; [intros fs l' HF; apply file_url_gives; exact HF | apply gives_ret].
  Qed.
  Lemma url_gives : forall st d l, urls E file p d l -> gu (extract_here E OD rs fuel st d) l.
  Proof.
    intros st d l (l1 & l2 & l3 & l4 & (a1 & a2 & a3 & H1 & H2 & H3 & ->) & HE & HU & HT & ->).
    eapply gives_eq; [eapply (here_gives _ _ _ _ _ _ _ _ _ st d a1 a2 a3 [] l2 [] [] l3 l4); try quiet | cbn [app]; rewrite <- !app_assoc; reflexivity].
    - eapply action_at_gives; [exact W | exact O | exact action_url_gives | exact H1].
    - eapply action_at_gives; [exact W | exact O | exact action_url_gives | exact H2].
    - eapply additional_gives; [exact OK | exact W | exact O | exact action_url_gives | exact H3].
    - eapply embedded_gives; [exact W | exact O | | exact HE]. intros prs kx l j. apply url_step.
    - unfold uris. eapply gives_string_any; [exact W | exact O |]. intros [u ok] A. destruct ok.
      + assert (T : typed E file p is_string (entry d (lit "URI")) u) by (destruct A as [[T _] | [_ Z0]]; [exact T | discriminate]). destruct HU as [u0 [u' T' | b u' T' _] | N].
        * assert (u = u') by (eapply typed_det; [apply is_string_fun | exact T | exact T']). subst u'. apply gives_out. reflexivity.
        * exfalso. eapply typed_untyped; [exact T' | eapply string_no_dict; exact T].
        * exfalso. eapply N. apply ur_string. exact T.
      + assert (U : untyped E file p is_string (entry d (lit "URI"))) by (destruct A as [[_ Z0] | [U _]]; [discriminate | exact U]).
        eapply gives_dict_any; [exact W | exact O |]. intros [b ok'] A'. destruct ok'.
        * assert (T : typed E file p is_dict (entry d (lit "URI")) b) by (destruct A' as [[T _] | [_ Z0]]; [exact T | discriminate]).
          eapply gives_string_any; [exact W | exact O |]. intros [u2 ok2] A2. destruct ok2.
          -- assert (T2 : typed E file p is_string (entry b (lit "Base")) u2) by (destruct A2 as [[T2 _] | [_ Z0]]; [exact T2 | discriminate]). destruct HU as [u0 [u' T' | b' u' T' T3] | N].
             ++ exfalso. eapply typed_untyped; [exact T' | exact U].
             ++ assert (b = b') by (eapply typed_det; [apply is_dict_fun | exact T | exact T']). subst b'. assert (u2 = u') by (eapply typed_det; [apply is_string_fun | exact T2 | exact T3]). subst u'.
                apply gives_out. reflexivity.
             ++ exfalso. eapply N. eapply ur_base; eassumption.
          -- assert (l3 = []) as ->; [| apply gives_ret]. destruct HU as [u0 [u' T' | b' u' T' T3] | N]; [exfalso; eapply typed_untyped; [exact T' | exact U] | | reflexivity].
             exfalso. assert (b = b') by (eapply typed_det; [apply is_dict_fun | exact T | exact T']). subst b'. destruct A2 as [[_ Z0] | [U2 _]]; [discriminate | eapply typed_untyped; [exact T3 | exact U2]].
        * assert (l3 = []) as ->; [| apply gives_ret]. destruct HU as [u0 [u' T' | b' u' T' T3] | N]; [exfalso; eapply typed_untyped; [exact T' | exact U] | | reflexivity].
          exfalso. destruct A' as [[_ Z0] | [U2 _]]; [discriminate | eapply typed_untyped; [exact T' | exact U2]].
    - eapply urls_tree_gives; [exact W | exact O | | exact HT]. intros prs kx l j N H rest L HL. cbv beta in H. destruct (flat_at _ _ _ N) as [Q _]. unfold urls_step.
      eapply el_string_gives; [exact Q | exact H | |]; cbv beta iota.
      + intros u l' _ HO ->. unfold one in HO. subst l'. apply gives_bind; [apply xstill_out | apply gives_out; reflexivity | intros _; exact HL].
      + intros _ ->. apply gives_bind; [apply xstill_ret | apply gives_ret | intros _; exact HL].
  Qed.

  (** files *)
  Notation gf := (gives _ _ file_view (item_view E) file p).
  Lemma file_item_gives : forall fs c l, file_items E file p fs l -> gf (file_extract E rs fs c) l.
  Proof.
    intros fs c l H. unfold file_extract. eapply gives_string_any; [exact W | exact O |]. intros [u ok] A. destruct (url_dec _ _ _ A) as [[Q U] | [Q U]]; rewrite Q.
    - assert (l = []) as ->. { destruct H as [_ | ef name data N _ _ _ | f (_ & N & _) | N _ _]; try contradiction; [reflexivity |]. exfalso. exact (N _ U eq_refl). }
      apply gives_none. repeat first [apply all_ret | apply all_lift | apply all_bind; [| intros [? []]] | apply all_out; repeat constructor].
    - destruct H as [N | ef name data _ T TN S0 | f (TF & _ & U2) | _ U2 U3]; [contradiction | | |].
      + eapply gives_about; [apply (dict_known E file fuel p W O); exact T |]. intros r ->. cbv beta iota. eapply gives_about; [apply (stream_got E file fuel p W O) |]. intros [s ok2] A2.
        assert (stream_bytes s = data) as <-.
        { destruct A2 as [[_ R] | [Z0 N]]; cbn [fst snd] in *; destruct S0 as [R' | [N' ->]].
          - eapply referred_det; eassumption.
          - exfalso. destruct R as (n & g & o & X & _). eapply N'. exact X.
          - exfalso. destruct R' as (n & g & o & X & _). eapply N. exact X.
          - injection Z0 as -> _. reflexivity. }
        eapply gives_string_any; [exact W | exact O |]. intros [f ok3] A3.
        assert ((if ok3 then f else unknownHash) = name) as ->.
        { destruct A3 as [[T3 Z0] | [U3 Z0]]; cbn [fst snd] in *; destruct TN as [TN | [UN ->]].
          - subst ok3. eapply typed_det; [apply is_string_fun | exact T3 | exact TN].
          - exfalso. eapply typed_untyped; eassumption.
          - exfalso. eapply typed_untyped; eassumption.
          - injection Z0 as _ ->. reflexivity. }
        apply gives_out. reflexivity.
      + eapply gives_about; [apply (dict_known_not E file fuel p W O); exact U2 |]. intros r ->. cbv beta iota. eapply gives_string_any; [exact W | exact O |]. intros [par ok2] _. destruct ok2.
        * eapply gives_about; [apply (string_known E file fuel p W O); exact TF |]. intros r ->. apply gives_out. reflexivity.
        * eapply gives_about; [apply (string_known E file fuel p W O); exact TF |]. intros r ->. apply gives_out. destruct c; reflexivity.
      + eapply gives_about; [apply (dict_known_not E file fuel p W O); exact U2 |]. intros r ->. cbv beta iota. eapply gives_string_any; [exact W | exact O |]. intros [par ok2] _. destruct ok2.
        * eapply gives_about; [apply (string_known_not E file fuel p W O); exact U3 |]. intros r ->. apply gives_ret.
        * eapply gives_about; [apply (string_known_not E file fuel p W O); exact U3 |]. intros r ->. apply gives_ret.
  Qed.
  Lemma string_file : forall x f l1 l2, typed E file p is_string x f -> of_entry E file p is_string (fun f => one (Outside f)) x l1 -> of_entry E file p is_dict (file_items E file p) x l2 -> l1 ++ l2 = [Outside f].
  Proof.
    intros x f l1 l2 T H1 H2. destruct H2 as [fs l T2 _ | _]; [exfalso; eapply typed_untyped; [exact T2 | eapply string_no_dict; exact T] |]. rewrite app_nil_r.
    destruct H1 as [f' l T1 HO | U]; [| exfalso; eapply typed_untyped; eassumption]. assert (f' = f) by (eapply typed_det; [apply is_string_fun | exact T1 | exact T]). subst f'. exact HO.
  Qed.
  Lemma no_string_file : forall x l1, untyped E file p is_string x -> of_entry E file p is_string (fun f => one (Outside f)) x l1 -> l1 = [].
  Proof. intros x l1 U H. destruct H as [f l T _ | _]; [exfalso; eapply typed_untyped; eassumption | reflexivity]. Qed.
  Lemma action_item_gives : forall a l, action_items E file p a l -> gf (action_extract E rs a) l.
  Proof.
    intros a l (l1 & l2 & (b1 & b2 & HS & HD & ->) & H2 & ->). unfold action_extract. eapply gives_about; [apply (name_got E file fuel p W O) |]. intros [s ok] _. cbv zeta.
    eapply gives_string_any; [exact W | exact O |]. intros [f ok1] A1. apply gives_bind.
    - destruct ok1; [apply xstill_out |]. apply xstill_bind; [apply xstill_lift, d_dict_still; intros; apply Resolve_still |]. intros [f' ok'].
      destruct ok'; [apply file_extract_still | apply xstill_ret].
    - destruct ok1.
      + assert (T : typed E file p is_string (entry a (lit "F")) f) by (destruct A1 as [[T _] | [_ Z0]]; [exact T | discriminate]). rewrite (string_file _ _ _ _ T HS HD). apply gives_out. reflexivity.
      + assert (U : untyped E file p is_string (entry a (lit "F"))) by (destruct A1 as [[_ Z0] | [U _]]; [discriminate | exact U]). rewrite (no_string_file _ _ U HS). cbn [app].
        eapply gives_dict; [exact W | exact O | exact HD | |]; cbv beta iota; [intros fs l' _ HF; apply file_item_gives; exact HF | apply gives_ret].
    - intros _. eapply gives_dict; [exact W | exact O | exact H2 | |]; cbv beta iota; [intros fs l' _ HF; apply file_item_gives; exact HF | apply gives_ret].
  Qed.
  Lemma item_step : forall prs kx l j, nth_error prs j = Some kx -> spec_items E file p (Some (snd kx)) l -> forall rest L, gf rest L ->
    gf (embedded_step E file fuel (flat prs) (1 + 2 * Z.of_nat j) rest) (l ++ L).
  Proof.
    intros prs kx l j N (b1 & b2 & HS & HD & ->) rest L HL. destruct (flat_at _ _ _ N) as [_ Q]. unfold embedded_step. eapply gives_about; [apply (el_string_got E file fuel p W O) |]. intros [f ok] A. rewrite Q in A.
    apply gives_bind; [apply step_calm | | intros _; exact HL]. destruct ok.
    - assert (T : typed E file p is_string (Some (snd kx)) f) by (destruct A as [[T _] | [_ Z0]]; [exact T | discriminate]). rewrite (string_file _ _ _ _ T HS HD). apply gives_out. reflexivity.
    - assert (U : untyped E file p is_string (Some (snd kx))) by (destruct A as [[_ Z0] | [U _]]; [discriminate | exact U]). rewrite (no_string_file _ _ U HS). cbn [app].
      eapply el_dict_gives; [exact Q | exact HD | |]; cbv beta iota; [intros fs l' HF; apply file_item_gives; exact HF | apply gives_ret].
  Qed.
  Lemma form_gives : forall d l, form_items E file p d l -> gf (forms E rs d) l.
  Proof.
    intros d l H. unfold forms. eapply gives_about; [apply (stream_got E file fuel p W O) |]. intros [s ok] A. destruct H as [data R | a data N T J | N U].
    - destruct A as [[Z0 R'] | [_ N]]; cbn [fst snd] in *; [subst ok | exfalso; destruct R as (n & g & o & X & _); eapply N; exact X]. rewrite (referred_det E file p _ _ _ R R'). apply gives_out. reflexivity.
    - assert (ok = false) as -> by (destruct A as [[_ (n & g & o & X & _)] | [Z0 _]]; [exfalso; eapply N; exact X | injection Z0 as _ ->; reflexivity]). cbv iota.
      eapply gives_about; [eapply known_typed; [apply is_array_fun | apply (array_got E file fuel p W O) | exact T] |]. intros r ->. cbv beta iota.
      eapply gives_about; [apply (xfa_got E file fuel p W O a (List.length a) 0 []); [reflexivity | constructor] |]. intros data' J'. rewrite (joined_det E file p _ _ _ J J'). apply gives_out. reflexivity.
    - assert (ok = false) as -> by (destruct A as [[_ (n & g & o & X & _)] | [Z0 _]]; [exfalso; eapply N; exact X | injection Z0 as _ ->; reflexivity]). cbv iota.
      eapply gives_about; [eapply known_untyped; [apply (array_got E file fuel p W O) | exact U] |]. intros r ->. apply gives_ret.
  Qed.
  Lemma item_gives : forall st d l, items_of E file p d l -> gf (extract_here E OD rs fuel st d) l.
  Proof.
    intros st d l (l1 & l2 & l3 & (a1 & a2 & a3 & H1 & H2 & H3 & ->) & HF & HE & ->).
    eapply gives_eq; [eapply (here_gives _ _ _ _ _ _ _ _ _ st d a1 a2 a3 l2 l3 [] [] [] []); try quiet | cbn [app]; rewrite <- !app_assoc, app_nil_r; reflexivity].
    - eapply action_at_gives; [exact W | exact O | exact action_item_gives | exact H1].
    - eapply action_at_gives; [exact W | exact O | exact action_item_gives | exact H2].
    - eapply additional_gives; [exact OK | exact W | exact O | exact action_item_gives | exact H3].
    - apply form_gives. exact HF.
    - eapply embedded_gives; [exact W | exact O | | exact HE]. intros prs kx l j. apply item_step.
  Qed.
End Views.

(** ** The whole run *)
Lemma in_order : forall E file p OD objs, order_ok OD -> NoDup (map fst (pxref p)) -> all_objects E file p objs ->
  exists objs', Permutation objs objs' /\ Forall2 (fun kv no => fst kv = fst no) (filter (fun kv => x_type (snd kv) =? 1) (o_xref OD (pxref p))) objs'.
Proof.
  intros E file p OD objs OK N (NO & IN & _). pose proof (proj2 (proj2 OK) (pxref p)) as PX. set (l := filter (fun kv => x_type (snd kv) =? 1) (o_xref OD (pxref p))).
  assert (NX : NoDup (map fst (o_xref OD (pxref p)))) by (eapply Permutation_NoDup; [apply Permutation_map; exact PX | exact N]).
  assert (NL : NoDup (map fst l)).
  { unfold l. clear -NX. induction (o_xref OD (pxref p)) as [| [k e] m IH]; [constructor |]. cbn [map fst filter snd] in *. inversion NX; subst.
    destruct (x_type e =? 1); [| apply IH; assumption]. cbn [map fst]. constructor; [| apply IH; assumption].
    intros I. apply H1. apply in_map_iff in I. destruct I as (kv & Q & I). apply filter_In in I. apply in_map_iff. exists kv. tauto. }
  assert (PE : Permutation (map fst l) (map fst objs)).
  { apply NoDup_Permutation; [exact NL | exact NO |]. intros n. rewrite IN. split.
    - intros I. apply in_map_iff in I. destruct I as ([k e] & Q & I). cbn [fst] in Q. subst k. apply filter_In in I. destruct I as [I T]. cbn [snd] in T.
      apply Z.eqb_eq in T. exists e. split; [| exact T]. apply (In_mget Z.eqb Zeqb_ok); [exact N |]. eapply Permutation_in; [apply Permutation_sym; exact PX | exact I].
    - intros (e & X & T). apply in_map_iff. exists (n, e). split; [reflexivity |]. apply filter_In. split; [| cbn [snd]; apply Z.eqb_eq; exact T].
      eapply Permutation_in; [exact PX |]. apply (BaseP.mget_In Z.eqb Zeqb_ok). exact X. }
  destruct (Permutation_map_inv _ _ PE) as (objs' & Q & PO). exists objs'. split; [exact PO |]. clear -Q. revert objs' Q. induction l as [| kv l IH]; intros [| no objs'] Q; try discriminate Q; constructor.
  - injection Q as Q _. exact Q.
  - apply IH. injection Q as _ Q. exact Q.
Qed.
Lemma content_view : forall f w, content f (map OpEv w) = flat_map (view_of f) w.
Proof. intros f w. unfold content. rewrite map_map, flat_map_concat_map. reflexivity. Qed.
Lemma dumps_app : forall a b, dumps (a ++ b) = dumps a ++ dumps b.
Proof. induction a as [| o a IH]; intros b; [reflexivity |]. cbn [app dumps]. rewrite IH. destruct o; try reflexivity. match goal with e : ev |- _ => destruct e end; reflexivity. Qed.
Lemma dumps_silent : forall l, (forall e, ~ In (OpEv e) l) -> dumps l = [].
Proof. induction l as [| o l IH]; intros H; [reflexivity |]. cbn [dumps]. rewrite IH by (intros e I; apply (H e); right; exact I). destruct o; try reflexivity. exfalso. apply (H e). left. reflexivity. Qed.

Section Run.
  Variables (E : env) (OD : order) (fuel : nat) (S : sys) (pw : bytes) (ops : list op) (file : bytes) (p : pst) (objs : list (Z * iobj)).
  Hypothesis OK : order_ok OD.
  Hypothesis I : s_input S = Some file.
  Hypothesis P : parse E OD fuel S pw = (ops, Ok PNone).
  Hypothesis L : load fuel E (o_objects OD) file pw (new_parser file) = Ok (None, p).
  Hypothesis Of : offsets_ok (pxref p).
  Hypothesis AO : all_objects E file p objs.
  Lemma exact_reads : reads file p.
  Proof. apply (tidy_load file fuel E (o_objects OD) pw (new_parser file) None p (new_sound file) L). Qed.
  Lemma exact_run : forall B C (g : ev -> list B) (shown : C -> list B) (U : dict -> list C -> Prop) Ls,
    (forall st d l, U d l -> gives _ _ g shown file p (extract_here E OD (Resolve fuel E file) fuel st d) l) -> (forall b, g (EWrite FRaw b) = []) ->
    Forall2 U (dictionaries objs) Ls -> exists w, shows_all _ _ shown (List.concat Ls) (flat_map g w) /\ (forall f, content f ops = flat_map (view_of f) w) /\ dumps ops = dumps (map OpEv w).
  Proof.
    intros B C g shown U Ls HU HR F. assert (SP : sound file p) by (eapply tidy_load; [apply new_sound | exact L]). destruct SP as [W N].
    pose proof (parse_ok _ _ _ _ _ _ P) as (file' & p1 & w & u & q & I' & L1 & X & CO). assert (file' = file) by congruence. subst file'. assert (p1 = p) by congruence. subst p1.
    exists w. split; [| split; [intros f; rewrite CO; apply content_view |]].
    - destruct (in_order E file p OD objs OK N AO) as (objs' & PO & FO).
      assert (PD : Permutation (dictionaries objs) (dictionaries objs')) by (unfold dictionaries; apply Permutation_flat_map; exact PO).
      destruct (perm_forall2 _ _ _ _ _ PD _ F) as (Ls' & PL & F').
      destruct (all_give _ _ g shown E OD file fuel p OK Of U HU HR _ objs' Ls' FO) with (q := p) (w := w) (u := u) (q' := q) as (L' & PE & Q); try assumption.
      + apply Forall_forall. intros no J. apply (proj1 (Forall_forall _ _) (proj2 (proj2 AO))). eapply Permutation_in; [apply Permutation_sym; exact PO | exact J].
      + apply (kept_refl' _ _ W).
      + exists L'. split; [| exact Q]. eapply Permutation_trans; [exact PE |]. apply perm_concat, Permutation_sym. exact PL.
    - pose proof P as P'. unfold parse in P'. rewrite I in P'. pose proof (new_output_ops S) as NO. destruct (new_output S) as [[ops1 opened] ok]. cbn [fst] in NO. destruct ok; [| discriminate].
      destruct (parse_body E OD fuel file pw (new_parser file)) as [w' [[[e' |] q0]| |]] eqn:B0; try discriminate.
      destruct (body_ok _ _ _ _ _ _ _ _ _ B0) as (p2 & L2 & Y & _). assert (p2 = p) by congruence. subst p2. destruct (Y eq_refl) as (u2 & Z0). assert (w' = w) by congruence. subst w'.
      assert (Q : ops = ops1 ++ map OpEv w ++ close_output opened) by congruence. rewrite Q, !dumps_app, (dumps_silent ops1), (dumps_silent (close_output opened)), app_nil_r; [reflexivity | |].
      + intros e J. destruct (close_ops _ _ J) as (f & QQ & _). discriminate QQ.
      + intros e J. destruct (NO _ J) as [QQ | [QQ | (f & QQ)]]; discriminate QQ.
  Qed.
  Lemma in_lines_view : forall l, flat_map with_newline l = in_lines l.
  Proof. intros l. unfold in_lines. rewrite flat_map_concat_map. reflexivity. Qed.
  Lemma exact_scripts : forall lss, Forall2 (scripts E file p) (dictionaries objs) lss -> exists l, Permutation l (List.concat lss) /\ content FJavascript ops = in_lines l.
  Proof.
    intros lss F. destruct (exact_run _ _ _ _ _ _ (script_gives E OD file fuel p exact_reads Of) (fun _ => eq_refl) F) as (w & (l & PL & Q) & CO & _).
    exists l. split; [exact PL |]. rewrite CO, Q. apply in_lines_view.
  Qed.
  Lemma exact_urls : forall lss, Forall2 (urls E file p) (dictionaries objs) lss -> exists l, Permutation l (List.concat lss) /\ content FURLs ops = in_lines l.
  Proof.
    intros lss F. destruct (exact_run _ _ _ _ _ _ (url_gives E OD file fuel p OK exact_reads Of) (fun _ => eq_refl) F) as (w & (l & PL & Q) & CO & _).
    exists l. split; [exact PL |]. rewrite CO, Q. apply in_lines_view.
  Qed.
  Lemma exact_text : forall lss, Forall2 (texts E file p) (dictionaries objs) lss -> exists lss', Permutation lss' lss /\ content FText ops = in_lines (List.concat lss').
  Proof.
    intros lss F. set (U := fun d (l : list (list bytes)) => exists ls, texts E file p d ls /\ l = [ls]).
    assert (FU : Forall2 U (dictionaries objs) (map (fun x => [x]) lss)).
    { clear -F. induction F as [| d ls ds lss H F IH]; constructor; [exists ls; split; [exact H | reflexivity] | exact IH]. }
    destruct (exact_run _ _ (view_of FText) in_lines U (map (fun x => [x]) lss)) as (w & (l & PL & Q) & CO & _); [| reflexivity | exact FU |].
    - intros st d l (ls & H & ->). apply text_gives; [exact OK | exact exact_reads | exact Of | exact H].
    - exists l. split.
      + eapply Permutation_trans; [exact PL |]. replace (List.concat (map (fun x => [x]) lss)) with lss; [apply Permutation_refl |]. clear. induction lss as [| x l IH]; [reflexivity |]. cbn. rewrite <- IH. reflexivity.
      + rewrite CO, Q. clear. induction l as [| x l IH]; [reflexivity |]. cbn [flat_map List.concat]. rewrite IH. unfold in_lines. rewrite map_app, concat_app. reflexivity.
  Qed.
  Lemma concat_filled : forall A (l : list (list A)), List.concat l = List.concat (filter (fun x => match x with [] => false | _ => true end) l).
  Proof. intros A l. induction l as [| [| a x] l IH]; cbn [List.concat filter app]; [reflexivity | exact IH | rewrite IH; reflexivity]. Qed.
  Lemma filter_perm : forall A (f : A -> bool) l l', Permutation l l' -> Permutation (filter f l) (filter f l').
  Proof.
    intros A f l l' PE. induction PE as [| x l l' PE IH | x y l | l l1 l2 P1 IH1 P2 IH2]; cbn [filter]; [constructor | destruct (f x); [constructor |]; exact IH | | eapply Permutation_trans; eassumption].
    destruct (f x), (f y); try apply Permutation_refl. constructor.
  Qed.
  Lemma filled_none : forall A (l : list (list A)), Forall (fun x => x = []) l -> filter (fun x => match x with [] => false | _ => true end) l = [].
  Proof. intros A l H. induction H as [| x l -> H IH]; [reflexivity | exact IH]. Qed.
  Lemma exact_one_text : forall a ls b, Forall2 (texts E file p) (dictionaries objs) (a ++ ls :: b) -> Forall (fun x => x = []) a -> Forall (fun x => x = []) b -> content FText ops = in_lines ls.
  Proof.
    intros a ls b F FA FB. destruct (exact_text _ F) as (lss' & PE & ->). f_equal. rewrite concat_filled.
    pose proof (filter_perm _ (fun x => match x with [] => false | _ => true end) _ _ PE) as PF. rewrite filter_app in PF. cbn [filter] in PF.
    rewrite (filled_none _ a FA), (filled_none _ b FB) in PF. cbn [app] in PF. destruct ls as [| t ls].
    - apply Permutation_sym, Permutation_nil in PF. rewrite PF. reflexivity.
    - apply Permutation_sym, Permutation_length_1_inv in PF. rewrite PF. cbn [List.concat]. apply app_nil_r.
  Qed.
  Lemma exact_items : forall lss, Forall2 (items_of E file p) (dictionaries objs) lss -> exists l ts, Permutation l (List.concat lss) /\
    Forall2 (item_line (e_md5 E)) l ts /\ content FFiles ops = List.concat ts /\ Forall2 (fun data nd => hexed (e_md5 E data) (fst nd) /\ snd nd = data) (insides l) (dumps ops).
  Proof.
    intros lss F. destruct (exact_run _ _ _ _ _ _ (item_gives E OD file fuel p OK exact_reads Of) (fun _ => eq_refl) F) as (w & (l & PL & Q) & CO & DU).
    exists l, (map (fun i => match i with Inside n d => hex_encode (e_md5 E d) ++ lit ":" ++ n ++ [x0a] | Outside n => zeros ++ lit ":" ++ n ++ [x0a] end) l).
    assert (C1 : flat_map (view_of FFiles) w = flat_map (view_of FFiles) (flat_map file_view w)).
    { clear. induction w as [| e w IH]; [reflexivity |]. cbn [flat_map]. rewrite flat_map_app, <- IH. destruct e as [[] b | n b]; cbn [file_view flat_map]; rewrite ?app_nil_r; reflexivity. }
    assert (C2 : dumps (map OpEv w) = dumps (map OpEv (flat_map file_view w))).
    { clear. induction w as [| e w IH]; [reflexivity |]. cbn [flat_map map]. rewrite map_app, dumps_app, <- IH. destruct e as [[] b | n b]; reflexivity. }
    split; [exact PL |]. split; [| split].
    - clear. induction l as [| [n d | n] l IH]; cbn [map]; constructor; try exact IH; constructor. apply hexed_hash.
    - rewrite CO, C1, Q. clear. induction l as [| [n d | n] l IH]; [reflexivity | |]; cbn [flat_map map List.concat]; rewrite flat_map_app, IH; f_equal; apply app_nil_r.
    - rewrite DU, C2, Q. clear. induction l as [| [n d | n] l IH]; [constructor | |]; cbn [flat_map insides]; rewrite map_app, dumps_app.
      + cbn [item_view dump_file map dumps manifest_line app]. constructor; [split; [apply hexed_hash | reflexivity] | exact IH].
      + exact IH.
  Qed.
End Run.
