(** RawReadP.v -- reading the objects of raw.pdf again. *)
From Verif Require Import Base BaseP Msg Reader ReaderP Num Lexer LexerP Obj ReadObj Env Getters Crypt GetObj GetObjP Load Output Render Parse SpecLex SpecLexP SpecObj SpecObjP
  SpecNumP SpecRead SpecFetch SpecLook SpecOut SpecStream StreamP StreamObjP CryptObjP ReadP OutP RawP SpecRaw.
From Coq Require Import Strings.String Sorting.Permutation.

(** ** Numbers *)
Lemma digit_of_dec : forall v c, digit_of v c -> decdigit c (Z.to_nat v).
Proof.
  intros v c [R Q]. unfold decdigit, digit.
  assert (C : v = 0 \/ v = 1 \/ v = 2 \/ v = 3 \/ v = 4 \/ v = 5 \/ v = 6 \/ v = 7 \/ v = 8 \/ v = 9) by lia.
  destruct C as [-> | [-> | [-> | [-> | [-> | [-> | [-> | [-> | [-> | ->]]]]]]]]]; destruct c; try discriminate Q; reflexivity.
Qed.
Lemma dec_digits_app : forall a x b y, dec_digits a x -> dec_digits b y -> dec_digits (a ++ b) (x ++ y).
Proof. intros a x b y A B. induction A; cbn; [exact B | constructor; assumption]. Qed.
Lemma natural_text : forall v t, natural v t -> 0 <= v /\ nat_text t v.
Proof.
  intros v t H. induction H as [v c D | v t d c H [P (ds & DD & N & V)] L D].
  - split; [apply D |]. exists [Z.to_nat v]. split; [constructor; [apply digit_of_dec; exact D | constructor] |]. split; [discriminate |].
    unfold dec_value. cbn [fold_left]. rewrite Z2Nat.id by (apply D). lia.
  - split; [destruct D; lia |]. exists (ds ++ [Z.to_nat d]). split; [apply dec_digits_app; [exact DD |]; constructor; [apply digit_of_dec; exact D | constructor] |].
    split; [destruct ds; discriminate |]. unfold dec_value in *. rewrite fold_left_app. cbn [fold_left]. rewrite V, Z2Nat.id by (apply D). lia.
Qed.
Lemma decimal_text : forall z t, decimal z t -> int_text t z /\ (z = 0 -> nat_text t 0) /\ (0 <= z -> nat_text t z).
Proof.
  intros z t H. inversion H as [v u N | v u N P]; subst.
  - destruct (natural_text _ _ N) as [Q T]. split; [apply it_plain; exact T |]. split; [intros ->; exact T | intros _; exact T].
  - destruct (natural_text _ _ N) as [Q T]. split; [apply it_minus; exact T |]. split; [intros ?; lia | intros ?; lia].
Qed.

(** ** Strings and names *)
Lemma plain_string_body : forall v, plain_string v -> str_body v v 0.
Proof.
  intros v H. induction H as [| b v N C H IH | v w H1 I1 H2 I2]; [constructor | |].
  - apply sb_plain; [intros -> | intros -> | intros -> | exact C | exact IH]; apply N; cbn; auto.
  - exact (sb_nested _ _ 0 _ _ 0 I1 I2).
Qed.
Lemma plain_name_body : forall v, plain_name v -> name_body v v 0.
Proof.
  induction v as [| b v IH]; intros H; [constructor |]. destruct (H b (or_introl eq_refl)) as [R N]. apply nb_char; [exact R | exact N |].
  apply IH. intros c I. apply H. right; exact I.
Qed.

Lemma space_gap : gap (lit " ").
Proof. apply gap_ws; [cbn; tauto | constructor]. Qed.
Lemma lf_gap : gap [x0a].
Proof. apply gap_ws; [cbn; tauto | constructor]. Qed.
Lemma space_ends : forall r, ends_token (lit " " ++ r).
Proof. intros r. right. exists " "%byte, r. split; [reflexivity |]. left. cbn. tauto. Qed.
Lemma lf_ends : forall r, ends_token (x0a :: r).
Proof. intros r. right. exists x0a, r. split; [reflexivity |]. left. cbn. tauto. Qed.
Lemma slash_ends : forall r, ends_token ("/"%byte :: r).
Proof. intros r. right. exists "/"%byte, r. split; [reflexivity |]. right. cbn. tauto. Qed.

(** ** The text of a printable object denotes it *)
Definition denotes (t : bytes) (o : obj) : Prop := exists o', alike o o' /\ obj_text t o'.


Lemma items_gap : forall g t l, gap g -> items t l -> items (g ++ t) l.
Proof.
  intros g t l G H. inversion H as [g' G' | g' t' o r l' G' T R E]; subst.
  - apply it_nil. apply gap_app; assumption.
  - replace (g ++ g' ++ t' ++ r) with ((g ++ g') ++ t' ++ r) by (rewrite <- List.app_assoc; reflexivity). apply it_cons; [apply gap_app; assumption | exact T | exact R | exact E].
Qed.
Lemma spaced_items : forall l ts, Forall2 (fun t o => obj_text t o) ts l -> items (spaced ts) l.
Proof.
  intros l ts H. induction H as [| t o ts l T H IH]; [apply it_nil; constructor |].
  destruct ts as [| u ts].
  - cbn [spaced]. inversion H; subst. rewrite <- (List.app_nil_r t). apply (it_cons [] t o [] []); [constructor | exact T | apply it_nil; constructor | right; left; reflexivity].
  - change (spaced (t :: u :: ts)) with ([] ++ t ++ (lit " " ++ spaced (u :: ts))).
    apply it_cons; [constructor | exact T | apply items_gap; [exact space_gap | exact IH] | right; apply space_ends].
Qed.
Lemma entries_items : forall kvs ts, Forall2 (fun t (kv : bytes * obj) => exists t', plain_name (fst kv) /\ obj_text t' (snd kv) /\ t = lit "/" ++ fst kv ++ lit " " ++ t') ts kvs ->
  items (List.concat ts) (flatten kvs) /\ ends_token (List.concat ts).
Proof.
  intros kvs ts H. induction H as [| t [k v] ts kvs (t' & N & T & ->) H [IH IE]]; [split; [apply it_nil; constructor | left; reflexivity] |].
  cbn [List.concat flatten fst snd] in *. split; [| apply slash_ends].
  replace ((lit "/" ++ k ++ lit " " ++ t') ++ List.concat ts) with ([] ++ ("/"%byte :: k) ++ (lit " " ++ t' ++ List.concat ts)) by (cbn [app lit]; repeat rewrite <- app_assoc; reflexivity).
  apply it_cons; [constructor | apply ot_name, plain_name_body, N | | right; apply space_ends].
  apply it_cons; [exact space_gap | exact T | exact IH | right; exact IE].
Qed.
Lemma al_refl_keys : forall d d1, Forall2 (fun x y : bytes * obj => fst x = fst y /\ alike (snd x) (snd y)) d d1 -> map fst d = map fst d1.
Proof. intros d d1 H. induction H as [| x y d d1 [Q _] H IH]; [reflexivity |]. cbn. congruence. Qed.

Lemma array_denotes : forall fmt l ts, Forall2 (written fmt) l ts -> Forall (fun o => forall t, written fmt o t -> printable o -> denotes t o) l -> Forall printable l ->
  exists l', Forall2 alike l l' /\ Forall2 (fun t o => obj_text t o) ts l'.
Proof.
  intros fmt l ts H. induction H as [| o t l ts W H IH]; intros A P; [exists []; split; constructor |].
  inversion A; subst. inversion P; subst. destruct IH as (l' & F & G); [assumption | assumption |].
  destruct (H2 _ W H4) as (o' & Q & T). exists (o' :: l'). split; constructor; assumption.
Qed.
Lemma dict_denotes : forall fmt (d : list (bytes * obj)) ts, Forall2 (fun kv t => exists t', written fmt (snd kv) t' /\ t = lit "/" ++ fst kv ++ lit " " ++ t') d ts ->
  Forall (fun o => forall t, written fmt o t -> printable o -> denotes t o) (map snd d) -> Forall (fun kv => plain_name (fst kv) /\ printable (snd kv)) d ->
  exists d1, Forall2 (fun x y => fst x = fst y /\ alike (snd x) (snd y)) d d1 /\
    Forall2 (fun t (kv : bytes * obj) => exists t', plain_name (fst kv) /\ obj_text t' (snd kv) /\ t = lit "/" ++ fst kv ++ lit " " ++ t') ts d1.
Proof.
  intros fmt d ts H. induction H as [| kv t d ts (t' & W & Q) H IH]; intros A P; [exists []; split; constructor |].
  cbn [map] in A. inversion A; subst. inversion P as [| x y [P1 P2] P3]; subst. destruct IH as (d1 & F & G); [assumption | assumption |].
  destruct (H2 _ W P2) as (o' & Q & T). exists ((fst kv, o') :: d1). split; [constructor; [split; [reflexivity | exact Q] | exact F] |].
  constructor; [| exact G]. exists t'. split; [exact P1 |]. split; [exact T | reflexivity].
Qed.
Lemma written_denotes : forall fmt, fmt_ok fmt -> forall o t, written fmt o t -> printable o -> denotes t o.
Proof.
  intros fmt FM o. induction o as [v | v | v | v | n g | l IH | d IH] using obj_nested_ind; intros t W P.
  - inversion W; subst. inversion P; subst. destruct (decimal_text _ _ (FM z H0)) as (A & B & _). eexists. split; [constructor |]. apply ot_int; assumption.
  - inversion W; subst. inversion P; subst. eexists. split; [constructor |]. apply ot_str. apply plain_string_body. assumption.
  - inversion W; subst. inversion P; subst. eexists. split; [constructor |]. apply ot_name. apply plain_name_body. assumption.
  - inversion W; subst. inversion P; subst. eexists. split; [constructor |]. apply ot_kw; assumption.
  - inversion W as [| | | | n' g' tn tg Dn Dg | |]; subst. inversion P; subst. eexists. split; [constructor |].
    apply (ot_ref tn n (lit " ") tg g (lit " ")); [apply (decimal_text _ _ Dn); lia | lia | exact space_gap | discriminate | apply (decimal_text _ _ Dg); lia | lia | exact space_gap | discriminate].
  - inversion W as [| | | | | l' ts F |]; subst. inversion P; subst. destruct (array_denotes _ _ _ F IH H0) as (l' & A & T).
    exists (OArr l'). split; [constructor; exact A |]. apply ot_arr. apply spaced_items. exact T.
  - inversion W as [| | | | | | d' ts ts' F PM]; subst. inversion P; subst. destruct (dict_denotes _ _ _ F IH H1) as (d1 & A & T).
    destruct (Permutation_Forall2 PM T) as (d2 & PD & T2).
    exists (ODict d2). split; [eapply al_dict; [exact A | exact PD] |]. apply ot_dict; [apply entries_items; exact T2 |].
    eapply Permutation_NoDup; [apply Permutation_map; exact PD |]. rewrite <- (al_refl_keys _ _ A). assumption.
Qed.

(** ** Fetching it *)
Lemma no_gap_e : forall r g t, gap g -> g ++ t = "e"%byte :: r -> g = [].
Proof.
  intros r g t G Q. inversion G as [| b g' W G' | c eol g' A B C]; subst; [reflexivity | |]; cbn [app] in Q.
  - injection Q as -> _. cbn in W. exfalso. repeat (destruct W as [W | W]; [discriminate |]). exact W.
  - discriminate.
Qed.
Lemma nat_text_first : forall t n b r u, nat_text t n -> t ++ u = b :: r -> exists d, decdigit b d.
Proof.
  intros t n b r u H Q. destruct (nat_text_cons _ _ H) as (c & d & t' & ds & -> & D & _). cbn [app] in Q. injection Q as -> _. exists d. exact D.
Qed.
Lemma not_digit : forall b d, ~ In b (lit "0123456789") -> ~ decdigit b d.
Proof. intros b d N D. apply N. eapply nth_error_In. exact D. Qed.
Lemma endobj_no_ref : forall r n r', ~ ref_tail (x0a :: lit "endobj" ++ r) n r'.
Proof.
  intros r n r' H. remember (x0a :: lit "endobj" ++ r) as t0 eqn:Q. destruct H as [g1 t n g2 r0 G1 T G2 EN].
  inversion G1 as [| b g' W G' | c eol g' A B C]; subst; cbn [app] in Q.
  - destruct (nat_text_first _ _ _ _ _ T Q) as [d D]. revert D. apply not_digit. cbn. intuition discriminate.
  - injection Q as -> Q. pose proof (no_gap_e _ _ _ G' Q) as Z0. subst g'. cbn [app] in Q.
    destruct (nat_text_first _ _ _ _ _ T Q) as [d D]. revert D. apply not_digit. cbn. intuition discriminate.
  - discriminate.
Qed.
Lemma endobj_follows : forall o r, may_follow o (x0a :: lit "endobj" ++ r).
Proof.
  intros o r. destruct o; cbn; try exact I; try apply lf_ends. split; [apply lf_ends | apply endobj_no_ref].
Qed.
Lemma head_ok : forall n g tn tg, decimal n tn -> decimal g tg -> 0 <= n -> 0 <= g -> object_head (tn ++ lit " " ++ tg ++ lit " obj") n g.
Proof.
  intros n g tn tg Dn Dg Ln Lg. exact (oh_intro [] tn n (lit " ") tg g (lit " ") gap_nil (proj2 (proj2 (decimal_text _ _ Dn)) Ln) space_gap ltac:(discriminate) (proj2 (proj2 (decimal_text _ _ Dg)) Lg) space_gap).
Qed.

Lemma value_again : forall E raw off o t r, fmt_ok (e_fmt E) -> written_object (e_fmt E) o t -> printable (ival o) -> istream o = None ->
  0 <= inum o -> 0 <= igen o -> 0 <= off -> zdrop off raw = t ++ x0a :: r ->
  forall p e, reads raw p -> xget (inum o) (pxref p) = Some e -> points e (igen o) off ->
    exists o', fetched E raw p (inum o) o' /\ same_object o o'.
Proof.
  intros E raw off o t r FM (tn & tg & v & Dn & Dg & W & ->) P N Ln Lg Lo Z0 p e R X (T & G & O & C).
  destruct (written_denotes _ FM _ _ W P) as (o' & A & OT).
  destruct (plain_object E raw p (inum o) e (tn ++ lit " " ++ tg ++ lit " obj") (inum o) (igen o) [x0a] v o' [x0a] (x0a :: x0a :: r) (fun s => s)) with (fuel := 0%nat) as (p' & Q & _);
    [exact R | exact X | exact T | lia | apply head_ok; assumption | exact lf_gap | exact OT | exact lf_gap | apply lf_ends | apply endobj_follows | apply lf_ends | | |].
  - rewrite O, Z0, N. cbn [stream_text]. repeat rewrite <- List.app_assoc. reflexivity.
  - intros s. rewrite C. reflexivity.
  - rewrite map_strings_id in Q. eexists. split; [exists 1%nat; eexists; exact Q |]. unfold same_object. cbn. auto.
Qed.

Lemma stream_again : forall E raw off o data t r, fmt_ok (e_fmt E) -> written_object (e_fmt E) o t -> printable (ival o) -> istream o = Some data -> plain_stream (e_fmt E) o data ->
  0 <= inum o -> 0 <= igen o -> 0 <= off -> zdrop off raw = t ++ x0a :: r ->
  forall p e, reads raw p -> xget (inum o) (pxref p) = Some e -> points e (igen o) off ->
    exists o', fetched E raw p (inum o) o' /\ same_object o o'.
Proof.
  intros E raw off o data t r FM (tn & tg & v & Dn & Dg & W & ->) P N (d & Q & NF & NP & SZ & NE & NC) Ln Lg Lo Z0 p e R X (T & G & O & C).
  destruct (written_denotes _ FM _ _ W P) as (o' & A & OT). rewrite Q in A, W. inversion A as [| | | | | | d0 d1 d2 F PM]; subst.
  assert (K : forall k, ~ In k (map fst d) -> key_of k d2 None).
  { intros k NI I. apply NI. rewrite (al_refl_keys _ _ F). eapply Permutation_in; [apply Permutation_map, Permutation_sym, PM | exact I]. }
  destruct (stream_object E raw p (inum o) e (tn ++ lit " " ++ tg ++ lit " obj") (inum o) (igen o) [x0a] v d2 d2 [x0a] [] [x0a] data [x0a] (x0a :: lit "endobj" ++ x0a :: x0a :: r)
    (fun s => s) data [] [] CFNone [] [] (Some data)) as (f0 & H);
    [exact R | exact X | exact T | lia | apply head_ok; assumption | exact lf_gap | exact OT | exact lf_gap | intros b [] | apply lf_ends | constructor | exact NE | apply ea_lf; exact NC | | | | | | | | | |].
  - rewrite Z0, N. cbn [stream_text]. repeat rewrite <- List.app_assoc. reflexivity.
  - specialize (SZ _ _ _ W Dn Dg). unfold bufsize. repeat rewrite zlen_app. change (zlen (lit " ")) with 1. change (zlen (lit " obj")) with 4. change (zlen [x0a]) with 1. change (zlen (lit "stream")) with 6. change (zlen (@nil byte)) with 0. lia.
  - intros s. rewrite C. reflexivity.
  - apply map_strings_id.
  - apply fo_none. apply K. exact NF.
  - apply po_none. apply K. exact NP.
  - rewrite C. constructor.
  - reflexivity.
  - constructor.
  - destruct (H f0 (le_n f0)) as (p' & Y & _). eexists. split; [exists f0; eexists; exact Y |]. unfold same_object. cbn. rewrite Q, N. auto.
Qed.

(** ** The file raw.pdf *)
Lemma listed_at : forall (R : Z * iobj -> bytes -> Prop) objs ts n o, Forall2 R objs ts -> In (n, o) objs ->
  exists t off r, R (n, o) t /\ 0 <= off /\ zdrop off (List.concat (map (fun t => t ++ [x0a]) ts)) = t ++ x0a :: r.
Proof.
  intros R objs ts n o H I. induction H as [| x t objs ts X H IH]; [contradiction |]. cbn [map List.concat]. destruct I as [-> | I].
  - exists t, 0, (List.concat (map (fun t => t ++ [x0a]) ts)). split; [exact X |]. split; [lia |]. rewrite zdrop_skipn by lia. cbn. rewrite <- List.app_assoc. reflexivity.
  - destruct (IH I) as (u & off & r & A & B & C). exists u, (zlen (t ++ [x0a]) + off), r. split; [exact A |]. pose proof (zlen_nonneg _ (t ++ [x0a])). split; [lia |].
    rewrite <- zdrop_zdrop by lia. rewrite zdrop_app. exact C.
Qed.

Definition reread (E : env) (OD : order) (fuel : nat) (S : sys) (pw : bytes) (ops : list op) (ok : iobj -> Prop) : Prop :=
  exists file p1, s_input S = Some file /\ load fuel E (o_objects OD) file pw (new_parser file) = Ok (None, p1) /\
    forall n, in_use p1 n -> exists q o, kept file p1 q /\ fetched E file q n o /\ inum o = n /\
      (0 <= n -> 0 <= igen o -> printable (ival o) -> ok o -> read_again E (content FRaw ops) o).
Lemma raw_reread : forall E OD fuel S pw ops (ok : iobj -> Prop), order_ok OD -> fmt_ok (e_fmt E) -> parse E OD fuel S pw = (ops, Ok PNone) ->
  (forall o, ok o -> istream o = None \/ exists data, istream o = Some data /\ plain_stream (e_fmt E) o data) ->
  reread E OD fuel S pw ops ok.
Proof.
  intros E OD fuel S pw ops ok OK FM H KO. destruct (parse_raw _ _ _ _ _ _ OK H) as (file & p1 & I & L & objs & ts & ND & IN & FF & F2 & RW).
  exists file, p1. split; [exact I |]. split; [exact L |]. intros n U. apply IN in U. apply in_map_iff in U. destruct U as ([n' o] & Q & U). cbn in Q. subst n'.
  rewrite Forall_forall in FF. destruct (FF _ U) as (N & q & K & F). cbn [fst snd] in N, K, F. exists q, o. split; [exact K |]. split; [exact F |]. split; [exact N |].
  intros Ln Lg P O. destruct (listed_at _ _ _ _ _ F2 U) as (t & off & r & W & Lo & Z0). cbn [snd] in W. rewrite <- RW in Z0.
  exists off. split.
  { split; [exact Lo |]. pose proof (zdrop_len _ off (content FRaw ops) Lo) as LN. rewrite Z0, zlen_app in LN. unfold zlen in LN at 2. cbn [List.length] in LN. pose proof (zlen_nonneg _ t). lia. }
  intros p e R X Pe. destruct (KO _ O) as [N0 | (data & N0 & PS)].
  - eapply value_again; eauto. lia.
  - eapply stream_again; eauto. lia.
Qed.
