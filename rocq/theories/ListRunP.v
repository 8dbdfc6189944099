(** ListRunP.v -- Parse returns for documents that are lists of objects, puts out
    each object once and reports nothing (C100). *)
From Verif Require Import Base BaseP Msg Reader ReaderP Num Obj ReadObj Env Getters Crypt GetObj GetObjP Load Extract Output Render Parse Errors SpecRead SpecFetch FetchP RawP LoadMonoP SpecOut SpecRecover OrderP RecoverP ErrorsP SpecPage
  SpecObj SpecStream SpecWrite SpecFollow TotalP WriteP WriteDocP WriteLoadP WriteOutP WriteRunP SpecUpdate UpdateOutP SpecSeal SealP SpecXWrite XWriteP XOutP SpecXSeal XSealP SpecXUpdate XUpdateOutP SpecUSeal USealP SpecWrong WrongP SpecXUSeal XUSealP SpecLinear LinearOutP SpecList ListP.
From Coq Require Import Strings.String Sorting.Permutation.

Lemma stored_loads : forall E file pw D, stored E file pw D -> forall ord, (forall m, Permutation (ord m) m) -> exists F p, load F E ord file pw (new_parser file) = Ok (None, p).
Proof.
  intros E file pw D ST ord P. inversion ST as [D0 tr pw0 GD | rs pw0 GU | D0 C tr pr pw0 M SD | D0 xs d data pw0 GX | D0 C xs d data pr pw0 M SX | rs pw0 GX | rs cs pr pw0 M SX | Ds cs pr pw0 M SX | J D0 l tr off K0 pw0 WD | lx pw0 GLx]; subst.
  - destruct (document_loaded E D0 tr GD 2 ord pw (le_n _) P) as (p & L & _). eauto.
  - destruct (updates_found E rs GU (2 + List.length rs) ord pw ltac:(lia) ltac:(lia) P) as (p & L & _). eauto.
  - destruct (sealed_loaded E D C tr pr pw M SD ord P) as (F & H). destruct (H F (le_n _)) as (p & L & _). eauto.
  - destruct (x_loaded E D0 xs d data GX (gx_plain _ _ _ _ _ GX)) as (F & H). destruct (H F ord pw (le_n _) P) as (p & L & _). eauto.
  - destruct (xsealed_loads E D0 C xs d data pr pw M SX ord P) as (F & H). destruct (H F (le_n _)) as (p & L & _). eauto.
  - destruct (xu_loaded E rs GX) as (F & H). destruct (H F ord pw (le_n _) P) as (p & L & _). eauto.
  - destruct (usealed_loads E rs cs pr pw M SX ord P) as (F & H). destruct (H F (le_n _)) as (p & L & _). eauto.
  - destruct (xusealed_loads E Ds cs pr pw M SX ord P) as (F & H). destruct (H F (le_n _)) as (p & L & _). eauto.
  - destruct (wrong_loads E J D0 l tr off K0 WD ord pw P) as (p & L). eauto.
  - destruct (linear_found E lx GLx 2 ord pw (le_n _) P) as (p & L & _). eauto.
Qed.
Lemma stored_return : forall E file pw D OD S, stored E file pw D -> direct_kids D -> moderate_maps D -> order_ok OD -> e_verbose E <> None ->
  s_input S = Some file -> (forall f, s_create S f = true) ->
  exists F, forall fuel, (F <= fuel)%nat -> exists ops, parse E OD fuel S pw = (ops, Ok PNone).
Proof.
  intros E file pw D OD S ST DK MM OK V IN CR. pose proof (fun m => Permutation_sym (proj1 (proj2 OK) m)) as P. destruct (stored_loads E file pw D ST (o_objects OD) P) as (f0 & p & L).
  destruct (stored_found E file pw D ST _ _ _ P L) as (W & OF & ND & FD0 & IU). pose proof (fun o I => proj1 (FD0 o I)) as FD. pose proof (held_null E file D p IU) as FN.
  apply (parse_returns E OD S pw file p f0); try assumption.
  - intros n. destruct (found_all E file p D W OF (fun o => o) (fun o => or_introl eq_refl) FD FN n) as (o & T & _). eauto.
  - apply (follow_names E file p D W OF (fun o => o) (fun o => or_introl eq_refl) FD FN DK).
  - apply (follow_maps E file p D W OF (fun o => o) (fun o => or_introl eq_refl) FD FN MM).
Qed.
Lemma stored_raw : forall E OD fuel S pw ops file D, stored E file pw D -> order_ok OD -> s_input S = Some file -> parse E OD fuel S pw = (ops, Ok PNone) ->
  exists L ts, Permutation L D /\ Forall2 (written_object (e_fmt E)) L ts /\ content FRaw ops = List.concat (map (fun t => t ++ [x0a]) ts).
Proof.
  intros E OD fuel S pw ops file D ST OK IN H. destruct (parse_raw _ _ _ _ _ _ OK H) as (file' & p1 & IN' & L & _). assert (file' = file) by congruence. subst file'.
  destruct (stored_found E file pw D ST _ _ _ (fun m => Permutation_sym (proj1 (proj2 OK) m)) L) as (W & OF & ND & FD & IU).
  destruct (held_out E file D p1 (fun o => o) OF ND (fun o => eq_refl) FD IU OD fuel S pw ops OK IN L H) as (l & ts & PE & WR & CT). exists l, ts. rewrite map_id in PE. auto.
Qed.
Lemma stored_errors : forall E OD fuel pw w p file D, stored E file pw D -> order_ok OD -> parse_body E OD fuel file pw (new_parser file) = (w, Ok (None, p)) -> errors_txt p = [].
Proof.
  intros E OD fuel pw w p file D ST OK H. pose proof (fun m => Permutation_sym (proj1 (proj2 OK) m)) as P. inversion ST as [D0 tr pw0 GD | rs pw0 GU | D0 C tr pr pw0 M SD | D0 xs d data pw0 GX | D0 C xs d data pr pw0 M SX | rs pw0 GX | rs cs pr pw0 M SX | Ds cs pr pw0 M SX | J D0 l tr off K0 pw0 WD | lx pw0 GLx]; subst.
  - destruct (body_ok _ _ _ _ _ _ _ _ _ H) as (p1 & L & X & _). destruct (X eq_refl) as (u & Y).
    destruct (document_loaded E D0 tr GD 2 (o_objects OD) pw (le_n _) P) as (p' & L' & W & LG & SH & TR & OF & XG & IU). pose proof (load_det _ _ _ _ _ _ _ _ _ L L') as Q. assert (p' = p1) by congruence. subst p'. clear Q L'.
    unfold errors_txt. rewrite (all_hushed E OD fuel (w_document D0 tr) p1 OK) with (l := o_xref OD (pxref p1)) (w := w) (u := u); [rewrite LG; reflexivity | | exact W | exact Y]. apply plain_hushed; [exact SH |].
    intros n e XE TY. destruct (IU n) as (o & I & <-); [exists e; auto |]. destruct (place_of D0 o I) as (k & K). rewrite (XG k o K) in XE. injection XE as <-.
    destruct (as_written_num o) as [A1 A2]. exists (as_written o). split; [apply object_readable; exact (written_at E D0 tr k o GD K) | split; [exact A1 | exact A2]].
  - destruct (body_ok _ _ _ _ _ _ _ _ _ H) as (p1 & L & X & _). destruct (X eq_refl) as (u & Y).
    destruct (updates_found E rs GU (2 + List.length rs) (o_objects OD) pw ltac:(lia) ltac:(lia) P) as (p' & L' & W & LG & SH & T1 & T2 & OF & ND & XG & IU). pose proof (load_det _ _ _ _ _ _ _ _ _ L L') as Q. assert (p' = p1) by congruence. subst p'.
    unfold errors_txt. rewrite (found_silent E (w_updated rs) (living rs) p1 W SH XG IU OD fuel _ _ _ _ OK Y), LG. reflexivity.
  - eapply sealed_errors; eassumption.
  - eapply xdocument_errors; eassumption.
  - eapply xsealed_errors; eassumption.
  - eapply xupdates_errors; eassumption.
  - eapply usealed_errors; eassumption.
  - eapply xusealed_errors; eassumption.
  - eapply wrong_errors; eassumption.
  - eapply linear_errors; eassumption.
Qed.
(** ** Bytes behind a document (C115) *)
Lemma before_stored : forall E D tr K pw, good_document D tr -> quiet_end K -> stored E (w_before D tr K) pw (map as_written D).
Proof. intros E D tr K pw GD QE. rewrite before_is. apply st_wrong, before_wrong; assumption. Qed.
Lemma before_raw : forall E D tr K OD fuel S pw ops, good_document D tr -> quiet_end K -> order_ok OD -> s_input S = Some (w_before D tr K) -> parse E OD fuel S pw = (ops, Ok PNone) ->
  exists L ts, Permutation L (map as_written D) /\ Forall2 (written_object (e_fmt E)) L ts /\ content FRaw ops = List.concat (map (fun t => t ++ [x0a]) ts).
Proof. intros E D tr K OD fuel S pw ops GD QE. exact (stored_raw E OD fuel S pw ops _ _ (before_stored E D tr K pw GD QE)). Qed.
