(** WrongRunP.v -- Parse returns for documents with wrong offsets (C114) and with bytes
    behind them (C115). *)
From Verif Require Import Base BaseP Msg Reader ReaderP Num NumP Lexer Plain LexerP Obj ReadObj Bits Filters Env Getters Crypt GetObj GetObjP Regex Xref Load Extract Output Render Parse Errors
  SpecLex SpecLexP SpecObj SpecObjP SpecFilters SpecRead SpecFetch SpecLook SpecStream SpecScan FetchP LookP RawP SpecTree SpecOut SpecSource SpecText SpecPage SpecPages SpecContents SpecTotal TotalP TreeP
  RecoverP SpecWrong WriteRunP WrongP SpecWrite SpecFollow WriteP WriteDocP WriteLoadP WriteOutP.
From Coq Require Import Strings.String Sorting.Permutation.

Lemma wrong_return : forall E J D l tr off K0 OD S pw, wrong_document J D l tr off K0 -> direct_kids D -> moderate_maps D -> order_ok OD -> e_verbose E <> None ->
  s_input S = Some (w_wrong J D l tr off K0) -> (forall f, s_create S f = true) ->
  exists F, forall fuel, (F <= fuel)%nat -> exists ops, parse E OD fuel S pw = (ops, Ok PNone).
Proof.
  intros E J D l tr off K0 OD S pw [LW HL] DK MM OK V IN CR. pose proof (fun m => Permutation_sym (proj1 (proj2 OK) m)) as P. set (file := w_wrong J D l tr off K0) in *.
  destruct (wrong_read E J D l tr off K0 LW 2 (o_objects OD) pw (le_n _) P) as (p & L & FD0 & FN & _). fold file in L, FD0, FN.
  assert (FD : forall o, In o D -> fetched E file p (inum o) (as_written o)) by (intros o I; apply FD0; [exact I | intros k; apply HL]).
  destruct (wrong_state E J D l tr off K0 (Build_wrong_document _ _ _ _ _ _ LW HL) 2 (o_objects OD) pw p P L) as (W & OF & _). fold file in W.
  apply (parse_returns E OD S pw file p 2); try assumption.
  - intros n. destruct (found_all E file p D W OF as_written (fun o => or_intror eq_refl) FD FN n) as (o & T & _). eauto.
  - apply (follow_names E file p D W OF as_written (fun o => or_intror eq_refl) FD FN DK).
  - apply (follow_maps E file p D W OF as_written (fun o => or_intror eq_refl) FD FN MM).
Qed.
Lemma before_return : forall E D tr K OD S pw, good_document D tr -> quiet_end K -> direct_kids D -> moderate_maps D -> order_ok OD -> e_verbose E <> None ->
  s_input S = Some (w_before D tr K) -> (forall f, s_create S f = true) ->
  exists F, forall fuel, (F <= fuel)%nat -> exists ops, parse E OD fuel S pw = (ops, Ok PNone).
Proof. intros E D tr K OD S pw GD QE DK MM OK V IN CR. rewrite before_is in IN. eapply wrong_return; try eassumption. apply before_wrong; assumption. Qed.
Lemma before_errors : forall E D tr K OD fuel pw w p, good_document D tr -> quiet_end K -> order_ok OD ->
  parse_body E OD fuel (w_before D tr K) pw (new_parser (w_before D tr K)) = (w, Ok (None, p)) -> errors_txt p = [].
Proof. intros E D tr K OD fuel pw w p GD QE OK. rewrite before_is. apply wrong_errors; [apply before_wrong; assumption | exact OK]. Qed.
