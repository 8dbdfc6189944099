(** ScriptEx.v -- witnesses for PropScript.v. *)
From Verif Require Import Base BaseP Msg Reader ReaderP Num Lexer Obj ReadObj Env Getters Crypt GetObj Load Tree Output Parse SpecRead SpecLook SpecTree
  FetchP LookP SecurityP FetchEx SpecFetch SpecOut TreeEx RawP ExtractP OutEx SpecForm SpecScript.
From Coq Require Import Strings.String.

(** A script in UTF-16BE and one in ASCII. *)
Definition coded : bytes := lit "1 0 obj<</S/JavaScript/JS<FEFF0067006F>>> endobj 2 0 obj<</S/JavaScript/JS(run)>> endobj ".
Definition S16 : sys := mksys (Some coded) (fun _ => true) StatNotExist.
Definition p16 : pst := match load 20 E1 (fun l => l) coded [] (new_parser coded) with Ok (_, p) => p | _ => nothing end.
Definition ops16 : list op := fst (parse E1 OD1 20 S16 []).
Definition wide : bytes := [xfe; xff; x00; "g"%byte; x00; "o"%byte].
Definition js16 : dict := [(lit "S", OName (lit "JavaScript")); (lit "JS", OStr wide)].
Definition js17 : dict := [(lit "S", OName (lit "JavaScript")); (lit "JS", OStr (lit "run"))].
Lemma coded_parse : parse E1 OD1 20 S16 [] = (ops16, Ok PNone). Proof. vm_compute. reflexivity. Qed.
Lemma coded_load : load 20 E1 (o_objects OD1) coded [] (new_parser coded) = Ok (None, p16). Proof. vm_compute. reflexivity. Qed.
Lemma coded_offsets : offsets_ok (pxref p16).
Proof. intros n e X T. assert (I : In (n, e) (pxref p16)) by (eapply BaseP.mget_In; [exact Z.eqb_eq | exact X]). vm_compute in I. destruct I as [I | [I | []]]; injection I as <- <-; cbn; lia. Qed.
Lemma wide_text : text_string wide [103; 111].
Proof. apply ts_utf16. apply (u16_one x00 "g"%byte); [intros Q; vm_compute in Q; intuition discriminate |]. apply (u16_one x00 "o"%byte); [intros Q; vm_compute in Q; intuition discriminate | apply u16_nil]. Qed.
Lemma script_refuted : exists E OD fuel S pw ops file p n o d h s us, order_ok OD /\ s_input S = Some file /\ parse E OD fuel S pw = (ops, Ok PNone) /\
  load fuel E (o_objects OD) file pw (new_parser file) = Ok (None, p) /\ offsets_ok (pxref p) /\ in_use p n /\ fetched E file p n o /\ ival o = ODict d /\ holds (ODict d) h /\
  script_of E file p h s /\ text_string s us /\ flat_map utf8 us = lit "go" /\ ~ In (OpEv (EWrite FJavascript (flat_map utf8 us ++ [x0a]))) ops /\
  In (OpEv (EWrite FJavascript ([xfe; xff; x00; "g"%byte; x00; "o"%byte] ++ [x0a]))) ops.
Proof.
  exists E1, OD1, 20%nat, S16, [], ops16, coded, p16, 1, (plain 1 (ODict js16)), js16, js16, wide, [103; 111].
  split; [apply OD1_ok |]. split; [reflexivity |]. split; [exact coded_parse |]. split; [exact coded_load |]. split; [exact coded_offsets |].
  split; [used |]. split; [fetch9 |]. split; [reflexivity |]. split; [apply hd_here |]. split; [apply sc_string; direct |]. split; [exact wide_text |]. split; [reflexivity |].
  split; [| vm_compute; tauto]. intros H. unfold ops16 in H. remember (fst (parse E1 OD1 20 S16 [])) as l eqn:Q. vm_compute in Q. subst l.
  repeat (destruct H as [H | H]; [try discriminate H; vm_compute in H; discriminate H |]). exact H.
Qed.
Lemma C124_ex : order_ok OD1 /\ s_input S16 = Some coded /\ parse E1 OD1 20 S16 [] = (ops16, Ok PNone) /\
  load 20 E1 (o_objects OD1) coded [] (new_parser coded) = Ok (None, p16) /\ offsets_ok (pxref p16) /\ in_use p16 2 /\ fetched E1 coded p16 2 (plain 2 (ODict js17)) /\
  holds (ODict js17) js17 /\ script_of E1 coded p16 js17 (lit "run") /\ text_string (lit "run") [114; 117; 110] /\ (forall r, lit "run" <> xfe :: xff :: r).
Proof.
  split; [apply OD1_ok |]. split; [reflexivity |]. split; [exact coded_parse |]. split; [exact coded_load |]. split; [exact coded_offsets |].
  split; [used |]. split; [fetch9 |]. split; [apply hd_here |]. split; [apply sc_string; direct |]. split; [| discriminate].
  apply (ts_ascii (lit "run")). intros b [<- | [<- | [<- | []]]]; unfold ascii_char; do 3 right; vm_compute; split; congruence.
Qed.
