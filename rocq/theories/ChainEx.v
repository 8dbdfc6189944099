(** ChainEx.v -- a witness for PropChain.v. *)
From Verif Require Import Base BaseP Msg Reader ReaderP Num Lexer Obj ReadObj Env Getters Crypt GetObj Load Tree Output Parse SpecRead SpecLook SpecTree
  FetchP LookP SecurityP FetchEx Md5 SpecFetch SpecOut TreeEx RawP ExtractP OutEx SpecSource SourceP AttachP SourceEx SpecChain.
From Coq Require Import Strings.String.

(** A launch action, then two more actions in an array with an object of its
    own: a script, and behind that script an address. *)
Definition links : bytes := lit "1 0 obj<</A<</S/Launch/F<</F(one)>>/Next 2 0 R>>>> endobj 2 0 obj[3 0 R] endobj 3 0 obj<</S/JavaScript/JS(go)/Next<</S/URI/URI(http://u)>>>> endobj ".
Definition S15 : sys := mksys (Some links) (fun _ => true) StatNotExist.
Definition p15 : pst := match load 20 E1 (fun l => l) links [] (new_parser links) with Ok (_, p) => p | _ => nothing end.
Definition ops15 : list op := fst (parse E1 OD1 20 S15 []).
Definition uri15 : dict := [(lit "S", OName (lit "URI")); (lit "URI", OStr (lit "http://u"))].
Definition js15 : dict := [(lit "S", OName (lit "JavaScript")); (lit "JS", OStr (lit "go")); (lit "Next", ODict uri15)].
Definition act15 : dict := [(lit "S", OName (lit "Launch")); (lit "F", ODict [(lit "F", OStr (lit "one"))]); (lit "Next", ref 2)].
Lemma C70_ex : order_ok OD1 /\ s_input S15 = Some links /\ parse E1 OD1 20 S15 [] = (ops15, Ok PNone) /\
  load 20 E1 (o_objects OD1) links [] (new_parser links) = Ok (None, p15) /\ offsets_ok (pxref p15) /\
  of_document E1 links p15 [(lit "A", ODict act15)] /\ action_of E1 links p15 [(lit "A", ODict act15)] act15 /\
  chained E1 links p15 act15 js15 /\ script_of E1 links p15 js15 (lit "go") /\ chained E1 links p15 act15 uri15 /\ uri_of E1 links p15 uri15 (lit "http://u").
Proof.
  split; [apply OD1_ok |]. split; [reflexivity |]. split; [vm_compute; reflexivity |]. split; [vm_compute; reflexivity |]. split.
  { intros n e X T. assert (I : In (n, e) (pxref p15)) by (eapply BaseP.mget_In; [exact Z.eqb_eq | exact X]). vm_compute in I. destruct I as [I | [I | [I | []]]]; injection I as <- <-; cbn; lia. }
  split; [docd 1 [(lit "A", ODict act15)]; apply hd_here |]. split; [apply ac_a; direct |].
  assert (J : chained E1 links p15 act15 js15).
  { apply (cn_array E1 links p15 act15 act15 [ref 3] (ref 3) js15); [apply cn_here | indirect | left; reflexivity | indirect | right; exists 3, 0; reflexivity]. }
  split; [exact J |]. split; [apply sc_string; direct |]. split; [apply (cn_dict _ _ _ _ js15); [exact J | direct] | apply ur_string; direct].
Qed.
