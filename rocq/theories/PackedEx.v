(** PackedEx.v -- a document whose open action is kept in an object stream. *)
From Verif Require Import Base BaseP Msg Reader ReaderP Num Lexer Obj ReadObj Env Getters Crypt Stream GetObj Xref Load Extract Output Parse SpecLex SpecLexP SpecObj SpecRead ReadEx StreamEx XrefEx SpecFetch SpecOut OutEx SpecPacked PackedP.
From Coq Require Import Strings.String.

Definition pk_doc : bytes :=
  lit "1 0 obj<</Type/Catalog/OpenAction 5 0 R>> endobj 2 0 obj<</Type/ObjStm/N 1/First 4>>stream" ++
  x0a :: lit "5 0 <</S/JavaScript/JS(evil)>>" ++ x0a :: lit "endstream endobj 3 0 obj<</Type/XRef/Size 6/W[1 1 1]/Root 1 0 R/Filter/ASCIIHexDecode>>stream" ++
  x0a :: lit "0000ff010000013100018b00000000020200" ++ x0a :: lit "endstream endobj startxref 139 %%EOF".
Definition pk_p : pst := match load 20 E1 (fun l => l) pk_doc [] (new_parser pk_doc) with Ok (_, p) => p | _ => nothing end.
Definition pk_action : obj := ODict [(lit "S", OName (lit "JavaScript")); (lit "JS", OStr (lit "evil"))].
Definition pk_S : sys := mksys (Some pk_doc) (fun _ => true) StatNotExist.
Definition pk_d : dict := [(lit "Type", OName (lit "ObjStm")); (lit "N", ONum (num_of_Z 1)); (lit "First", ONum (num_of_Z 4))].
Definition pk_data : bytes := lit "5 0 <</S/JavaScript/JS(evil)>>".
Definition pk_ops : list op := fst (parse E1 OD1 20 pk_S []).

Lemma pk_load : load 20 E1 (o_objects OD1) pk_doc [] (new_parser pk_doc) = Ok (None, pk_p).
Proof. vm_compute. reflexivity. Qed.
Lemma pk_run : parse E1 OD1 20 pk_S [] = (pk_ops, Ok PNone).
Proof. vm_compute. reflexivity. Qed.
Lemma pk_text : obj_text (lit "<</S/JavaScript/JS(evil)>>") pk_action.
Proof.
  apply (ot_dict (lit "/S/JavaScript/JS(evil)") [(lit "S", OName (lit "JavaScript")); (lit "JS", OStr (lit "evil"))]); [| keys]. cbn [flatten].
  apply (cons0 (lit "/S")); [nm | | right; delim_end]. apply (cons0 (lit "/JavaScript")); [nm | | right; delim_end].
  apply (cons0 (lit "/JS")); [nm | | right; delim_end]. apply (cons0 (lit "(evil)")); [| apply nil0 | left; exact I].
  apply (ot_str (lit "evil")). vm_compute. repeat (apply sb_plain; [discriminate | discriminate | discriminate | discriminate |]). apply sb_nil.
Qed.
Lemma pk_packed : packed pk_d pk_data 0 5 pk_action.
Proof.
  exists (lit "5 0 "), 4, [(5, 0)], 0, (lit "<</S/JavaScript/JS(evil)>>"), [].
  split; [left; reflexivity |]. split; [right; left; reflexivity |]. split; [right; right; left; reflexivity |].
  split; [reflexivity |]. split; [reflexivity |]. split.
  { apply (hd_cons [] (lit "5") 5 (lit " ") (lit "0") 0 (lit " ") []); [apply gap_nil | nat_lit | gaps | discriminate | nat_lit | delim_end | apply hd_nil; gaps]. }
  split; [reflexivity |]. split; [reflexivity |]. split; [apply pk_text | exact I].
Qed.
Lemma pk_compressed : compressed E1 pk_doc pk_p 5 pk_action.
Proof.
  exists (new_xentry 2 0 2), 0%nat, {| inum := 2; igen := 0; ival := ODict pk_d; istream := Some pk_data |}, pk_d, pk_data.
  split; [vm_compute; reflexivity |]. split; [reflexivity |]. split; [reflexivity |]. split.
  { exists 9%nat. eexists. vm_compute. reflexivity. }
  split; [reflexivity |]. split; [reflexivity | apply pk_packed].
Qed.
Lemma pk_offsets : offsets_ok (pxref pk_p).
Proof.
  intros n e H T. unfold xget in H. remember (pxref pk_p) as x eqn:Q. vm_compute in Q. subst x. cbn [mget] in H.
  repeat match type of H with (if ?c then _ else _) = _ => destruct c; [injection H as <-; cbn; lia|] end. discriminate.
Qed.
Lemma compressed_refuted : exists E OD fuel S pw ops file p n v, order_ok OD /\ parse E OD fuel S pw = (ops, Ok PNone) /\ s_input S = Some file /\
  load fuel E (o_objects OD) file pw (new_parser file) = Ok (None, p) /\ compressed E file p n v /\
  v = ODict [(lit "S", OName (lit "JavaScript")); (lit "JS", OStr (lit "evil"))] /\ (forall o, fetched E file p n o -> ival o <> v) /\
  content FJavascript ops = [].
Proof.
  exists E1, OD1, 20%nat, pk_S, [], pk_ops, pk_doc, pk_p, 5, pk_action. split; [exact OD1_ok |]. split; [exact pk_run |]. split; [reflexivity |]. split; [exact pk_load |].
  split; [exact pk_compressed |]. split; [reflexivity |]. split; [| vm_compute; reflexivity].
  apply compressed_lost; [exact pk_compressed | discriminate].
Qed.
Lemma C104_ex : order_ok OD1 /\ parse E1 OD1 20 pk_S [] = (pk_ops, Ok PNone) /\ s_input pk_S = Some pk_doc /\
  load 20 E1 (o_objects OD1) pk_doc [] (new_parser pk_doc) = Ok (None, pk_p) /\ offsets_ok (pxref pk_p) /\ compressed E1 pk_doc pk_p 5 pk_action.
Proof. exact (conj OD1_ok (conj pk_run (conj eq_refl (conj pk_load (conj pk_offsets pk_compressed))))). Qed.
