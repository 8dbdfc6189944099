(** IndirectEx.v -- witnesses for PropIndirect.v. *)
From Verif Require Import Base BaseP Msg Reader ReaderP Num NumP Lexer Obj ReadObj Bits Filters Regex RegexP Env Getters Crypt Stream GetObj Load Tree Output Render Parse SpecLex SpecLexP SpecObj SpecRead
  SpecLook ReadEx SpecFetch FetchP FetchEx SpecStream StreamEx SpecScan XrefEx TextEx SpecRecover RecoverP RecoverEx SpecOut TreeEx RawP LoadInvP OutEx SpecIndirect.
From Coq Require Import Strings.String.

(** A stream (1) with its list of filters in another object (2), the first
    filter in a third (3), and parameters (4). *)
Definition spread : bytes := lit "1 0 obj<</Filter 2 0 R/DecodeParms 4 0 R>>stream" ++ x0a :: lit "0261626380>" ++ x0a ::
  lit "endstream endobj 2 0 obj[3 0 R/RunLengthDecode]endobj 3 0 obj/ASCIIHexDecode endobj 4 0 obj<<>>endobj ".
Definition p14 : pst := match load 20 E1 (o_objects OD1) spread [] (new_parser spread) with Ok (_, p) => p | _ => nothing end.
Definition d14 : dict := [(lit "Filter", ORef 2 0); (lit "DecodeParms", ORef 4 0)].
Definition e14 : xentry := match xget 1 (pxref p14) with Some e => e | None => new_xentry 0 0 0 end.
Definition data14 : bytes := lit "0261626380>".
Lemma dict14 : obj_text (lit "<</Filter 2 0 R/DecodeParms 4 0 R>>") (ODict d14).
Proof.
  apply (ot_dict (lit "/Filter 2 0 R/DecodeParms 4 0 R") d14); [| constructor; [intros [Q | []]; discriminate Q | constructor; [intros [] | constructor]]].
  apply (cons0 (lit "/Filter")); [nm | | right; delim_end]. apply (it_cons (lit " ") (lit "2 0 R") (ORef 2 0)); [gaps | | | right; delim_end].
  { apply (ot_ref (lit "2") 2 (lit " ") (lit "0") 0 (lit " ")); [nat_lit | lia | gaps | discriminate | nat_lit | lia | gaps | discriminate]. }
  apply (cons0 (lit "/DecodeParms")); [nm | | right; delim_end]. apply (it_cons (lit " ") (lit "4 0 R") (ORef 4 0) [] []); [gaps | | apply nil0 | right; apply end0].
  apply (ot_ref (lit "4") 4 (lit " ") (lit "0") 0 (lit " ")); [nat_lit | lia | gaps | discriminate | nat_lit | lia | gaps | discriminate].
Qed.
Ltac through := eexists; split; [apply v_ref; fetch9 | reflexivity].
Definition fl14 : list obj := [ORef 3 0; OName (lit "RunLengthDecode")].
Lemma C123_ex : reads spread p14 /\ offsets_ok (pxref p14) /\ xget 1 (pxref p14) = Some e14 /\ x_type e14 = 1 /\ object_head (lit "1 0 obj") 1 0 /\
  obj_text (lit "<</Filter 2 0 R/DecodeParms 4 0 R>>") (ODict d14) /\ eol_before [x0a] (data14 ++ [x0a] ++ lit "endstream" ++ zdrop 70 spread) /\
  ~ occurs (lit "endstream") data14 /\ eol_after data14 [x0a] /\
  zdrop (x_off e14) spread = lit "1 0 obj" ++ [] ++ lit "<</Filter 2 0 R/DecodeParms 4 0 R>>" ++ [] ++ lit "stream" ++ [x0a] ++ data14 ++ [x0a] ++ lit "endstream" ++ zdrop 70 spread /\
  (forall s, new_decryptor E1 (if x_enc e14 then sh_string (psh p14) else CFNone) 1 (x_gen e14) s = Ok s) /\ map_strings (fun s => s) (ODict d14) = ODict d14 /\
  refers d14 (lit "Filter") /\ filters_through E1 spread p14 d14 fl14 /\ parms_through E1 spread p14 d14 [ODict []] /\
  crypt_through E1 spread p14 (psh p14) d14 fl14 (x_enc e14) CFNone /\ new_decryptor E1 CFNone 1 (x_gen e14) data14 = Ok data14 /\ decoded_through E1 spread p14 fl14 [ODict []] (Some data14) (Some (lit "abc")).
Proof.
  assert (L : load 20 E1 (o_objects OD1) spread [] (new_parser spread) = Ok (None, p14)) by (vm_compute; reflexivity).
  split; [exact (proj1 (tidy_load spread 20 E1 (o_objects OD1) [] _ _ _ (new_sound spread) L)) |]. split.
  { intros n e X T. assert (I : In (n, e) (pxref p14)) by (eapply BaseP.mget_In; [exact Z.eqb_eq | exact X]). vm_compute in I. destruct I as [I | [I | [I | [I | []]]]]; injection I as <- <-; cbn; lia. }
  split; [vm_compute; reflexivity |]. split; [vm_compute; reflexivity |]. split.
  { apply (oh_intro [] (lit "1") 1 (lit " ") (lit "0") 0 (lit " ")); [gaps | nat_lit | gaps | discriminate | nat_lit | gaps]. }
  split; [exact dict14 |]. split; [apply eb_lf |]. split; [apply occurs_check; vm_compute; reflexivity |]. split; [apply ea_lf; last_byte |]. split; [vm_compute; reflexivity |].
  split; [intros s; reflexivity |]. split; [reflexivity |].
  split; [exists 2, 0; reflexivity |]. split; [apply fh_array; through |]. split; [apply ph_dict; through |].
  assert (T3 : typed E1 spread p14 is_name (Some (ORef 3 0)) (lit "ASCIIHexDecode")) by through.
  split.
  - change (x_enc e14) with true. change CFNone with (sh_stream (psh p14)). apply (ch_stream E1 spread p14 _ d14 fl14 []); [right; split; [left; apply v_none | reflexivity] | discriminate |].
    intros f r Q (v & V & N). injection Q as <- <-. destruct T3 as (v' & V' & N'). pose proof (LookP.value_det _ _ _ _ _ _ V V') as Q. injection Q as ->. rewrite N in N'. discriminate N'.
  - split; [reflexivity |]. eapply (dt_cons E1 spread p14 (ORef 3 0) _ _ (lit "ASCIIHexDecode") []); [left; exact T3 | left; exists (ODict []); split; [apply v_direct; discriminate | reflexivity] | apply st_hex; discriminate |].
    eapply (dt_cons E1 spread p14 (OName (lit "RunLengthDecode")) _ _ (lit "RunLengthDecode") []); [left; exists (OName (lit "RunLengthDecode")); split; [apply v_direct; discriminate | reflexivity] | right; split; [left; apply v_none | reflexivity] | | ].
    + apply st_run; [vm_compute; discriminate | vm_compute; discriminate].
    + match goal with |- decoded_through _ _ _ _ _ (Some ?a) _ => assert (Q : a = lit "abc") by (vm_compute; reflexivity); rewrite Q end. apply dt_nil.
Qed.
