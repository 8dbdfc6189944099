(** GenEx.v -- witnesses for PropGen.v. *)
From Verif Require Import Base BaseP Msg Reader ReaderP Num NumP Lexer Obj ReadObj Env Getters Crypt GetObj Load Tree Output Render Parse SpecRead SpecLook
  FetchP LookP SecurityP FetchEx SpecFetch SpecOut TreeEx RawP ExtractP OutEx RawReadEx LoadInvP AlongP OrderP SpecGen.
From Coq Require Import Strings.String.

(** Object 2 of generation 0 is referred to; there is one of generation 1. *)
Definition stale : bytes := lit "1 0 obj<</S/URI/URI 2 0 R>> endobj 2 1 obj(http://x.example/) endobj 3 0 obj 2 1 R endobj ".
Definition S11 : sys := mksys (Some stale) (fun _ => true) StatNotExist.
Definition ops11 : list op := fst (parse E6 OD1 9 S11 []).
Definition p11 : pst := match load 9 E6 (fun l => l) stale [] (new_parser stale) with Ok (_, p) => p | _ => nothing end.
Definition url11 : bytes := lit "http://x.example/".
Definition o21 : iobj := {| inum := 2; igen := 1; ival := OStr url11; istream := None |}.
Definition o31 : iobj := {| inum := 3; igen := 0; ival := ORef 2 1; istream := None |}.
Lemma fetched2 : fetched E6 stale p11 2 o21.
Proof. exists 9%nat. eexists. vm_compute. reflexivity. Qed.
Lemma fetched3 : fetched E6 stale p11 3 o31.
Proof. exists 9%nat. eexists. vm_compute. reflexivity. Qed.
Lemma stale_refuted : exists E OD fuel S pw ops file p o, order_ok OD /\ s_input S = Some file /\ parse E OD fuel S pw = (ops, Ok PNone) /\
  load fuel E (o_objects OD) file pw (new_parser file) = Ok (None, p) /\ meant E file p 2 0 (OKw (lit "null")) None /\
  target E file p 2 o /\ ival o = OStr url11 /\ content FURLs ops = url11 ++ [x0a].
Proof.
  exists E6, OD1, 9%nat, S11, [], ops11, stale, p11, o21. split; [exact OD1_ok |]. split; [reflexivity |]. split; [vm_compute; reflexivity |]. split; [vm_compute; reflexivity |]. split.
  { apply mt_null. intros (e & X & _ & G). vm_compute in X. injection X as <-. discriminate G. }
  split; [exists 9%nat; eexists; vm_compute; reflexivity |]. split; [reflexivity | vm_compute; reflexivity].
Qed.
Lemma C121_ex : reads stale p11 /\ offsets_ok (pxref p11) /\ (forall m k, passes E6 stale p11 3 0 m k -> in_use p11 m -> has_generation p11 m k) /\
  meant E6 stale p11 3 0 (OStr url11) None /\ ~ has_generation p11 2 0 /\ has_generation p11 2 1.
Proof.
  assert (H3 : has_generation p11 3 0) by (eexists; split; [vm_compute; reflexivity | split; reflexivity]).
  assert (H2 : has_generation p11 2 1) by (eexists; split; [vm_compute; reflexivity | split; reflexivity]).
  assert (L : load 9 E6 (fun l => l) stale [] (new_parser stale) = Ok (None, p11)) by (vm_compute; reflexivity).
  split; [exact (proj1 (tidy_load stale 9 E6 (fun l => l) [] _ _ _ (new_sound stale) L)) |]. split.
  { intros n e X T. assert (I : In (n, e) (pxref p11)) by (eapply BaseP.mget_In; [exact Z.eqb_eq | exact X]). vm_compute in I. destruct I as [I | [I | [I | []]]]; injection I as <- <-; cbn; lia. }
  split; [| split; [| split; [| exact H2]]].
  - assert (K : forall m k, passes E6 stale p11 3 0 m k -> (m = 3 /\ k = 0) \/ (m = 2 /\ k = 1)).
    { intros m k H. induction H as [| m k o m' k' H IH F Q]; [left; auto |]. right. destruct IH as [[-> ->] | [-> ->]].
      - rewrite (fetched_det _ _ _ _ _ _ F fetched3) in Q. injection Q as <- <-. auto.
      - rewrite (fetched_det _ _ _ _ _ _ F fetched2) in Q. discriminate Q. }
    intros m k H _. destruct (K m k H) as [[-> ->] | [-> ->]]; assumption.
  - eapply mt_next; [exact H3 | exact fetched3 | reflexivity |]. apply (mt_value E6 stale p11 2 1 o21); [exact H2 | exact fetched2 | discriminate].
  - intros (e & X & _ & G). vm_compute in X. injection X as <-. discriminate G.
Qed.
