(** XSealEx.v -- an encrypted document with a cross-reference stream (C109). *)
From Verif Require Import Base BaseP Msg Reader Num NumP Obj ReadObj Env Getters GetObj Xref Crypt Rc4 Md5 Security Load Extract Output Parse SpecFetch SpecOut SpecPage SpecObj SpecStream SpecXref SpecCrypt CryptP SpecSecurity SecurityP
  SpecCryptDoc CryptDocP SpecWrite SpecFollow SpecSeal SpecXWrite SpecXSeal SpecList StreamEx OutEx TotalP WriteEx SealEx XPutP XSealP.
From Coq Require Import Strings.String.

(** the objects of C97 *)
Definition XC : iobj := w_xstream CS 7 trS.
Definition SXC : sys := mksys (Some (w_xdocument CS XC)) (fun _ => true) StatNotExist.
Lemma CS_trailer : lay_trailer CS 7 trS.
Proof.
  constructor.
  - exact (ld_objects _ _ layS).
  - lia.
  - dist.
  - exact (ld_trailer _ _ layS).
  - intros k I J. vm_compute in I, J. intuition congruence.
  - vm_compute. discriminate.
  - vm_compute. reflexivity.
Qed.
Definition SXC_ops : list op := fst (parse E1 OD1 30 SXC pwS).
Lemma SXC_run : parse E1 OD1 30 SXC pwS = (SXC_ops, Ok PNone).
Proof. vm_compute. reflexivity. Qed.
Lemma C109_ex : sealed_document E1 DS CS trS prS pwS /\ lay_trailer CS 7 trS /\ (forall x, List.length (e_md5 E1 x) = 16%nat) /\ ~ user_password E1 prS (lit "shut") /\ zlen (w_xdocument CS XC) = 812.
Proof. split; [exact sealedS |]. split; [exact CS_trailer |]. split; [exact md5_16 |]. split; [exact not_userS |]. vm_compute. reflexivity. Qed.
Lemma C109_ex_raw : (exists d, sealed_xdocument E1 DS CS XC d (w_xdata CS 7) prS pwS) /\ order_ok OD1 /\ s_input SXC = Some (w_xdocument CS XC) /\ parse E1 OD1 30 SXC pwS = (SXC_ops, Ok PNone) /\
  content FText SXC_ops = lit "x" ++ [x0a] /\ content FURLs SXC_ops = lit "http://x.example/(a" ++ [x0a].
Proof.
  split; [destruct (xsealed_written E1 DS CS trS prS pwS 7 sealedS CS_trailer) as (d & S1 & _); exists d; exact S1 |]. split; [exact OD1_ok |]. split; [reflexivity |]. split; [exact SXC_run |]. split; vm_compute; reflexivity.
Qed.
Lemma C109_ex_list : stored E1 (w_xdocument CS XC) pwS (DS ++ [x_read XC (w_xdata CS 7)]) /\ doc_urls 1 (DS ++ [x_read XC (w_xdata CS 7)]) = Some [lit "http://x.example/(a"].
Proof.
  split; [| vm_compute; reflexivity]. destruct (xsealed_written E1 DS CS trS prS pwS 7 sealedS CS_trailer) as (d & S1 & _). exact (st_xsealed E1 DS CS XC d (w_xdata CS 7) prS pwS md5_16 S1).
Qed.
