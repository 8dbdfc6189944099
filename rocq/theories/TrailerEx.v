(** TrailerEx.v -- a document without encryption that is taken for an encrypted
    one after an update (C93). *)
From Verif Require Import Base BaseP Msg Reader ReaderP Num Lexer Plain PObjP Obj ReadObj Env Getters Crypt GetObj Xref Load SpecLex SpecObj SpecObjP SpecFetch SpecStream SpecScan SpecXref SpecTrailer SpecRecover StreamEx OutEx SpecWrite WriteP WriteDocP WriteLoadP ScanP TrailerP WriteEx.
From Coq Require Import Strings.String.

Definition old_part : bytes := List.concat (map (fun l => lit l ++ [x0a]) [
  "%PDF-1.4";
  "1 0 obj";
  "<</Type/Catalog>>";
  "endobj";
  "xref";
  "0 2";
  "0000000000 65535 f ";
  "0000000009 00000 n ";
  "trailer";
  "<</Size 2/Root 1 0 R>>";
  "startxref";
  "42";
  "%%EOF"]%string).
Definition new_part : bytes := List.concat (map (fun l => lit l ++ [x0a]) [
  "2 0 obj";
  "<</Note(private)/Encrypt<</Filter/None>>>>";
  "endobj";
  "xref";
  "2 1";
  "0000000141 00000 n ";
  "trailer";
  "<</Size 3/Root 1 0 R/Prev 42>>";
  "startxref";
  "199";
  "%%EOF"]%string).
Definition updated : bytes := old_part ++ new_part.
Lemma no_stream_word : ~ occurs (lit "stream") updated.
Proof. apply occurs_check. vm_compute. reflexivity. Qed.
(** the two trailers *)
Definition trailer_here (i : nat) : bool := bseq (firstn 7 (skipn i updated)) (lit "trailer").
Definition dict_there (i : nat) : bool := match P_object no_decryptor (skipn (i + 7) updated) with Ok ((ODict d, _), _) => match entry d (lit "Encrypt") with None => true | _ => false end | _ => true end.
Lemma trailers_checked : forallb (fun i => negb (trailer_here i) || dict_there i) (seq 0 (S (List.length updated))) = true.
Proof. vm_compute. reflexivity. Qed.
Lemma updated_trailers : forall E d, trailer_dict E updated d -> entry d (lit "Encrypt") = None.
Proof.
  intros E d [i g t d' r O Z0 G T | i n g b d' data w SA _].
  - assert (SK : zdrop i updated = skipn (Z.to_nat i) updated /\ (Z.to_nat i <= List.length updated)%nat).
    { unfold zdrop in Z0 |- *. destruct (i <? zlen updated) eqn:L; [| discriminate Z0]. apply Z.ltb_lt in L. unfold zlen in L. split; [reflexivity | lia]. }
    destruct SK as [SK B]. rewrite SK in Z0.
    pose proof trailers_checked as C. rewrite forallb_forall in C. specialize (C (Z.to_nat i)). rewrite in_seq in C. specialize (C ltac:(lia)).
    assert (TH : trailer_here (Z.to_nat i) = true) by (unfold trailer_here; rewrite Z0; reflexivity). rewrite TH in C. cbn [negb orb] in C.
    unfold dict_there in C. replace (skipn (Z.to_nat i + 7) updated) with (g ++ t ++ r) in C.
    2: { rewrite <- skipn_add. rewrite Z0. reflexivity. }
    rewrite P0_gap, (obj_text_reads _ _ _ T Logic.I) in C by exact G. destruct (entry d' (lit "Encrypt")); [discriminate C | reflexivity].
  - exfalso. destruct SA as [head n0 g0 g1 t d0 g2 pre eol data eol' r fl pl out _ _ _ _ _ _ _ _ _ O Z0 _ _ _ _]. apply no_stream_word.
    exists (firstn (Z.to_nat i) updated ++ head ++ g1 ++ t ++ g2), (pre ++ eol ++ data ++ eol' ++ lit "endstream" ++ r).
    rewrite <- !app_assoc. rewrite <- Z0. unfold zdrop in Z0 |- *. destruct (i <? zlen updated); [symmetry; apply firstn_skipn |]. exfalso. destruct head; [| discriminate Z0]. destruct g1; [| discriminate Z0]. destruct t; [| discriminate Z0]. destruct g2; discriminate Z0.
Qed.
Definition updated_p : pst := match load 9 E1 (fun l => l) updated [] (new_parser updated) with Ok (_, p) => p | _ => nothing end.
Lemma updated_load : load 9 E1 (fun l => l) updated [] (new_parser updated) = Ok (Some EncryptionUnsupported, updated_p).
Proof. vm_compute. reflexivity. Qed.
Lemma C93_refuted : exists E file p k o, load 9 E (fun l => l) file [] (new_parser file) = Ok (Some EncryptionUnsupported, p) /\
  entry (ptrailer p) k = Some o /\ forall d, trailer_dict E file d -> entry d k = None.
Proof.
  exists E1, updated, updated_p, (lit "Encrypt"), (ODict [(lit "Filter", OName (lit "None"))]). split; [exact updated_load |]. split; [vm_compute; reflexivity |]. apply updated_trailers.
Qed.

(** ** A written document has only its own trailer *)
Lemma written_settled : forall E D tr, good_document D tr -> exists is,
  (forall i, starts (fun t => t = lit "xref") (w_document D tr) i -> (exists secs, chain E (w_document D tr) i [] secs) \/ start_at (w_document D tr) i) /\
  (forall off, last_start (last256 (w_document D tr)) off -> off < 2 ^ 63 -> exists secs, chain E (w_document D tr) off [] secs) /\
  only_at (w_document D tr) is /\
  (forall k, In k is -> (exists o, object_at E (w_document D tr) k o) \/ ((exists n, header_at (w_document D tr) k n) /\ exists secs, chain E (w_document D tr) k [] secs)).
Proof.
  intros E D tr GD. exists (map fst (w_places (zlen w_version) D)). split; [| split; [| split]].
  - intros i ST. apply (proj2 (xref_positions _)) in ST. rewrite (xrefs_are D tr (gd_lay _ _ GD)) in ST. destruct ST as [<- | [<- | []]]; [left; eexists; apply chain_at; exact (gd_lay _ _ GD) |].
    right. pose proof (zlen_nonneg _ (w_body D)) as OA. exists [x0a], (dec (zlen (w_body D))), (zlen (w_body D)), (x0a :: lit "%%EOF" ++ [x0a]).
    split; [rewrite second_at; reflexivity |]. split; [apply gap1; exact lf_ws |]. split; [discriminate |]. split; [apply dec_text; exact OA |].
    apply blank_gap. apply gap_ws; [exact lf_ws |]. apply (gap_comment (lit "%EOF") x0a []); [| | constructor].
    + intros b I [Q | Q]; subst b; vm_compute in I; intuition discriminate.
    + left. reflexivity.
  - intros off LS B. assert (SO : start_xref_offset (w_document D tr) = Some off) by (apply start_offset; auto).
    assert (S1 : start_xref_offset (w_document D tr) = Some (zlen (w_body D))).
    { apply start_offset. split; [apply start_in; exact (gd_lay _ _ GD) |]. pose proof (ld_size _ _ (gd_lay _ _ GD)) as SZ. unfold w_document in SZ. rewrite zlen_app in SZ. match type of SZ with _ + zlen ?x < _ => pose proof (zlen_nonneg _ x) end. lia. }
    assert (off = zlen (w_body D)) by congruence. subst off. eexists. apply chain_at. exact (gd_lay _ _ GD).
  - apply markers_only; [exact (ld_objects _ _ (gd_lay _ _ GD)) | exact (good_places D tr (gd_lay _ _ GD)) | exact (ld_trailer _ _ (gd_lay _ _ GD))].
  - intros k I. apply in_map_iff in I. destruct I as ([k' o] & Q & I). cbn in Q. subst k'. left. exists (as_written o). apply written_at; assumption.
Qed.
