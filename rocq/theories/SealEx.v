(** SealEx.v -- an encrypted document that can be written (C97, C98). *)
From Verif Require Import Base BaseP Msg Reader Num NumP Obj ReadObj Env Getters GetObj Xref Crypt Rc4 Md5 Security Load Extract Output Parse SpecFetch SpecOut SpecPage SpecObj SpecStream SpecXref SpecCrypt CryptP SpecSecurity SecurityP
  SpecCryptDoc CryptDocP SpecWrite SpecFollow SpecSeal StreamEx OutEx TotalP WriteEx.
From Coq Require Import Strings.String.

(** V 4: streams and strings by a filter of CF, metadata in clear by Identity *)
Definition pwS : bytes := lit "open".
Definition kS : bytes := Eval vm_compute in file_key_of Md5.md5 4 true (lit "o") (-4) (lit "i") pwS 16.
Definition uS : bytes := Eval vm_compute in rc4_rounds 20 0 kS (Md5.md5 (pad32 ++ lit "i")).
Definition cfS : dict := [(lit "B", ODict [(lit "CFM", OName (lit "V2")); (lit "Length", ONum (num_of_Z 16))])].
Definition encS : dict := [(lit "Filter", OName (lit "Standard")); (lit "V", ONum (num_of_Z 4)); (lit "R", ONum (num_of_Z 4)); (lit "Length", ONum (num_of_Z 128));
  (lit "O", OStr (lit "o")); (lit "U", OStr uS); (lit "P", ONum (num_of_Z (-4))); (lit "CF", ODict cfS); (lit "StmF", OName (lit "B")); (lit "StrF", OName (lit "B"))].
Definition prS : params := {| pr_v := 4; pr_r := 4; pr_n := 16; pr_o := lit "o"; pr_u := uS; pr_p := -4; pr_meta := true; pr_id := lit "i" |}.
Definition schemeS : scheme := {| for_strings := Rc4; for_streams := Rc4; for_files := Rc4; by_name := fun k m => k = lit "Identity" /\ m = Clear |}.
Definition trS : dict := [(lit "Root", ORef 1 0); (lit "Encrypt", ORef 5 0); (lit "ID", OArr [OStr (lit "i")])].
Definition obj_of (n : Z) (v : obj) (s : option bytes) : iobj := {| inum := n; igen := 0; ival := v; istream := s |}.
Definition contents : dict := [(lit "Filter", OName (lit "ASCIIHexDecode")); (lit "Note", OStr (lit "endstream"))].
Definition metadata : dict := [(lit "Type", OName (lit "Metadata")); (lit "Filter", OArr [OName (lit "Crypt")]); (lit "DecodeParms", OArr [ODict [(lit "Name", OName (lit "Identity"))]]); (lit "S", OStr (lit "s"))].
Definition DS : list iobj :=
  [ obj_of 1 (ODict catalog) None; obj_of 2 (ODict [(lit "Kids", OArr [ORef 3 0]); (lit "Count", ONum (num_of_Z 1))]) None; obj_of 3 (ODict [(lit "Contents", ORef 4 0)]) None;
    obj_of 4 (ODict contents) (Some (lit "BT (x) Tj ET")); obj_of 5 (ODict encS) None; obj_of 6 (ODict metadata) (Some (lit "<x:xmpmeta/>")) ].
Fixpoint map_strings (f : bytes -> bytes) (o : obj) : obj :=
  match o with
  | OStr s => OStr (f s)
  | OArr l => OArr (map (map_strings f) l)
  | ODict d => ODict (map (fun kv => (fst kv, map_strings f (snd kv))) d)
  | x => x
  end.
Definition okS (n : Z) : bytes := object_key_of (e_md5 E1) false kS n 0.
Definition hide (n : Z) (v : obj) : obj := map_strings (rc4 (okS n)) v.
Definition CS : list iobj := Eval vm_compute in
  [ obj_of 1 (hide 1 (ODict catalog)) None; obj_of 2 (hide 2 (ODict [(lit "Kids", OArr [ORef 3 0]); (lit "Count", ONum (num_of_Z 1))])) None; obj_of 3 (hide 3 (ODict [(lit "Contents", ORef 4 0)])) None;
    obj_of 4 (hide 4 (ODict contents)) (Some (rc4 (okS 4) (hex (lit "BT (x) Tj ET") ++ lit ">"))); obj_of 5 (ODict encS) None; obj_of 6 (hide 6 (ODict metadata)) (Some (lit "<x:xmpmeta/>")) ].
Definition SS : sys := mksys (Some (w_document CS trS)) (fun _ => true) StatNotExist.

Fixpoint seals (R : bytes -> bytes -> Prop) (f : bytes -> bytes) (H : forall s, R s (f s)) (o : obj) {struct o} : sealed R o (map_strings f o).
Proof.
  destruct o as [q | s | n | k | n g | l | d]; cbn [map_strings]; try constructor; try apply H.
  - induction l as [| x l IH]; constructor; [apply seals; exact H | exact IH].
  - induction d as [| [k x] d IH]; constructor; [split; [reflexivity | apply seals; exact H] | exact IH].
Qed.
Lemma keyS : file_key E1 prS pwS 16 = kS.
Proof. vm_compute. reflexivity. Qed.
Lemma hides_any : forall E key n g s ok, object_key_of (e_md5 E) false key n g = ok -> ok <> [] -> hidden E key n g Rc4 s (rc4 ok s).
Proof. intros E key n g s ok <- N. apply rc4_encrypts. exact N. Qed.
Lemma hides : forall n s, okS n <> [] -> hidden E1 kS n 0 Rc4 s (rc4 (okS n) s).
Proof. intros n s N. exact (hides_any E1 kS n 0 s (okS n) eq_refl N). Qed.
Lemma sealsS : forall n v, okS n <> [] -> sealed (hidden E1 kS n 0 (for_strings schemeS)) v (hide n v).
Proof. intros n v N. apply seals. intros s. apply hides. exact N. Qed.
Ltac key n := assert (okS n <> []) by (intros ?QQ; vm_compute in QQ; discriminate QQ).
Ltac sl := match goal with |- sealed (hidden _ _ ?n _ _) ?v ?c => replace c with (hide n v) by (vm_compute; reflexivity); apply (sealsS n v); assumption end.
Lemma forall2_S : Forall2 (fun o c => Some 5 = Some (inum o) /\ c = o \/ Some 5 <> Some (inum o) /\ sealed_object E1 kS schemeS o c) DS CS.
Proof.
  key 1. key 2. key 3. key 4. key 6. unfold DS. repeat (apply Forall2_cons); [right | right | right | right | left | right | apply Forall2_nil];
    try (split; [discriminate |]; apply (so_plain E1 kS schemeS); sl).
  - split; [discriminate |]. apply (so_stream E1 kS schemeS) with (fl := [OName (lit "ASCIIHexDecode")]) (pl := []) (m := Rc4) (fl' := [OName (lit "ASCIIHexDecode")]) (pl' := []) (plain := hex (lit "BT (x) Tj ET") ++ lit ">").
    + sl.
    + apply fo_name. exists [], (tl contents). split; [reflexivity | intros []].
    + apply po_none. ni.
    + intros x (d1 & d2 & Q & _). destruct d1 as [| y [| z d1]]; [discriminate | discriminate | destruct d1; discriminate].
    + apply (sm_stream schemeS); [discriminate |]. intros (d1 & d2 & Q & _). destruct d1 as [| y [| z d1]]; [discriminate | discriminate | destruct d1; discriminate].
    + eapply dc_cons; [| apply dc_nil]. apply (st_hex E1 []). discriminate.
    + match goal with |- hidden _ _ _ _ _ ?x ?c => replace c with (rc4 (okS 4) x) by (vm_compute; reflexivity) end. apply hides. assumption.
    + vm_compute. reflexivity.
  - split; reflexivity.
  - split; [discriminate |]. apply (so_stream E1 kS schemeS) with (fl := [OName (lit "Crypt")]) (pl := [ODict [(lit "Name", OName (lit "Identity"))]]) (m := Clear) (fl' := []) (pl' := []) (plain := lit "<x:xmpmeta/>").
    + sl.
    + apply fo_arr; [| intros o [<- | []] n g; discriminate]. exists [(lit "Type", OName (lit "Metadata"))], (tl (tl metadata)). split; [reflexivity | ni].
    + apply po_arr; [| intros o [<- | []] n g; discriminate]. exists (firstn 2 metadata), (skipn 3 metadata). split; [reflexivity | ni].
    + intros x (d1 & d2 & Q & _). destruct d1 as [| y [| z [| w [| v d1]]]]; try discriminate; [injection Q as <- _; intros n g; discriminate | destruct d1; discriminate].
    + apply (sm_crypt schemeS metadata [] [ODict [(lit "Name", OName (lit "Identity"))]] (lit "Identity") Clear); [| split; reflexivity]. constructor. exists [], []. split; [reflexivity | intros []].
    + apply dc_nil.
    + reflexivity.
    + vm_compute. reflexivity.
Qed.
Lemma userS : user_password E1 prS pwS.
Proof.
  exists uS. split; [| reflexivity].
  change (user_entry Md5.md5 4 (lit "i") (file_key E1 prS pwS 16) uS). rewrite keyS.
  unfold user_entry. change (4 =? 2) with false. cbv iota.
  replace uS with (rc4_rounds 20 (Z.of_nat 0) kS (Md5.md5 (pad32 ++ lit "i"))) by (vm_compute; reflexivity).
  apply (rc4_rounds_spec kS (Md5.md5 (pad32 ++ lit "i")) ltac:(discriminate) 20 0); [lia | apply rt_zero].
Qed.
Ltac try_num z := exists z; split; [lia | reflexivity].
Ltac nums := match goal with |- exists z, _ /\ _ = num_of_Z z => first [try_num 1 | try_num 4 | try_num 16 | try_num 128 | try_num (-4)] end.
Ltac layr := constructor; [constructor; cbn [inum igen ival istream];
  [lia | lia | prt
   | let Q := fresh in intros ? Q; injection Q as <-; eexists; split; [reflexivity |]; split; [let R := fresh in intros R; vm_compute in R; discriminate R | vm_compute; discriminate]]
  | let Q := fresh in cbn [inum igen ival istream]; intros ? Q; injection Q as <-; ni].
Lemma layS : lay_document CS trS.
Proof.
  constructor.
  - intros o I. unfold CS in I. repeat (destruct I as [<- | I]; [first [lay; nums | layr] |]); destruct I.
  - dist.
  - unfold trS. prt.
  - ni.
  - vm_compute. reflexivity.
Qed.
Lemma namedS_b : filter_named encS 16 (lit "B") Rc4.
Proof. exists cfS. split; [left; reflexivity |]. left. eexists. split; [left; reflexivity |]. split; [reflexivity | left; eexists; split; reflexivity]. Qed.
Lemma namedS_identity : filter_named encS 16 (lit "Identity") Clear.
Proof. exists cfS. split; [left; reflexivity |]. right. split; [reflexivity |]. split; [| reflexivity]. ni. Qed.
Lemma sealedS : sealed_document E1 DS CS trS prS pwS.
Proof.
  split; [exact layS |]. exists encS, (Some 5), schemeS. split.
  { exact (ee_object DS encS (obj_of 5 (ODict encS) None) 0 (or_intror (or_intror (or_intror (or_intror (or_introl eq_refl))))) eq_refl eq_refl). }
  split.
  { split; try reflexivity; try (eexists; split; reflexivity); try (exists []; reflexivity); [| left; split; reflexivity].
    right. split; [right; split; [reflexivity |]; split; [reflexivity |]; exists cfS; split; [left; reflexivity |] | exists 128; split; [left; eexists; split; reflexivity | split; [lia | reflexivity]]].
    split; [dist |]. intros k o [Q | []]. injection Q as <- <-. do 2 eexists. split; [reflexivity |]. split; [reflexivity |]. left. exists 16. split; [eexists; split; reflexivity | lia]. }
  split; [exact userS |]. split.
  { split; [left; exists (lit "B"); split; [reflexivity | exact namedS_b] |]. split; [left; exists (lit "B"); split; [reflexivity | exact namedS_b] |].
    split; [right; split; reflexivity |]. intros k m [-> ->]. exact namedS_identity. }
  split; [split; [discriminate |]; split; [discriminate |]; split; [discriminate | intros k [_ Q]; discriminate Q] |].
  split; [split; [discriminate |]; split; [discriminate | reflexivity] |].
  change (pr_n prS) with 16%nat. rewrite keyS. exact forall2_S.
Qed.
Lemma DS_within : forall h, within DS h -> In h (flat_map (fun o => dicts (ival o)) DS).
Proof. intros h (o & I & H). apply in_flat_map. exists o. split; [exact I | apply holds_dicts; exact H]. Qed.
Lemma DS_direct : direct_kids DS.
Proof. intros h n g H Q. apply DS_within in H. cbn in H. repeat (destruct H as [<- | H]; [vm_compute in Q; discriminate Q |]). exact H. Qed.
Lemma DS_maps : moderate_maps DS.
Proof. intros h n g o s H Q. apply DS_within in H. exfalso. cbn in H. repeat (destruct H as [<- | H]; [vm_compute in Q; discriminate Q |]). exact H. Qed.
(** another password *)
Definition kX : bytes := Eval vm_compute in file_key E1 prS (lit "shut") 16.
Lemma rounds_only : forall key u w, key <> [] -> rc4_times key 20 u w -> w = rc4_rounds 20 0 key u.
Proof. intros key u w K H. exact (rc4_times_det _ _ _ _ H _ (rc4_rounds_spec key u K 20 0 u ltac:(lia) (rt_zero key u))). Qed.
Lemma not_userS : ~ user_password E1 prS (lit "shut").
Proof.
  intros (u & UE & Q).
  assert (K : file_key E1 prS (lit "shut") (pr_n prS) = kX) by (vm_compute; reflexivity). rewrite K in UE. clear K.
  unfold user_entry in UE. change (pr_r prS =? 2) with false in UE. cbv iota in UE. apply rounds_only in UE; [| discriminate]. subst u.
  vm_compute in Q. discriminate Q.
Qed.
Definition SS_ops : list op := fst (parse E1 OD1 30 SS pwS).
Lemma SS_run : parse E1 OD1 30 SS pwS = (SS_ops, Ok PNone).
Proof. vm_compute. reflexivity. Qed.
Lemma C97_ex : sealed_document E1 DS CS trS prS pwS /\ (forall x, List.length (e_md5 E1 x) = 16%nat) /\ ~ user_password E1 prS (lit "shut") /\ zlen (w_document CS trS) = 863.
Proof. split; [exact sealedS |]. split; [exact md5_16 |]. split; [exact not_userS |]. vm_compute. reflexivity. Qed.
Lemma C98_ex : direct_kids DS /\ moderate_maps DS /\ order_ok OD1 /\ s_input SS = Some (w_document CS trS) /\ parse E1 OD1 30 SS pwS = (SS_ops, Ok PNone) /\
  content FText SS_ops = lit "x" ++ [x0a] /\ content FURLs SS_ops = lit "http://x.example/(a" ++ [x0a].
Proof.
  split; [exact DS_direct |]. split; [exact DS_maps |]. split; [exact OD1_ok |]. split; [reflexivity |]. split; [exact SS_run |]. split; vm_compute; reflexivity.
Qed.
