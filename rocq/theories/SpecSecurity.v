(** SpecSecurity.v -- the standard security handler's dictionary and crypt
    filters (ISO 32000-1, 7.6.1, 7.6.3, 7.6.5). *)
From Verif Require Import Base Num Obj Env SpecFetch SpecLook SpecCrypt.
From Coq Require Import Strings.String.

Record params := mkparams {
  pr_v : Z; pr_r : Z;
  pr_n : nat;      (** length of the file key in bytes *)
  pr_o : bytes; pr_u : bytes; pr_p : Z; pr_meta : bool;
  pr_id : bytes    (** first element of the trailer's ID *)
}.

Section Handler.
  Variables (E : env) (file : bytes) (p : pst).
  (** [trailer] has the encryption dictionary [enc] with entries [pr]. *)
  Definition standard (trailer enc : dict) (pr : params) : Prop :=
    typed E file p is_dict (entry trailer (lit "Encrypt")) enc /\
    typed E file p is_name (entry enc (lit "Filter")) (lit "Standard") /\
    typed E file p is_int (entry enc (lit "V")) (pr_v pr) /\ (pr_v pr = 1 \/ pr_v pr = 2 \/ pr_v pr = 4) /\
    typed E file p is_int (entry enc (lit "R")) (pr_r pr) /\ 2 <= pr_r pr <= 4 /\
    (exists l, (pr_v pr = 1 /\ l = 40 \/ pr_v pr <> 1 /\ typed_or E file p is_int (entry enc (lit "Length")) 40 l) /\
       pr_n pr = Z.to_nat (Z.max 5 (Z.min 16 (l / 8)))) /\
    typed E file p is_string (entry enc (lit "O")) (pr_o pr) /\
    typed E file p is_string (entry enc (lit "U")) (pr_u pr) /\
    typed E file p is_int (entry enc (lit "P")) (pr_p pr) /\
    typed_or E file p is_bool (entry enc (lit "EncryptMetadata")) true (pr_meta pr) /\
    exists ids, typed E file p is_array (entry trailer (lit "ID")) ids /\ typed E file p is_string (element ids 0) (pr_id pr).

  Definition file_key (pr : params) (password : bytes) (n : nat) : bytes :=
    file_key_of (e_md5 E) (pr_r pr) (pr_meta pr) (pr_o pr) (pr_p pr) (pr_id pr) password n.

  (** [password] is the user password: U is the value it leads to (Algorithm 6;
      for revisions 3 and 4 the first 16 bytes count). *)
  Definition user_password (pr : params) (password : bytes) : Prop :=
    exists w, user_entry (e_md5 E) (pr_r pr) (pr_id pr) (file_key pr password (pr_n pr)) w /\
      if pr_r pr =? 2 then pr_u pr = w else firstn 16 (pr_u pr) = w.
  (** U has the bytes that count. *)
  Definition u_full (pr : params) : Prop := pr_r pr = 2 \/ 16 <= zlen (pr_u pr).
  (** What the code compares: U with zeros behind it. *)
  Definition u_matches (pr : params) (password : bytes) : Prop :=
    exists w, user_entry (e_md5 E) (pr_r pr) (pr_id pr) (file_key pr password (pr_n pr)) w /\
      if pr_r pr =? 2 then pr_u pr = w else firstn 16 (pr_u pr ++ repeat x00 16) = w.
  (** U is long enough to be compared at all. *)
  Definition u_long (pr : params) : Prop := pr_r pr = 2 \/ 9 <= zlen (pr_u pr).

  (** The crypt filter an entry of CF defines, if any. *)
  Inductive cf_defines (pr : params) (password : bytes) : obj -> option cfilter -> Prop :=
  | cf_other : forall o, (forall d, o <> ODict d) -> cf_defines pr password o None
  | cf_unnamed : forall d, untyped E file p is_name (entry d (lit "CFM")) -> cf_defines pr password (ODict d) None
  | cf_method : forall d m l c, typed E file p is_name (entry d (lit "CFM")) m ->
      typed_or E file p is_int (entry d (lit "Length")) (Z.of_nat (pr_n pr)) l ->
      (m = lit "None" /\ c = Some CFNone \/
       m = lit "V2" /\ 0 <= l <= 16 /\ c = Some (CFRC4 (file_key pr password (Z.to_nat l))) \/
       m = lit "AESV2" /\ 0 <= l <= 16 /\ c = Some (CFAES (file_key pr password (Z.to_nat l))) \/
       m <> lit "None" /\ m <> lit "V2" /\ m <> lit "AESV2" /\ c = None) ->
      cf_defines pr password (ODict d) c.
  (** [cf] makes [c] the crypt filter named [k]; Identity is predefined. *)
  Definition named (pr : params) (password : bytes) (cf : dict) (k : bytes) (c : cfilter) : Prop :=
    (exists o, In (k, o) cf /\ cf_defines pr password o (Some c)) \/
    (k = lit "Identity" /\ c = CFNone /\ forall o, In (k, o) cf -> cf_defines pr password o None).
  (** the filter for one kind of data, by the name under [key] *)
  Definition chosen (pr : params) (password : bytes) (enc cf : dict) (key : bytes) (c : cfilter) : Prop :=
    let dflt := CFRC4 (file_key pr password (pr_n pr)) in
    (exists n, typed E file p is_name (entry enc key) n /\
       (named pr password cf n c \/ (forall c', ~ named pr password cf n c') /\ c = dflt)) \/
    (untyped E file p is_name (entry enc key) /\ c = dflt).
  (** the handler after the password was accepted *)
  Definition installed (pr : params) (password : bytes) (enc : dict) (h : sechandler) : Prop :=
    let dflt := CFRC4 (file_key pr password (pr_n pr)) in
    if pr_r pr =? 4 then
      exists cf, typed_or E file p is_dict (entry enc (lit "CF")) [] cf /\
        (forall k c, In (k, c) (sh_filters h) <-> named pr password cf k c) /\ NoDup (map fst (sh_filters h)) /\
        chosen pr password enc cf (lit "StmF") (sh_stream h) /\
        chosen pr password enc cf (lit "StrF") (sh_string h) /\
        chosen pr password enc cf (lit "EEF") (sh_file h)
    else h = {| sh_stream := dflt; sh_string := dflt; sh_file := dflt; sh_filters := [(lit "Identity", CFNone)] |}.
  (** all entries of CF make sense, and distinct names *)
  Definition cf_good (pr : params) (password : bytes) (enc : dict) : Prop :=
    pr_r pr = 4 -> exists cf, typed_or E file p is_dict (entry enc (lit "CF")) [] cf /\ NoDup (map fst cf) /\
      (forall k o, In (k, o) cf -> exists c, cf_defines pr password o c) /\
      (forall key, In key [lit "StmF"; lit "StrF"; lit "EEF"] -> exists x, value E file p (entry enc key) x).
End Handler.
