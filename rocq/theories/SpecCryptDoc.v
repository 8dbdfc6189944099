(** SpecCryptDoc.v -- objects of an encrypted document and the dictionary that
    says how they are encrypted, written without reference to the readers. *)
From Verif Require Import Base Num Obj Reader Env SpecLex SpecObj SpecFetch SpecStream SpecScan SpecXref SpecCrypt SpecSecurity SpecRecover.
From Coq Require Import Strings.String.

(** [sealed R o c]: [c] is [o] with all strings encrypted. *)
Inductive sealed (R : bytes -> bytes -> Prop) : obj -> obj -> Prop :=
| se_str : forall s c, R s c -> sealed R (OStr s) (OStr c)
| se_arr : forall l c, Forall2 (sealed R) l c -> sealed R (OArr l) (OArr c)
| se_dict : forall d c, Forall2 (fun x y => fst x = fst y /\ sealed R (snd x) (snd y)) d c -> sealed R (ODict d) (ODict c)
| se_num : forall q, sealed R (ONum q) (ONum q)
| se_name : forall n, sealed R (OName n) (OName n)
| se_kw : forall k, sealed R (OKw k) (OKw k)
| se_ref : forall n g, sealed R (ORef n g) (ORef n g).

(** How data may be encrypted, and [data] as [plain] of object [n], generation
    [g], encrypted that way under the file key [key].  For AES, [E] has the
    inverse of the block cipher. *)
Inductive method := Clear | Rc4 | Aes.
Definition hidden (E : env) (key : bytes) (n g : Z) (m : method) (plain data : bytes) : Prop :=
  match m with
  | Clear => data = plain
  | Rc4 => rc4_encrypted (object_key_of (e_md5 E) false key n g) plain data
  | Aes => exists enc, block_inverse enc (e_aes_dec E (object_key_of (e_md5 E) true key n g)) /\ aes_encrypted enc plain data
  end.
(** The methods of a document: for strings, streams and embedded files, and for
    streams that name a crypt filter. *)
Record scheme := { for_strings : method; for_streams : method; for_files : method; by_name : bytes -> method -> Prop }.
(** [stream_method s d fl pl m fl' pl']: the method for a stream with dictionary
    [d], filters [fl] and parameters [pl], and the filters and parameters for
    what is decrypted.  The entry Type is direct. *)
Inductive stream_method (s : scheme) (d : dict) : list obj -> list obj -> method -> list obj -> list obj -> Prop :=
| sm_stream : forall fl pl, (forall r, fl <> OName (lit "Crypt") :: r) -> ~ key_of (lit "Type") d (Some (OName (lit "EmbeddedFile"))) ->
    stream_method s d fl pl (for_streams s) fl pl
| sm_file : forall fl pl, (forall r, fl <> OName (lit "Crypt") :: r) -> key_of (lit "Type") d (Some (OName (lit "EmbeddedFile"))) ->
    stream_method s d fl pl (for_files s) fl pl
| sm_crypt : forall fl pl k m, crypt_name (parm_dict pl) k -> by_name s k m -> stream_method s d (OName (lit "Crypt") :: fl) pl m fl (tl pl).

(** The text behind a header [h]: an encrypted object, and its stream encrypted
    after the filters were applied; [o] and [out] are the object and the data
    that were meant.  [H] hides data by a method.  Sizes as in [behind]. *)
Inductive sealed_behind (E : env) (H : method -> bytes -> bytes -> Prop) (s : scheme) (h : bytes) : bytes -> obj -> option bytes -> Prop :=
| sb_plain : forall g1 t o c g2 r, gap g1 -> sealed (H (for_strings s)) o c -> obj_text t c -> gap g2 -> ends_token (g1 ++ t ++ g2 ++ lit "endobj" ++ r) ->
    may_follow c (g2 ++ lit "endobj" ++ r) -> ends_token r -> zlen (h ++ g1) < bufsize - 1 ->
    sealed_behind E H s h (g1 ++ t ++ g2 ++ lit "endobj" ++ r) o None
| sb_stream : forall g1 t d c g2 pre eol plain data eol' r fl pl m fl' pl' out, gap g1 -> sealed (H (for_strings s)) (ODict d) (ODict c) -> obj_text t (ODict c) -> gap g2 ->
    no_eol pre -> ends_token (pre ++ eol) ->
    filters_of d fl -> parms_of d pl -> (forall x, key_of (lit "Type") d (Some x) -> direct x) ->
    stream_method s d fl pl m fl' pl' -> H m plain data -> decoded E fl' pl' (Some plain) out ->
    eol_before eol (data ++ eol' ++ lit "endstream" ++ r) -> ~ occurs (lit "endstream") data -> eol_after data eol' ->
    zlen (h ++ g1 ++ t ++ g2 ++ lit "stream" ++ pre ++ eol) + 9 <= bufsize ->
    sealed_behind E H s h (g1 ++ t ++ g2 ++ lit "stream" ++ pre ++ eol ++ data ++ eol' ++ lit "endstream" ++ r) (ODict d) out.
(** The object [o], encrypted under the file key [key], is at [i]. *)
Record sealed_at (E : env) (file key : bytes) (s : scheme) (i : Z) (o : iobj) : Prop := {
  sa_inside : 0 <= i;
  sa_number : 0 <= inum o < 2 ^ 63;
  sa_generation : 0 <= igen o < 2 ^ 63;
  sa_first : forall b r d, 0 < i -> zdrop (i - 1) file = b :: r -> ~ decdigit b d;
  sa_text : exists h r, zdrop i file = h ++ r /\ header h (inum o) (igen o) /\
    sealed_behind E (hidden E key (inum o) (igen o)) s h r (ival o) (istream o)
}.

(** The encryption dictionary, in the trailer or an object of its own. *)
Inductive encryption (E : env) (file : bytes) (is : list Z) (secs : list section) (enc : dict) : option Z -> Prop :=
| en_direct : newest_key (lit "Encrypt") secs = Some (ODict enc) -> encryption E file is secs enc None
| en_object : forall i o e g, newest_key (lit "Encrypt") secs = Some (ORef (inum o) g) -> object_at E file i o -> placed file is secs i (inum o) (igen o) e ->
    ival o = ODict enc -> encryption E file is secs enc (Some (inum o)).
(** Its entries (direct objects): V is 1 or 2, R is 2 or 3, and the key has 5
    bytes for V 1 and Length bits for V 2; or V and R are 4 and there are crypt
    filters with distinct names. *)
Definition integer (x : option obj) (n : Z) : Prop := exists q, x = Some (ONum q) /\ num_int q = n.
Definition crypt_filters (enc cf : dict) : Prop := entry enc (lit "CF") = Some (ODict cf) \/ entry enc (lit "CF") = None /\ cf = [].
Definition filters_well (cf : dict) : Prop := NoDup (map fst cf) /\ forall k o, In (k, o) cf -> exists fd m,
  o = ODict fd /\ entry fd (lit "CFM") = Some (OName m) /\ ((exists l, integer (entry fd (lit "Length")) l /\ 0 <= l <= 16) \/ entry fd (lit "Length") = None).
Record handler (secs : list section) (enc : dict) (pr : params) : Prop := {
  ha_filter : entry enc (lit "Filter") = Some (OName (lit "Standard"));
  ha_v : integer (entry enc (lit "V")) (pr_v pr);
  ha_r : integer (entry enc (lit "R")) (pr_r pr);
  ha_kind : pr_v pr = 1 /\ (pr_r pr = 2 \/ pr_r pr = 3) /\ pr_n pr = 5%nat \/
    (pr_v pr = 2 /\ pr_r pr = 3 \/ pr_v pr = 4 /\ pr_r pr = 4 /\ exists cf, crypt_filters enc cf /\ filters_well cf) /\ exists l, (integer (entry enc (lit "Length")) l \/ entry enc (lit "Length") = None /\ l = 40) /\
      40 <= l <= 128 /\ l = 8 * Z.of_nat (pr_n pr);
  ha_o : entry enc (lit "O") = Some (OStr (pr_o pr));
  ha_u : entry enc (lit "U") = Some (OStr (pr_u pr));
  ha_p : integer (entry enc (lit "P")) (pr_p pr);
  ha_meta : entry enc (lit "EncryptMetadata") = None /\ pr_meta pr = true \/
    entry enc (lit "EncryptMetadata") = Some (OKw (lit "true")) /\ pr_meta pr = true \/ entry enc (lit "EncryptMetadata") = Some (OKw (lit "false")) /\ pr_meta pr = false;
  ha_id : exists ids, newest_key (lit "ID") secs = Some (OArr (OStr (pr_id pr) :: ids))
}.

(** The method of the crypt filter [k], for a file key of [n] bytes; its own
    Length, if any, is the same.  Identity is predefined. *)
Definition filter_named (enc : dict) (n : Z) (k : bytes) (m : method) : Prop := exists cf, crypt_filters enc cf /\
  ((exists fd, In (k, ODict fd) cf /\
      match m with
      | Clear => entry fd (lit "CFM") = Some (OName (lit "None"))
      | Rc4 => entry fd (lit "CFM") = Some (OName (lit "V2"))
      | Aes => entry fd (lit "CFM") = Some (OName (lit "AESV2"))
      end /\ (integer (entry fd (lit "Length")) n \/ entry fd (lit "Length") = None)) \/
   k = lit "Identity" /\ ~ In k (map fst cf) /\ m = Clear).
(** The method for a kind of data by the name under [key]; [dflt] if there is
    none. *)
Definition kind_method (enc : dict) (n : Z) (key : bytes) (dflt m : method) : Prop :=
  (exists k, entry enc key = Some (OName k) /\ filter_named enc n k m) \/ entry enc key = None /\ m = dflt.
(** The methods of a document (7.6.5): by default strings and streams are not
    encrypted, and embedded files are encrypted like other streams. *)
Definition scheme_of (enc : dict) (pr : params) (s : scheme) : Prop :=
  if pr_v pr =? 4 then
    let n := Z.of_nat (pr_n pr) in
    kind_method enc n (lit "StrF") Clear (for_strings s) /\ kind_method enc n (lit "StmF") Clear (for_streams s) /\
    kind_method enc n (lit "EEF") (for_streams s) (for_files s) /\ forall k m, by_name s k m -> filter_named enc n k m
  else for_strings s = Rc4 /\ for_streams s = Rc4 /\ for_files s = Rc4 /\ forall k m, by_name s k m -> k = lit "Identity" /\ m = Clear.
(** AES is not used. *)
Definition no_aes (s : scheme) : Prop := for_strings s <> Aes /\ for_streams s <> Aes /\ for_files s <> Aes /\ forall k, ~ by_name s k Aes.
(** Nothing is left to a default other than RC4. *)
Definition no_default (enc : dict) (s : scheme) : Prop := (entry enc (lit "StrF") = None -> for_strings s = Rc4) /\
  (entry enc (lit "StmF") = None -> for_streams s = Rc4) /\ (entry enc (lit "EEF") = None -> for_files s = Rc4).
