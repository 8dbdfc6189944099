(** Security.v -- SecurityHandler.Init, pdf/encryption.go:169-364. *)
From Verif Require Import Base Msg Reader Num Lexer Obj Env Getters Crypt Rc4.
From Coq Require Import Strings.String.
Local Open Scope m_scope.

(** padding_string, pdf/encryption.go:11 *)
Definition padding_string : bytes :=
  [x28; xbf; x4e; x5e; x4e; x75; x8a; x41; x64; x00; x4e; x56; xff; xfa; x01; x08;
   x2e; x2e; x00; xb6; xd0; x68; x3e; x80; x2f; x0c; xa9; xfe; x64; x53; x69; x7a].

(** The fields of SecurityHandler computeEncryptionKey reads, pdf/encryption.go:144-152. *)
Record encparms := mkep {
  ep_r : Z;
  ep_o : bytes;
  ep_p : bytes;
  ep_meta : bool;
  ep_id : bytes
}.

(** x[:n] on the 16-byte result of hash.Sum(nil): panics unless 0 <= n <= 16. *)
Definition slice16 (n : Z) (x : bytes) : res bytes :=
  if (0 <=? n) && (n <=? 16) then Ok (firstn (Z.to_nat n) x) else Panic.

(** pdf/encryption.go:355-361 *)
Fixpoint rehash (k : nat) (E : env) (n : Z) (key : bytes) : res bytes :=
  match k with
  | O => Ok key
  | S k' => rbind (slice16 n (e_md5 E key)) (rehash k' E n)
  end.

(** pdf/encryption.go:336-341 *)
Definition pad_password (pw : bytes) : bytes :=
  if zlen pw <? 32 then pw ++ firstn (32 - List.length pw) padding_string else firstn 32 pw.

(** computeEncryptionKey, pdf/encryption.go:335-364 *)
Definition compute_key (E : env) (ep : encparms) (password : bytes) (n : Z) : res bytes :=
  let input := pad_password password ++ ep_o ep ++ ep_p ep ++ ep_id ep
               ++ (if (4 <=? ep_r ep) && negb (ep_meta ep) then [xff; xff; xff; xff] else []) in
  rbind (slice16 n (e_md5 E input)) (fun key =>
    if 3 <=? ep_r ep then rehash 50 E n key else Ok key).

(** pdf/encryption.go:268-274 *)
Fixpoint rc4_rounds (k : nat) (i : Z) (key u : bytes) : bytes :=
  match k with
  | O => u
  | S k' => rc4_rounds k' (i + 1) key (rc4 (map (fun b => bxor b (zb i)) key) u)
  end.

(** string(sh.u[:16]), pdf/encryption.go:277: reslicing goes up to the capacity
    of []byte(s), which Go rounds up to 8 or 16 for short strings. *)
Definition first16 (u : bytes) : res bytes :=
  if 16 <=? zlen u then Ok (firstn 16 u)
  else if 9 <=? zlen u then Ok (u ++ repeat x00 (16 - List.length u))
  else Panic.

(** pdf/encryption.go:251-280 *)
Definition check_key (E : env) (ep : encparms) (u key : bytes) : res bool :=
  if ep_r ep =? 2 then Ok (bseq (rc4 key padding_string) u)
  else
    rbind (first16 u) (fun u16 =>
      Ok (bseq (rc4_rounds 20 0 key (e_md5 E (padding_string ++ ep_id ep))) u16)).

Section Init.
  Variable E : env.
  Variable rs : Z -> M iobj.

  (** pdf/encryption.go:291-311: the entries of CF, in iteration order *)
  Fixpoint load_cf (ep : encparms) (password : bytes) (length : Z) (cf : dict)
           (fs : list (bytes * cfilter)) : M (list (bytes * cfilter)) :=
    match cf with
    | [] => ret fs
    | (k, ODict cfd) :: cf' =>
        '(m, ok) <- d_name rs cfd (lit "CFM") ;;
        fs <- (if ok : bool then
                 '(l, ok) <- d_int rs cfd (lit "Length") ;;
                 let l := if ok : bool then l else length in
                 if bseq m (lit "None") then ret (mset bseq k CFNone fs)
                 else if bseq m (lit "V2") then
                   key <- lift (compute_key E ep password l) ;; ret (mset bseq k (CFRC4 key) fs)
                 else if bseq m (lit "AESV2") then
                   key <- lift (compute_key E ep password l) ;; ret (mset bseq k (CFAES key) fs)
                 else ret fs
               else ret fs) ;;
        load_cf ep password length cf' fs
    | _ :: cf' => load_cf ep password length cf' fs
    end.

  (** pdf/encryption.go:314-328: an override by name *)
  Definition override (encrypt : dict) (k : bytes) (fs : list (bytes * cfilter)) (dflt : cfilter) : M cfilter :=
    '(name, ok) <- d_name rs encrypt k ;;
    ret (if ok : bool then match mget bseq name fs with Some c => c | None => dflt end else dflt).

  (** pdf/encryption.go:196-210: the key length in bytes *)
  Definition key_length (v : Z) (l : Z * bool) : Z :=
    let len := if v =? 1 then 40 else if snd l then fst l else 40 in
    let len := Z.quot len 8 in
    if len <? 5 then 5 else if 16 <? len then 16 else len.

  (** SecurityHandler.Init, pdf/encryption.go:169-332: [None] is a nil error. *)
  Definition init_security (password : bytes) (trailer : dict) : M (option encerr) :=
    '(encrypt, ok) <- d_dict rs trailer (lit "Encrypt") ;;
    if negb ok then ret (Some EncryptionError) else
    '(flt, _) <- d_name rs encrypt (lit "Filter") ;;
    if negb (bseq flt (lit "Standard")) then ret (Some EncryptionUnsupported) else
    '(v, _) <- d_int rs encrypt (lit "V") ;;
    if negb ((v =? 1) || (v =? 2) || (v =? 4)) then ret (Some EncryptionUnsupported) else
    '(r, _) <- d_int rs encrypt (lit "R") ;;
    if (r <? 2) || (4 <? r) then ret (Some EncryptionUnsupported) else
    l <- (if v =? 1 then ret (40, true) else d_int rs encrypt (lit "Length")) ;;
    let length := key_length v l in
    '(o, ok) <- d_string rs encrypt (lit "O") ;;
    if negb ok then ret (Some EncryptionError) else
    '(u, ok) <- d_string rs encrypt (lit "U") ;;
    if negb ok then ret (Some EncryptionError) else
    '(p, ok) <- d_int rs encrypt (lit "P") ;;
    if negb ok then ret (Some EncryptionError) else
    '(em, ok) <- d_bool rs encrypt (lit "EncryptMetadata") ;;
    let meta := if ok : bool then em else true in
    '(ids, ok) <- d_array rs trailer (lit "ID") ;;
    if negb ok then ret (Some EncryptionError) else
    '(id, ok) <- a_string rs ids 0 ;;
    if negb ok then ret (Some EncryptionError) else
    let ep := {| ep_r := r; ep_o := o; ep_p := put32 p; ep_meta := meta; ep_id := id |} in
    key <- lift (compute_key E ep password length) ;;
    good <- lift (check_key E ep u key) ;;
    if negb good then ret (Some EncryptionPasswordError) else
    let dflt := CFRC4 key in
    let fs := [(lit "Identity", CFNone)] in
    h <- (if r =? 4 then
            '(cf, _) <- d_dict rs encrypt (lit "CF") ;;
            fs <- load_cf ep password length cf fs ;;
            stm <- override encrypt (lit "StmF") fs dflt ;;
            str <- override encrypt (lit "StrF") fs dflt ;;
            eef <- override encrypt (lit "EEF") fs dflt ;;
            ret {| sh_stream := stm; sh_string := str; sh_file := eef; sh_filters := fs |}
          else ret {| sh_stream := dflt; sh_string := dflt; sh_file := dflt; sh_filters := fs |}) ;;
    fun p => Ok (None, with_sh h p).
End Init.
