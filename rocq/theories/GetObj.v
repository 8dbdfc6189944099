(** GetObj.v -- GetObject and ReadStream (pdf/parser.go), DecodeStream,
    FlateDecode, LZWDecode, ReversePredictor's parameters (pdf/filters.go) and
    Reference.Resolve (pdf/reference.go).

    GetObject and resolve call each other and need not terminate: both take
    fuel and return [OutOfFuel] when it runs out. *)
From Verif Require Import Base Msg Reader Num Lexer Obj ReadObj Bits Filters Env Getters Crypt Stream.
From Coq Require Import Strings.String.
Local Open Scope m_scope.

Section Decode.
  Variable E : env.
  (** Reference.Resolve *)
  Variable rs : Z -> M iobj.
  (** fuel for ReversePredictor's loops *)
  Variable fuel : nat.

  (** [v, ok := parms.GetInt(k); if !ok { v = dflt }], pdf/filters.go:233-236,257-272 *)
  Definition int_or (parms : dict) (k : bytes) (dflt : Z) : M Z :=
    '(v, ok) <- d_int rs parms k ;; ret (if ok : bool then v else dflt).

  (** ReversePredictor, pdf/filters.go:255-404 *)
  Definition rev_predictor (data : bytes) (parms : dict) : M bytes :=
    predictor <- int_or parms (lit "Predictor") 1 ;;
    bpc <- int_or parms (lit "BitsPerComponent") 8 ;;
    colors <- int_or parms (lit "Colors") 1 ;;
    columns <- int_or parms (lit "Columns") 1 ;;
    lift (reverse_predictor fuel predictor bpc colors columns data).

  (** FlateDecode, pdf/filters.go:210-228 *)
  Definition flate_decode (data : bytes) (parms : dict) : M bytes :=
    match e_zlib E data with
    | None => ret data
    | Some (out, err) =>
        if (zlen out =? 0) && err then ret data else rev_predictor out parms
    end.

  (** LZWDecode, pdf/filters.go:230-253 *)
  Definition lzw_decode (data : bytes) (parms : dict) : M bytes :=
    early <- int_or parms (lit "EarlyChange") 1 ;;
    let '(out, err) := if early =? 0 then e_lzw E data else e_tiff_lzw E data in
    if (zlen out =? 0) && err then ret data else rev_predictor out parms.

  (** DecodeStream, pdf/filters.go:14-47; [None] is a nil slice, which
      RunLengthDecode returns when it writes nothing (filters.go:166,207). *)
  Definition decode_stream (filter : bytes) (data : option bytes) (parms : dict) : M (option bytes) :=
    match data with
    | None => ret None
    | Some [] => ret (Some [])
    | Some data =>
        if bseq filter (lit "ASCIIHexDecode") then ret (Some (ascii_hex_decode data))
        else if bseq filter (lit "ASCII85Decode") then ret (Some (ascii85_decode data))
        else if bseq filter (lit "RunLengthDecode") then
          ret (match run_length_decode data with [] => None | out => Some out end)
        else if bseq filter (lit "FlateDecode") then
          out <- flate_decode data parms ;; ret (Some out)
        else if bseq filter (lit "LZWDecode") then
          out <- lzw_decode data parms ;; ret (Some out)
        else ret (Some data)
    end.

  (** ReadStream's decoding loop, pdf/parser.go:983-988; [i] counts up while
      [k] = len(filter_list) - i counts down. *)
  Fixpoint decode_loop (k : nat) (i : Z) (filters parms : list obj) (data : option bytes) : M (option bytes) :=
    match k with
    | O => ret data
    | S k' =>
        '(f, _) <- a_name rs filters i ;;
        '(dp, _) <- a_dict rs parms i ;;
        data <- decode_stream f data dp ;;
        decode_loop k' (i + 1) filters parms data
    end.

  (** ReadStream, pdf/parser.go:907-992 *)
  Definition read_stream (dec : decryptor) (filters parms : list obj) : M (option bytes) :=
    raw <- onrd read_stream_raw ;;
    match raw with
    | None => ret (Some [])
    | Some d =>
        d <- lift (dec d) ;;
        decode_loop (List.length filters) 0 filters parms (Some d)
    end.

  (** GetObject's list of decode filters, pdf/parser.go:402-410 *)
  Definition filter_list (d : dict) : M (list obj) :=
    '(l, ok) <- d_array rs d (lit "Filter") ;;
    if ok : bool then ret l
    else
      '(n, ok) <- d_name rs d (lit "Filter") ;;
      ret (if ok : bool then [OName n] else []).

  (** GetObject's list of decode parameters, pdf/parser.go:412-420 *)
  Definition parms_list (d : dict) : M (list obj) :=
    '(l, ok) <- d_array rs d (lit "DecodeParms") ;;
    if ok : bool then ret l
    else
      '(p, ok) <- d_dict rs d (lit "DecodeParms") ;;
      ret (if ok : bool then [ODict p] else []).

  (** GetObject's choice of the stream's crypt filter, pdf/parser.go:422-450;
      returns the filter and the remaining filter and parameter lists. *)
  Definition choose_crypt (encrypted : bool) (d : dict) (fl pl : list obj)
    : M (cfilter * (list obj * list obj)) :=
    if encrypted then
      fun p => (
      let h := psh p in
      '(t, ok) <- d_name rs d (lit "Type") ;;
      let cf := if ok && bseq t (lit "EmbeddedFile") then sh_file h else sh_stream h in
      match fl with
      | [] => ret (cf, (fl, pl))
      | _ :: fl' =>
          '(f, _) <- a_name rs fl 0 ;;
          if bseq f (lit "Crypt") then
            '(dp, _) <- a_dict rs pl 0 ;;
            '(name, ok) <- d_name rs dp (lit "Name") ;;
            let name := if ok : bool then name else lit "Identity" in
            let cf := match mget bseq name (sh_filters h) with Some c => c | None => cf end in
            ret (cf, (fl', tl pl))
          else ret (cf, (fl, pl))
      end) p
    else ret (CFNone, (fl, pl)).

  (** GetObject for an entry of type XrefTypeIndirectObject, pdf/parser.go:375-455 *)
  Definition get_in_use (file : bytes) (n : Z) (e : xentry) : M iobj :=
    pseek file (x_off e) ;;;
    onrd read_object_header ;;;
    fun p => (
    let string_filter := if x_enc e then sh_string (psh p) else CFNone in
    '(v, _) <- onrdr (ReadObject file (new_decryptor E string_filter n (x_gen e))) ;;
    kw <- onrd read_keyword ;;
    if bseq kw (lit "stream") then
      let d := match v with ODict d => d | _ => [] end in
      fl <- filter_list d ;;
      pl <- parms_list d ;;
      '(cf, (fl, pl)) <- choose_crypt (x_enc e) d fl pl ;;
      st <- read_stream (new_decryptor E cf n (x_gen e)) fl pl ;;
      ret {| inum := n; igen := x_gen e; ival := v; istream := st |}
    else ret {| inum := n; igen := x_gen e; ival := v; istream := None |}) p.
End Decode.

(** [Resolve] and [ResolveStream] around [resolve], pdf/reference.go:22-48: the
    current offset is saved and restored. *)
Definition restoring (file : bytes) (m : M iobj) : M iobj :=
  fun p => (o <- m ;; pseek file (pos (prd p)) ;;; ret o) p.

Definition zmem (n : Z) (l : list Z) : bool := existsb (Z.eqb n) l.

(** GetObject, pdf/parser.go:370-460, and resolve, pdf/reference.go:50-67;
    [seen] is resolved_references. *)
Fixpoint get_object (fuel : nat) (E : env) (file : bytes) (n : Z) {struct fuel} : M iobj :=
  match fuel with
  | O => fun _ => OutOfFuel
  | S f =>
      fun p =>
        match xget n (pxref p) with
        | None => Ok (new_iobj n, p)
        | Some e =>
            if x_type e =? XrefTypeIndirectObject then
              get_in_use E (fun r => restoring file (resolve f E file r [])) f file n e p
            else Ok (new_iobj n, p)
        end
  end
with resolve (fuel : nat) (E : env) (file : bytes) (n : Z) (seen : list Z) {struct fuel} : M iobj :=
  match fuel with
  | O => fun _ => OutOfFuel
  | S f =>
      if zmem n seen then ret (new_iobj n)
      else
        o <- get_object f E file n ;;
        match ival o with
        | ORef n' _ => resolve f E file n' (n :: seen)
        | _ => ret o
        end
  end.

(** Reference.Resolve (Value) / ResolveStream (Stream), pdf/reference.go:22-48 *)
Definition Resolve (fuel : nat) (E : env) (file : bytes) (n : Z) : M iobj :=
  restoring file (resolve fuel E file n []).

(** GetObject, pdf/parser.go:370 *)
Definition GetObject := get_object.
