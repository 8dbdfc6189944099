(** SpecStream.v -- where stream data lies in the file, and which filters it
    passes through, written without reference to the readers. *)
From Verif Require Import Base Num Obj Reader Env Bits Filters SpecLex SpecObj.
From Coq Require Import Strings.String.

(** No end-of-line byte. *)
Definition no_eol (t : bytes) : Prop := forall b, In b t -> b <> x0a /\ b <> x0d.
(** An end-of-line marker in front of [r]. *)
Inductive eol_before : bytes -> bytes -> Prop :=
| eb_lf : forall r, eol_before [x0a] r
| eb_crlf : forall r, eol_before [x0d; x0a] r
| eb_cr : forall b r, b <> x0a -> eol_before [x0d] (b :: r).
(** [stream_head t k]: the line on which [t] starts is [k] bytes long with its end. *)
Definition stream_head (t : bytes) (k : Z) : Prop :=
  exists pre eol r, t = pre ++ eol ++ r /\ no_eol pre /\ eol_before eol r /\ k = zlen (pre ++ eol).

(** An end-of-line marker (or none) behind [d]. *)
Inductive eol_after : bytes -> bytes -> Prop :=
| ea_none : forall d, (forall c b, d = c ++ [b] -> b <> x0a /\ b <> x0d) -> eol_after d []
| ea_lf : forall d, (forall c, d <> c ++ [x0d]) -> eol_after d [x0a]
| ea_cr : forall d, eol_after d [x0d]
| ea_crlf : forall d, eol_after d [x0d; x0a].

(** [m] is part of [t]. *)
Definition occurs (m t : bytes) : Prop := exists a b, t = a ++ m ++ b.

(** The next [k] unread bytes (or all, if there are fewer) are delivered by one
    Read: they are in the buffer, or the buffer is empty and large enough. *)
Definition buffered (k : Z) (s : rd) : Prop :=
  Z.min k (zlen (rest s)) <= buf s \/ (buf s = 0 /\ k <= bufsize).

(** ** Objects in the file *)
(** the header in front of an indirect object *)
Inductive object_head : bytes -> Z -> Z -> Prop :=
| oh_intro : forall g0 a n g1 b g g2, gap g0 -> nat_text a n -> gap g1 -> g1 <> [] -> nat_text b g -> gap g2 ->
    object_head (g0 ++ a ++ g1 ++ b ++ g2 ++ lit "obj") n g.

(** ** Filters of a stream dictionary whose relevant entries are direct objects *)
Definition direct (o : obj) : Prop := forall n g, o <> ORef n g.
Definition key_of (k : bytes) (d : dict) : option obj -> Prop := fun x =>
  match x with
  | Some v => exists d1 d2, d = d1 ++ (k, v) :: d2 /\ ~ In k (map fst d1)
  | None => ~ In k (map fst d)
  end.

Inductive filters_of (d : dict) : list obj -> Prop :=
| fo_arr : forall l, key_of (lit "Filter") d (Some (OArr l)) -> (forall o, In o l -> direct o) -> filters_of d l
| fo_name : forall n, key_of (lit "Filter") d (Some (OName n)) -> filters_of d [OName n]
| fo_none : key_of (lit "Filter") d None -> filters_of d [].
Inductive parms_of (d : dict) : list obj -> Prop :=
| po_arr : forall l, key_of (lit "DecodeParms") d (Some (OArr l)) -> (forall o, In o l -> direct o) -> parms_of d l
| po_dict : forall p, key_of (lit "DecodeParms") d (Some (ODict p)) -> parms_of d [ODict p]
| po_none : key_of (lit "DecodeParms") d None -> parms_of d [].

(** an integer parameter with its default *)
Inductive int_parm (d : dict) (k : bytes) (dflt : Z) : Z -> Prop :=
| ip_num : forall q, key_of k d (Some (ONum q)) -> int_parm d k dflt (num_int q)
| ip_none : key_of k d None -> int_parm d k dflt dflt
| ip_other : forall o, key_of k d (Some o) -> direct o -> (forall q, o <> ONum q) -> int_parm d k dflt dflt.

(** undoing the predictor the parameters call for (its meaning: C30-C32) *)
Definition predicted (pm : dict) (data out : bytes) : Prop :=
  exists p b c w fuel, int_parm pm (lit "Predictor") 1 p /\ int_parm pm (lit "BitsPerComponent") 8 b /\
    int_parm pm (lit "Colors") 1 c /\ int_parm pm (lit "Columns") 1 w /\ reverse_predictor fuel p b c w data = Ok out.

Definition known_filters : list bytes :=
  [lit "ASCIIHexDecode"; lit "ASCII85Decode"; lit "RunLengthDecode"; lit "FlateDecode"; lit "LZWDecode"].

(** One filter.  [None] is a stream that is nil in Go, which happens when
    RunLengthDecode produces nothing.  Data that zlib or lzw cannot decompress at
    all stays as it is. *)
Inductive stage (E : env) : bytes -> dict -> option bytes -> option bytes -> Prop :=
| st_nil : forall f pm, stage E f pm None None
| st_empty : forall f pm, stage E f pm (Some []) (Some [])
| st_other : forall f pm data, ~ In f known_filters -> stage E f pm (Some data) (Some data)
| st_hex : forall pm data, data <> [] -> stage E (lit "ASCIIHexDecode") pm (Some data) (Some (ascii_hex_decode data))
| st_a85 : forall pm data, data <> [] -> stage E (lit "ASCII85Decode") pm (Some data) (Some (ascii85_decode data))
| st_run : forall pm data, data <> [] -> run_length_decode data <> [] ->
    stage E (lit "RunLengthDecode") pm (Some data) (Some (run_length_decode data))
| st_run_nil : forall pm data, data <> [] -> run_length_decode data = [] -> stage E (lit "RunLengthDecode") pm (Some data) None
| st_flate_bad : forall pm data, data <> [] -> (e_zlib E data = None \/ e_zlib E data = Some ([], true)) ->
    stage E (lit "FlateDecode") pm (Some data) (Some data)
| st_flate : forall pm data mid err out, data <> [] -> e_zlib E data = Some (mid, err) -> (mid <> [] \/ err = false) ->
    predicted pm mid out -> stage E (lit "FlateDecode") pm (Some data) (Some out)
| st_lzw_bad : forall pm data early, data <> [] -> int_parm pm (lit "EarlyChange") 1 early ->
    (early = 0 /\ e_lzw E data = ([], true) \/ early <> 0 /\ e_tiff_lzw E data = ([], true)) ->
    stage E (lit "LZWDecode") pm (Some data) (Some data)
| st_lzw : forall pm data early mid err out, data <> [] -> int_parm pm (lit "EarlyChange") 1 early ->
    (early = 0 /\ e_lzw E data = (mid, err) \/ early <> 0 /\ e_tiff_lzw E data = (mid, err)) -> (mid <> [] \/ err = false) ->
    predicted pm mid out -> stage E (lit "LZWDecode") pm (Some data) (Some out).

Definition filter_name (o : obj) : bytes := match o with OName n => n | _ => [] end.
Definition parm_dict (pl : list obj) : dict := match pl with ODict d :: _ => d | _ => [] end.

(** All filters, first to last, each with the parameters of the same index. *)
Inductive decoded (E : env) : list obj -> list obj -> option bytes -> option bytes -> Prop :=
| dc_nil : forall pl x, decoded E [] pl x x
| dc_cons : forall f fl pl x y z, stage E (filter_name f) (parm_dict pl) x y -> decoded E fl (tl pl) y z ->
    decoded E (f :: fl) pl x z.

(** ** Crypt filters *)
(** the document's crypt filter for a stream with dictionary [d] *)
Inductive default_crypt (h : sechandler) (d : dict) : cfilter -> Prop :=
| df_file : key_of (lit "Type") d (Some (OName (lit "EmbeddedFile"))) -> default_crypt h d (sh_file h)
| df_stream : forall x, key_of (lit "Type") d x -> (forall o, x = Some o -> direct o) -> x <> Some (OName (lit "EmbeddedFile")) ->
    default_crypt h d (sh_stream h).
(** the crypt filter a Crypt entry names in its parameters *)
Inductive crypt_name (pm : dict) : bytes -> Prop :=
| cn_name : forall n, key_of (lit "Name") pm (Some (OName n)) -> crypt_name pm n
| cn_identity : key_of (lit "Name") pm None -> crypt_name pm (lit "Identity").
(** [stream_crypt h enc d fl pl c fl' pl']: the crypt filter for a stream, and
    the decode filters and parameters left. *)
Inductive stream_crypt (h : sechandler) (d : dict) : bool -> list obj -> list obj -> cfilter -> list obj -> list obj -> Prop :=
| sc_plain : forall fl pl, stream_crypt h d false fl pl CFNone fl pl
| sc_default : forall fl pl c, default_crypt h d c -> (forall r, fl <> OName (lit "Crypt") :: r) -> stream_crypt h d true fl pl c fl pl
| sc_crypt : forall fl pl n c c0, default_crypt h d c0 -> crypt_name (parm_dict pl) n ->
    (In (n, c) (sh_filters h) \/ (~ In n (map fst (sh_filters h)) /\ c = c0)) -> NoDup (map fst (sh_filters h)) ->
    stream_crypt h d true (OName (lit "Crypt") :: fl) pl c fl (tl pl).
