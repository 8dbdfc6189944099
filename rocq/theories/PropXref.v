(** PropXref.v -- C18-C25 and C60: cross-reference tables and loading. *)
From Verif Require Import Base Msg Reader ReaderP Num Lexer Obj ReadObj Bits Filters Env Getters Crypt Stream GetObj Regex Xref Security Load
  SpecLex SpecObj SpecRead SpecStream SpecScan ScanP RepairP SpecXref XrefP XTermP SpecLook SpecFetch FetchEx XrefEx.
From Coq Require Import Strings.String Sorting.Permutation.

(** ** C18.  [load_xref] runs on fuel (one unit per call); it never runs out of
    it, whatever the Prev links are, as long as the objects at the offsets can
    be fetched. *)
Theorem C18_loading_ends : forall E file h, (forall n q, reads file q -> psh q = h -> exists f, GetObject f E file n q <> OutOfFuel) ->
  forall off p, reads file p -> psh p = h -> exists f0, forall fuel, (f0 <= fuel)%nat -> load_xref fuel E file off [] p <> OutOfFuel.
Proof. exact loading_ends. Qed.
Print Assumptions C18_loading_ends.
Theorem C18_load_ends : forall E file h, (forall n q, reads file q -> psh q = h -> exists f, GetObject f E file n q <> OutOfFuel) ->
  forall ord pw p, reads file p -> psh p = h -> exists f0, forall fuel, (f0 <= fuel)%nat -> load fuel E ord file pw p <> OutOfFuel.
Proof. exact load_ends. Qed.
Print Assumptions C18_load_ends.
(** without the hypothesis, for files without streams *)
Theorem C18_load_ends_no_streams : forall E file ord pw, ~ occurs (lit "stream") file ->
  exists f0, forall fuel, (f0 <= fuel)%nat -> load fuel E ord file pw (new_parser file) <> OutOfFuel.
Proof. exact load_ends_no_streams. Qed.
Print Assumptions C18_load_ends_no_streams.

Example C18_example : reads cyc (new_parser cyc) /\
  (forall E n q, reads cyc q -> psh q = psh (new_parser cyc) -> exists f, GetObject f E cyc n q <> OutOfFuel) /\
  section_at E0 cyc 0 cyc_sec_a (Some 50) /\ section_at E0 cyc 50 cyc_sec_b (Some 0).
Proof. exact C18_ex. Qed.
Example C18_no_streams_example : ~ occurs (lit "stream") cyc.
Proof. exact C18_no_ex. Qed.

(** ** C19 *)
Theorem C19_newer_sections_win : forall E file h off seen secs, chain E file off seen secs ->
  exists F, forall fuel p, (F <= fuel)%nat -> reads file p -> psh p = h ->
  exists p', load_xref fuel E file off seen p = Ok (tt, p') /\ reads file p' /\ psh p' = h /\
    (forall n, xget n (pxref p') = or_else (newest n secs) (xget n (pxref p))) /\
    (forall k, entry (ptrailer p') k = or_else (newest_key k secs) (entry (ptrailer p) k)).
Proof. exact chain_loaded. Qed.
Print Assumptions C19_newer_sections_win.

Example C19_example : chain E0 cyc 0 [] [cyc_sec_a; cyc_sec_b] /\ reads cyc (new_parser cyc) /\
  newest 2 [cyc_sec_a; cyc_sec_b] = Some (new_xentry 20 0 1) /\ newest 3 [cyc_sec_a; cyc_sec_b] = Some (new_xentry 40 5 0) /\
  newest 4 [cyc_sec_a; cyc_sec_b] = None /\ newest_key (lit "K") [cyc_sec_a; cyc_sec_b] = Some (ONum (num_of_Z 1)) /\
  newest_key (lit "L") [cyc_sec_a; cyc_sec_b] = Some (ONum (num_of_Z 3)).
Proof. exact C19_ex. Qed.

(** ** C20 *)
Theorem C20_table : forall file s g T secs r, wf file s -> rest s = g ++ T ++ r -> gap g -> table_text T secs -> section_end r ->
  exists m s', read_xref_table s = (m, s') /\ moved file s s' r [] /\ NoDup (map fst m) /\ forall n, xget n m = latest n (table_lines secs).
Proof. exact table_decoded. Qed.
Print Assumptions C20_table.

Example C20_example : let file := lit " 1 2 10 0 n 20 0 n 9 0 trailer" in
  wf file (open_rd file) /\ gap (lit " ") /\ table_text (lit "1 2 10 0 n 20 0 n 9 0 ") [(1, [(10, 0, true); (20, 0, true)]); (9, [])] /\ section_end (lit "trailer") /\
  rest (open_rd file) = lit " " ++ lit "1 2 10 0 n 20 0 n 9 0 " ++ lit "trailer".
Proof. exact C20_ex. Qed.

(** ** C21.  The stream's own entry is put in before its records are read, and
    again after them if they are all there. *)
Theorem C21_stream : forall E file h off n g behind d data l whole, stream_at E file off n g behind d data -> stream_says d data l whole -> prev_of d None ->
  exists F, forall fuel p, (F <= fuel)%nat -> reads file p -> psh p = h ->
  exists p', load_xref fuel E file off [] p = Ok (tt, p') /\
    forall k, xget k (pxref p') = or_else (latest k ((n, own_entry off g) :: l ++ own_lines whole n (own_entry behind g))) (xget k (pxref p)).
Proof. exact stream_loaded. Qed.
Print Assumptions C21_stream.

Example C21_example : stream_at E0 (xs_file "1" xs_data) 0 4 0 8 (xs_dict 1) xs_data /\ widths_of (xs_dict 1) (1, 2, 1) /\ index_of (xs_dict 1) [(7, 1); (20, 3)] /\
  stream_lines (1, 2, 1) [(7, 1); (20, 3)] xs_data xs_lines false /\ stream_says (xs_dict 1) xs_data xs_lines false /\ prev_of (xs_dict 1) None /\ reads (xs_file "1" xs_data) (new_parser (xs_file "1" xs_data)).
Proof. exact C21_ex. Qed.
(** a name in Index; neither Index nor Size; two widths *)
Example C21_example_rest : stream_says xi_dict xs_data [(7, new_xentry 256 0 1)] false /\
  stream_says [(lit "W", OArr [ONum (num_of_Z 1); ONum (num_of_Z 2); ONum (num_of_Z 1)]); (lit "Size", OName (lit "a"))] xs_data [] false /\
  stream_says [(lit "W", OArr [ONum (num_of_Z 1); ONum (num_of_Z 2)]); (lit "Size", ONum (num_of_Z 3))] xs_data [] false.
Proof. exact C21_ex_rest. Qed.

(** ** C22 *)
Theorem C22_scan : forall E file p fuel, reads file p -> pxref p = [] -> (2 <= fuel)%nat ->
  exists l objs p', find_objects fuel E file p = Ok (objs, p') /\ scan obj_marker file 0 l /\ records file l objs /\
    reads file p' /\ pxref p' = [] /\ ptrailer p' = ptrailer p /\ psh p' = psh p /\ NoDup (map fst objs).
Proof. exact find_objects_records. Qed.
Print Assumptions C22_scan.
(** every marker of the file is one of those found, or begins inside one: at a
    later digit of its number, or behind a comment in it *)
Theorem C22_all_found : forall file l i, scan obj_marker file 0 l -> starts obj_marker file i ->
  exists i' j, In (i', j) l /\ i' <= i < j /\
    ((forall m, i' <= m < i -> exists b r d, zdrop m file = b :: r /\ decdigit b d) \/
     exists m r, i' <= m < j /\ zdrop m file = "%"%byte :: r).
Proof. exact scan_complete. Qed.
Print Assumptions C22_all_found.

Example C22_example : reads scan_doc (new_parser scan_doc) /\ pxref (new_parser scan_doc) = [] /\
  exists p', find_objects 2 E0 scan_doc (new_parser scan_doc) =
    Ok ([(1, new_xentry 47 0 1); (2, {| x_off := 17; x_gen := 0; x_type := 1; x_enc := false; x_stm := true |})], p').
Proof. exact C22_ex. Qed.
Example C22_all_found_example : starts obj_marker scan_doc 17 /\ exists l, scan obj_marker scan_doc 0 l.
Proof. exact C22_complete_ex. Qed.

(** ** C23.  [ord] is any order in which the map is gone through. *)
Theorem C23_repair_completes : forall file l objs p, reads file p -> NoDup (map fst objs) -> Permutation l objs -> exists p',
  repair file l p = Ok (tt, p') /\ reads file p' /\ ptrailer p' = ptrailer p /\ psh p' = psh p /\
  completed objs (pxref p) (pxref p') /\ repaired file objs (pxref p) (pxref p').
Proof. exact repair_does. Qed.
Print Assumptions C23_repair_completes.
Theorem C23_load_completes : forall fuel E ord file pw p r p', reads file p -> pxref p = [] -> (2 <= fuel)%nat ->
  (forall m, Permutation (ord m) m) -> load fuel E ord file pw p = Ok (r, p') ->
  exists l objs q0 q x', scan obj_marker file 0 l /\ records file l objs /\
    reads file q0 /\ pxref q0 = [] /\ load_all fuel E file (xref_offsets file objs) q0 = Ok (tt, q) /\
    completed objs (pxref q) x' /\ forall n, same_apart_from_enc (xget n x') (xget n (pxref p')).
Proof. exact load_completes. Qed.
Print Assumptions C23_load_completes.
Theorem C23_every_marker_has_an_entry : forall fuel E ord file pw p r p', reads file p -> pxref p = [] -> (2 <= fuel)%nat ->
  (forall m, Permutation (ord m) m) -> load fuel E ord file pw p = Ok (r, p') ->
  exists l, scan obj_marker file 0 l /\ forall i j k, In (i, j) l -> number_at file i k -> xget (wrap64 k) (pxref p') <> None.
Proof. exact load_has_markers. Qed.
Print Assumptions C23_every_marker_has_an_entry.

Example C23_example : reads miss_doc (new_parser miss_doc) /\ pxref (new_parser miss_doc) = [] /\ (forall m : xmap, Permutation (rev m) m) /\
  exists p', load 9 E0 (@rev (Z * xentry)) miss_doc [] (new_parser miss_doc) = Ok (None, p') /\
    xget 2 (pxref p') = Some (new_xentry 17 3 1) /\ xget 7 (pxref p') = Some (new_xentry 5 0 1).
Proof. exact C23_ex. Qed.

(** ** C24: the full statement is, for the entry [e] of [n] and the scanned entry
    [s], that the offset becomes that of [s] if and only if not [head_at file
    (x_off e) n].  Both directions fail: [ReadObjectHeader]'s result is tested
    with [ok || n != object_number]. *)
Theorem C24_right_entry_refuted : exists file q e, head_at file (x_off e) 1 /\
  (exists p0, load_all 9 E0 file (xref_offsets file [(1, new_xentry 17 0 1)]) (new_parser file) = Ok (tt, p0) /\ xget 1 (pxref p0) = Some e) /\
  load 9 E0 (fun l => l) file [] (new_parser file) = Ok (None, q) /\ xget 1 (pxref q) <> Some e.
Proof. exact right_refuted. Qed.
Print Assumptions C24_right_entry_refuted.
Theorem C24_wrong_entry_refuted : exists file q e, ~ head_at file (x_off e) 1 /\ head_at file 4 1 /\
  (exists p0, load_all 9 E0 file (xref_offsets file [(1, new_xentry 4 0 1)]) (new_parser file) = Ok (tt, p0) /\ xget 1 (pxref p0) = Some e) /\
  load 9 E0 (fun l => l) file [] (new_parser file) = Ok (None, q) /\ xget 1 (pxref q) = Some e.
Proof. exact wrong_refuted. Qed.
Print Assumptions C24_wrong_entry_refuted.
(** What is true: an entry gets the scanned offset if and only if there is a
    complete header, of whatever object, or another number (or none) at the one
    it had. *)
Theorem C24_repair_partial : forall file l objs p, reads file p -> NoDup (map fst objs) -> Permutation l objs -> exists p',
  repair file l p = Ok (tt, p') /\ reads file p' /\ ptrailer p' = ptrailer p /\ psh p' = psh p /\
  completed objs (pxref p) (pxref p') /\ repaired file objs (pxref p) (pxref p').
Proof. exact repair_does. Qed.
Print Assumptions C24_repair_partial.

Example C24_example : ~ int_at scan_doc 8 1 /\ 0 <= 8 /\ reads scan_doc (new_parser scan_doc) /\ NoDup (map fst [(1, new_xentry 0 0 1); (2, new_xentry 17 0 1)]) /\
  Permutation [(2, new_xentry 17 0 1); (1, new_xentry 0 0 1)] [(1, new_xentry 0 0 1); (2, new_xentry 17 0 1)].
Proof. exact C24_ex. Qed.

(** ** C25 *)
Theorem C25_last_startxref : forall file n, start_xref_offset file = Some n <-> last_start (last256 file) n /\ n < 2 ^ 63.
Proof. exact start_offset. Qed.
Print Assumptions C25_last_startxref.
Theorem C25_xref_keywords : forall file, Sorted.StronglySorted Z.lt (find_xref_offsets file) /\
  forall i, In i (find_xref_offsets file) <-> starts (fun t => t = lit "xref") file i.
Proof. exact xref_positions. Qed.
Print Assumptions C25_xref_keywords.

Example C25_example : last_start (last256 scan_doc) 61 /\ ~ last_start (last256 scan_doc) 9.
Proof. exact C25_ex. Qed.

(** ** C60: the full statement is that with [widths_of d (0, b, c)] the type of
    each entry read is 1.  It is 0. *)
Theorem C60_type_refuted : exists file off n g behind d data l, stream_at E0 file off n g behind d data /\ widths_of d (0, 2, 1) /\
  index_of d [(7, 1); (20, 3)] /\ stream_lines (0, 2, 1) [(7, 1); (20, 3)] data l true /\ prev_of d None /\
  exists p' e, load_xref 9 E0 file off [] (new_parser file) = Ok (tt, p') /\ xget 7 (pxref p') = Some e /\ x_off e = 256 /\ x_type e = 0.
Proof. exact type_refuted. Qed.
Print Assumptions C60_type_refuted.
(** What is true: the generation's default is 0 (with C21, which says that the
    lines are what is read). *)
Theorem C60_generation_partial : forall a b ps data l whole k e, stream_lines (a, b, 0) ps data l whole -> In (k, e) l -> x_gen e = 0.
Proof. exact generation_default. Qed.
Print Assumptions C60_generation_partial.

Example C60_example : exists data l, stream_lines (1, 2, 0) [(7, 1)] data l true /\ l = [(7, new_xentry 256 0 1)].
Proof. exact C60_ex. Qed.
