(** UnitTests.v -- the tests of pdf/unit_test.go carried out on the model: each
    file of pdf/test is loaded and gives what the test expects of the program.
    These are tests of the transcription, not properties; no theorem uses them.
    TestMaxCmapSize (315-351) is left out: it only measures the time, and C45
    shows that loading such a character map ends. *)
From Verif Require Import Base Msg Reader Num Lexer Obj ReadObj Env Getters Crypt GetObj Xref Load Output Render Md5 Inflate UnitData.
From Coq Require Import Strings.String.

(** The library functions that the tests need. *)
Definition ET : env := {| e_md5 := md5; e_aes_dec := fun _ b => b; e_zlib := zlib_read; e_lzw := lzw_read 0; e_tiff_lzw := lzw_read 1; e_fmt := fun _ => []; e_verbose := Some false |}.
Definition OT : order := mkorder (fun _ _ l => l) (fun x => x) (fun x => x).
(** parser := NewParser(f, nil); parser.Load("") *)
Definition loaded (file : bytes) : option pst := match load 40 ET (fun l => l) file [] (new_parser file) with Ok (None, p) => Some p | _ => None end.
(** parser.GetObject(n) *)
Definition object (file : bytes) (n : Z) : option iobj := match loaded file with Some p => match GetObject 40 ET file n p with Ok (o, _) => Some o | _ => None end | None => None end.
(** object.Value.String() *)
Definition value (file : bytes) (n : Z) : option bytes := option_map (fun o => obj_string ET OT [] (ival o)) (object file n).
(** object.Stream *)
Definition stream (file : bytes) (n : Z) : option bytes := match object file n with Some o => istream o | None => None end.
(** Resolve().String() of an object that is a reference *)
Definition referred (file : bytes) (n : Z) : option bytes :=
  match loaded file with
  | Some p => match GetObject 40 ET file n p with
              | Ok (o, p) => match ival o with
                             | ORef m _ => match Resolve 40 ET file m p with Ok (o, _) => Some (obj_string ET OT [] (ival o)) | _ => None end
                             | _ => None
                             end
              | _ => None
              end
  | None => None
  end.
(** object.Value.(Dictionary).GetString(key) *)
Definition entry_string (file : bytes) (n : Z) (key : bytes) : option bytes :=
  match loaded file with
  | Some p => match GetObject 40 ET file n p with
              | Ok (o, p) => match ival o with
                             | ODict d => match d_string (Resolve 40 ET file) d key p with Ok ((s, _), _) => Some s | _ => None end
                             | _ => None
                             end
              | _ => None
              end
  | None => None
  end.
(** the elements of object.Value.(Array), each by String() *)
Definition elements (file : bytes) (n : Z) : option (list bytes) := match object file n with Some o => match ival o with OArr l => Some (map (obj_string ET OT []) l) | _ => None end | None => None end.
(** len(parser.Xref) *)
Definition xref_length (file : bytes) : option nat := option_map (fun p => List.length (pxref p)) (loaded file).

(** TestComments, pdf/unit_test.go:17-39 *)
Example TestComments : value comments 1 = Some (lit "(%this is not a comment)").
Proof. vm_compute. reflexivity. Qed.
(** TestEmptyArray, pdf/unit_test.go:41-63 *)
Example TestEmptyArray : value empty_array 1 = Some (lit "[]").
Proof. vm_compute. reflexivity. Qed.
(** TestEmptyDictionary, pdf/unit_test.go:65-87 *)
Example TestEmptyDictionary : value empty_dictionary 1 = Some (lit "<<>>").
Proof. vm_compute. reflexivity. Qed.
(** TestFilterASCII85Decode, pdf/unit_test.go:121-143 *)
Example TestFilterASCII85Decode : stream filter_ascii_85_decode 1 = Some (unhex "00000000" ++
  lit "%!FontType").
Proof. vm_compute. reflexivity. Qed.
(** TestFilterASCIIHexDecode, pdf/unit_test.go:145-167 *)
Example TestFilterASCIIHexDecode : stream filter_ascii_hex_decode 1 = Some (lit "Hellop").
Proof. vm_compute. reflexivity. Qed.
(** TestFilterFlateDecode, pdf/unit_test.go:169-191 *)
Example TestFilterFlateDecode : stream filter_flate_decode 1 = Some (lit "hello world
hello world
hello world
hello world
hello world
").
Proof. vm_compute. reflexivity. Qed.
(** TestFilterLZWDecode, pdf/unit_test.go:193-215 *)
Example TestFilterLZWDecode : stream filter_lzw_decode 1 = Some (lit "hello world!").
Proof. vm_compute. reflexivity. Qed.
(** TestFilterLZWTiffDecode, pdf/unit_test.go:217-239 *)
Example TestFilterLZWTiffDecode : stream filter_lzw_tiff_decode 1 = Some (lit "hello world!").
Proof. vm_compute. reflexivity. Qed.
(** TestFilterMultiple, pdf/unit_test.go:241-263 *)
Example TestFilterMultiple : stream filter_multiple 1 = Some (lit "hello world
hello world
hello world
hello world
hello world
").
Proof. vm_compute. reflexivity. Qed.
(** TestFilterRunLengthDecode, pdf/unit_test.go:265-287 *)
Example TestFilterRunLengthDecode : stream filter_run_length_decode 1 = Some (lit "Hello").
Proof. vm_compute. reflexivity. Qed.
(** TestMalformedDictionaryKey, pdf/unit_test.go:289-313 *)
Example TestMalformedDictionaryKey : entry_string malformed_dictionary_key 1 (lit "HiddenObject") = Some (lit "Hello World").
Proof. vm_compute. reflexivity. Qed.
(** TestNames, pdf/unit_test.go:353-375 *)
Example TestNames : value names 1 = Some (lit "/Hello /World!" ++
  unhex "00" ++
  lit "qz").
Proof. vm_compute. reflexivity. Qed.
(** TestReference, pdf/unit_test.go:377-408 *)
Example TestReference : referred reference 1 = Some (lit "(Hello World!)").
Proof. vm_compute. reflexivity. Qed.
(** TestReferenceLoop, pdf/unit_test.go:410-457 *)
Example TestReferenceLoop : referred reference_loop 1 = Some (lit "null").
Proof. vm_compute. reflexivity. Qed.
(** TestReferenceNull, pdf/unit_test.go:459-490 *)
Example TestReferenceNull : referred reference_null 1 = Some (lit "null").
Proof. vm_compute. reflexivity. Qed.
(** TestCarriageReturn, pdf/unit_test.go:492-514 *)
Example TestCarriageReturn : stream carriage_return 1 = Some (lit "Hello").
Proof. vm_compute. reflexivity. Qed.
(** TestStrings, pdf/unit_test.go:516-553 *)
Example TestStrings : option_map (firstn 4) (elements strings 1) = Some [lit "(newline
newline char
no newline(balance parens allowed) escaped paren ) \n Hello??7)";
  lit "(Hellop)";
  lit "()";
  lit "()"].
Proof. vm_compute. reflexivity. Qed.
(** TestUnclosedArray, pdf/unit_test.go:555-593 *)
Example TestUnclosedArray : value unclosed_array 1 = Some (lit "[]").
Proof. vm_compute. reflexivity. Qed.
(** TestUnclosedComment, pdf/unit_test.go:595-633 *)
Example TestUnclosedComment : value unclosed_comment 1 = Some (lit "null").
Proof. vm_compute. reflexivity. Qed.
(** TestUnclosedDictionary, pdf/unit_test.go:635-668 *)
Example TestUnclosedDictionary : object unclosed_dictionary 1 <> None.
Proof. vm_compute. discriminate. Qed.
(** TestUnclosedDictionaryKey, pdf/unit_test.go:669-702 *)
Example TestUnclosedDictionaryKey : object unclosed_dictionary_key 1 <> None.
Proof. vm_compute. discriminate. Qed.
(** TestUnclosedHexString, pdf/unit_test.go:704-742 *)
Example TestUnclosedHexString : value unclosed_hex_string 1 = Some (lit "()").
Proof. vm_compute. reflexivity. Qed.
(** TestUnclosedName, pdf/unit_test.go:744-782 *)
Example TestUnclosedName : value unclosed_name 1 = Some (lit "/").
Proof. vm_compute. reflexivity. Qed.
(** TestUnclosedNameEscape1, pdf/unit_test.go:784-822 *)
Example TestUnclosedNameEscape1 : value unclosed_name_escape_1 1 = Some (lit "/" ++
  unhex "00").
Proof. vm_compute. reflexivity. Qed.
(** TestUnclosedNameEscape2, pdf/unit_test.go:824-862 *)
Example TestUnclosedNameEscape2 : value unclosed_name_escape_2 1 = Some (lit "/0").
Proof. vm_compute. reflexivity. Qed.
(** TestUnclosedString, pdf/unit_test.go:864-902 *)
Example TestUnclosedString : value unclosed_string 1 = Some (lit "()").
Proof. vm_compute. reflexivity. Qed.
(** TestUnclosedStringEscape, pdf/unit_test.go:904-942 *)
Example TestUnclosedStringEscape : value unclosed_string_escape 1 = Some (lit "(\)").
Proof. vm_compute. reflexivity. Qed.
(** TestUnclosedStringOctal1, pdf/unit_test.go:944-982 *)
Example TestUnclosedStringOctal1 : value unclosed_string_octal_1 1 = Some (lit "(" ++
  unhex "01" ++
  lit ")").
Proof. vm_compute. reflexivity. Qed.
(** TestUnclosedStringOctal2, pdf/unit_test.go:984-1022 *)
Example TestUnclosedStringOctal2 : value unclosed_string_octal_2 1 = Some (lit "(
)").
Proof. vm_compute. reflexivity. Qed.
(** TestXrefLoop, pdf/unit_test.go:1024-1059 *)
Example TestXrefLoop : xref_length xref_loop = Some 10%nat.
Proof. vm_compute. reflexivity. Qed.
(** TestXrefRepair, pdf/unit_test.go:1061-1088 *)
Example TestXrefRepair : xref_length xref_repair = Some 9%nat /\ value xref_repair 9 = Some (lit "(Hello world)").
Proof. vm_compute. split; reflexivity. Qed.
(** TestXrefStreamChain, pdf/unit_test.go:1090-1117 *)
Example TestXrefStreamChain : xref_length xref_stream_chain = Some 11%nat /\ value xref_stream_chain 10 = Some (lit "(Hello World!)").
Proof. vm_compute. split; reflexivity. Qed.
(** TestXrefStreamIndexDefault, pdf/unit_test.go:1119-1146 *)
Example TestXrefStreamIndexDefault : xref_length xref_stream_index_default = Some 10%nat /\ value xref_stream_index_default 9 = Some (lit "(Hello World!)").
Proof. vm_compute. split; reflexivity. Qed.
(** TestXrefTableChain, pdf/unit_test.go:1148-1167 *)
Example TestXrefTableChain : xref_length xref_table_chain = Some 10%nat.
Proof. vm_compute. reflexivity. Qed.
(** TestEncrypted, pdf/unit_test.go:89-119 *)
Example TestEncrypted : entry_string encrypted 12 (lit "Lang") = Some (lit "en-US") /\
  option_map (firstn 8) (stream encrypted 8) = Some (lit "/CIDInit").
Proof. vm_compute. split; reflexivity. Qed.
