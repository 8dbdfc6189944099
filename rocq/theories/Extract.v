(** Extract.v -- IndirectObject.Extract and extract (pdf/object.go:33-123),
    File.Extract (pdf/file.go), Action.Extract (pdf/action.go). *)
From Verif Require Import Base Msg Reader Num Lexer Obj Env Getters GetObj Font Page Tree Output.
From Coq Require Import Strings.String.
Local Open Scope x_scope.

Section Extract.
  Variable E : env.
  Variable OD : order.
  Variable rs : Z -> M iobj.
  Variable fuel : nat.

  Definition stream_bytes (s : option bytes) : bytes :=
    match s with Some b => b | None => [] end.

  (** File.Extract, pdf/file.go:11-43.  At line 39 the outer [p] is the empty
      string, because GetString("P") failed. *)
  Definition file_extract (d : dict) (is_command : bool) : X unit :=
    '(fs, _) <- xlift (d_string rs d (lit "FS")) ;;
    if bseq fs (lit "URL") then
      '(f, ok) <- xlift (d_string rs d (lit "F")) ;;
      if ok : bool then xout [println FURLs f] else xret tt
    else
      '(ef, ok) <- xlift (d_dict rs d (lit "EF")) ;;
      if ok : bool then
        '(data, _) <- xlift (d_stream rs ef (lit "F")) ;;
        '(f, ok) <- xlift (d_string rs d (lit "F")) ;;
        xout (dump_file E (if ok : bool then f else unknownHash) (stream_bytes data))
      else
        '(p, ok) <- xlift (d_string rs d (lit "P")) ;;
        if ok : bool then
          '(f, ok) <- xlift (d_string rs d (lit "F")) ;;
          if ok : bool then
            xout [manifest_line unknownHash f; EWrite FCommands (f ++ lit " " ++ p ++ [x0a])]
          else xret tt
        else
          '(f, ok) <- xlift (d_string rs d (lit "F")) ;;
          if ok : bool then
            xout ((if is_command then [EWrite FCommands (f ++ lit " " ++ p ++ [x0a])] else [])
                  ++ [manifest_line unknownHash f])
          else xret tt.

  (** Action.Extract, pdf/action.go:9-26 *)
  Definition action_extract (d : dict) : X unit :=
    '(s, ok) <- xlift (d_name rs d (lit "S")) ;;
    let is_command := ok && bseq s (lit "Launch") in
    '(f, ok) <- xlift (d_string rs d (lit "F")) ;;
    (if ok : bool then xout [manifest_line unknownHash f]
     else
       '(f, ok) <- xlift (d_dict rs d (lit "F")) ;;
       if ok : bool then file_extract f is_command else xret tt) ;;;
    '(win, ok) <- xlift (d_dict rs d (lit "Win")) ;;
    if ok : bool then file_extract win is_command else xret tt.

  (** pdf/object.go:43-50: an action held by key [k] *)
  Definition action_at (d : dict) (k : bytes) : X unit :=
    '(a, ok) <- xlift (d_dict rs d k) ;;
    if ok : bool then action_extract a else xret tt.

  (** pdf/object.go:52-59 *)
  Definition additional_actions (st : site) (d : dict) : X unit :=
    '(aa, ok) <- xlift (d_dict rs d (lit "AA")) ;;
    if ok : bool
    then xseq (map (action_at aa) (o_map OD (0 :: st) bytes (map fst aa)))
    else xret tt.

  (** pdf/object.go:65-70: the streams of an XFA array, concatenated *)
  Fixpoint xfa_streams (k : nat) (i : Z) (a : list obj) (acc : bytes) : M bytes :=
    match k with
    | O => ret acc
    | S k' =>
        bind (a_stream rs a i) (fun '(s, ok) =>
          xfa_streams k' (i + 1) a (if ok : bool then acc ++ stream_bytes s else acc))
    end.

  (** pdf/object.go:61-72 *)
  Definition forms (d : dict) : X unit :=
    '(form, ok) <- xlift (d_stream rs d (lit "XFA")) ;;
    if ok : bool then xout (dump_file E (lit "form.xml") (stream_bytes form))
    else
      '(form, ok) <- xlift (d_array rs d (lit "XFA")) ;;
      if ok : bool then
        data <- xlift (xfa_streams (List.length form) 0 form []) ;;
        xout (dump_file E (lit "form.xml") data)
      else xret tt.

  (** pdf/object.go:76-82: the odd positions of the embedded files' name tree *)
  Fixpoint embedded_loop (k : nat) (i : Z) (l : list obj) : X unit :=
    match k with
    | O => xret tt
    | S k' =>
        if i <? zlen l then
          '(f, ok) <- xlift (a_string rs l i) ;;
          (if ok : bool then xout [manifest_line unknownHash f]
           else
             '(f, ok) <- xlift (a_dict rs l i) ;;
             if ok : bool then file_extract f false else xret tt) ;;;
          embedded_loop k' (i + 2) l
        else xret tt
    end.

  (** pdf/object.go:74-82 *)
  Definition embedded_files (d : dict) : X unit :=
    l <- xlift (name_tree_map rs fuel d (lit "EmbeddedFiles")) ;;
    embedded_loop (List.length l) 1 l.

  (** pdf/object.go:84-89 *)
  Definition javascript (d : dict) : X unit :=
    '(js, ok) <- xlift (d_string rs d (lit "JS")) ;;
    if ok : bool then xout [println FJavascript js]
    else
      '(js, ok) <- xlift (d_stream rs d (lit "JS")) ;;
      if ok : bool then xout [println FJavascript (stream_bytes js)] else xret tt.

  (** pdf/object.go:93-95 *)
  Fixpoint pages_loop (st : site) (i : Z) (l : list dict) : X unit :=
    match l with
    | [] => xret tt
    | d :: l' => page_extract E OD rs fuel (i :: st) d ;;; pages_loop st (i + 1) l'
    end.

  (** pdf/object.go:91-96 *)
  Definition page_text_of (st : site) (d : dict) : X unit :=
    '(pages, ok) <- xlift (page_tree rs fuel d (lit "Pages")) ;;
    if ok : bool then pages_loop (1 :: st) 0 pages else xret tt.

  (** pdf/object.go:98-105 *)
  Definition uris (d : dict) : X unit :=
    '(url, ok) <- xlift (d_string rs d (lit "URI")) ;;
    if ok : bool then xout [println FURLs url]
    else
      '(url, ok) <- xlift (d_dict rs d (lit "URI")) ;;
      if ok : bool then
        '(base, ok) <- xlift (d_string rs url (lit "Base")) ;;
        if ok : bool then xout [println FURLs base] else xret tt
      else xret tt.

  (** pdf/object.go:109-113: the even positions of the URLS name tree *)
  Fixpoint urls_loop (k : nat) (i : Z) (l : list obj) : X unit :=
    match k with
    | O => xret tt
    | S k' =>
        if i <? zlen l then
          '(u, ok) <- xlift (a_string rs l i) ;;
          (if ok : bool then xout [println FURLs u] else xret tt) ;;;
          urls_loop k' (i + 2) l
        else xret tt
    end.

  (** pdf/object.go:107-113 *)
  Definition urls_tree (d : dict) : X unit :=
    l <- xlift (name_tree_map rs fuel d (lit "URLS")) ;;
    urls_loop (List.length l) 0 l.

  (** what extract does with a dictionary itself, pdf/object.go:42-113 *)
  Definition extract_here (st : site) (d : dict) : X unit :=
    action_at d (lit "A") ;;;
    action_at d (lit "OpenAction") ;;;
    additional_actions st d ;;;
    forms d ;;;
    embedded_files d ;;;
    javascript d ;;;
    page_text_of st d ;;;
    uris d ;;;
    urls_tree d.

  (** extract, pdf/object.go:40-123; references inside are not followed. *)
  Fixpoint extract (st : site) (o : obj) {struct o} : X unit :=
    match o with
    | ODict d =>
        extract_here st d ;;;
        xseq (o_map OD (2 :: st) (X unit)
          ((fix go (i : Z) (d : list (bytes * obj)) : list (X unit) :=
              match d with
              | [] => []
              | (_, x) :: d' => extract (i :: 3 :: st) x :: go (i + 1) d'
              end) 0 d))
    | OArr l =>
        xseq ((fix go (i : Z) (l : list obj) : list (X unit) :=
                 match l with
                 | [] => []
                 | x :: l' => extract (i :: 4 :: st) x :: go (i + 1) l'
                 end) 0 l)
    | _ => xret tt
    end.

  (** IndirectObject.Extract, pdf/object.go:33-38 *)
  Definition object_extract (st : site) (o : iobj) : X unit :=
    match ival o with ODict d => extract st (ODict d) | _ => xret tt end.
End Extract.
