(** Page.v -- pdf/page.go. *)
From Verif Require Import Base Msg Reader Num Lexer Obj ReadObj Env Getters GetObj Font Output.
From Coq Require Import Strings.String.

(** font_map of pdf/page.go:15 *)
Definition fontmap := list (bytes * font).

Section Page.
  Variable E : env.
  (** the content stream of the page parser, pdf/page.go:37 *)
  Variable contents : bytes.
  Variable fonts : fontmap.

  Local Open Scope x_scope.

  (** pdf/page.go:75-78: the strings at the even positions of the operand
      ([i] += 2), concatenated; [k] counts down. *)
  Fixpoint tj_strings (k : nat) (rs : Z -> M iobj) (i : Z) (a : list obj) (acc : bytes) : M bytes :=
    match k with
    | O => ret acc
    | S k' =>
        if i <? zlen a then
          bind (a_string rs a i) (fun '(s, _) => tj_strings k' rs (i + 2) a (acc ++ s))
        else ret acc
    end.

  (** decode a string with a font and write it as a line, pdf/page.go:68-70,79-80 *)
  Definition show (f : font) (s : bytes) : X unit :=
    t <- xlift (lift (font_decode f s)) ;;
    xout [EWrite FText t; EWrite FText [x0a]].

  (** One text object, pdf/page.go:51-82.  The result is reached when ET was
      read or the stream ended. *)
  Fixpoint text_loop (fuel : nat) (cur : font) : X unit :=
    match fuel with
    | O => fun _ => ([], OutOfFuel)
    | S n =>
        '((cmd, ops), e) <- xlift (onrdr (ReadCommand contents)) ;;
        match e with
        | EReadError => xret tt
        | _ =>
            let rs := Resolve n E contents in
            if bseq cmd (lit "ET") then xret tt
            else if bseq cmd (lit "Tf") then
              '(name, _) <- xlift (a_name rs ops (zlen ops - 2)) ;;
              text_loop n (match mget bseq name fonts with Some f => f | None => font_default end)
            else if bseq cmd (lit "Tj") || bseq cmd (lit "'") || bseq cmd [x22] then
              '(s, _) <- xlift (a_string rs ops (zlen ops - 1)) ;;
              show cur s ;;;
              text_loop n cur
            else if bseq cmd (lit "TJ") then
              '(a, _) <- xlift (a_array rs ops (zlen ops - 1)) ;;
              s <- xlift (tj_strings (S (List.length a)) rs 0 a []) ;;
              show cur s ;;;
              text_loop n cur
            else text_loop n cur
        end
    end.

  (** pdf/page.go:39-84 *)
  Fixpoint contents_loop (fuel : nat) : X unit :=
    match fuel with
    | O => fun _ => ([], OutOfFuel)
    | S n =>
        '((cmd, _), e) <- xlift (onrdr (ReadCommand contents)) ;;
        match e with
        | EReadError => xret tt
        | _ =>
            if bseq cmd (lit "BT") then
              text_loop n font_default ;;;
              contents_loop n
            else contents_loop n
        end
    end.
End Page.

(** Page.extract, pdf/page.go:35-85: a parser of its own over the contents. *)
Definition page_text (fuel : nat) (E : env) (fonts : fontmap) (contents : bytes) : list ev * res unit :=
  match contents_loop E contents fonts fuel (new_parser contents) with
  | (w, Ok (_, _)) => (w, Ok tt)
  | (w, Panic) => (w, Panic)
  | (w, OutOfFuel) => (w, OutOfFuel)
  end.

(** run it inside the code of the main parser *)
Definition xpure {A} (x : list ev * res A) : X A :=
  fun p => (fst x, match snd x with Ok a => Ok (a, p) | Panic => Panic | OutOfFuel => OutOfFuel end).

Section Page2.
  Variable E : env.
  Variable OD : order.
  Variable rs : Z -> M iobj.
  Variable fuel : nat.
  Local Open Scope x_scope.

  (** pdf/page.go:18-21 *)
  Fixpoint load_fonts (names : list bytes) (fonts : dict) (fm : fontmap) : M fontmap :=
    match names with
    | [] => ret fm
    | k :: names' =>
        bind (d_dict rs fonts k) (fun '(info, _) =>
        bind (new_font fuel E rs info) (fun f =>
        load_fonts names' fonts (mset bseq k f fm)))
    end.

  (** pdf/page.go:26-32 *)
  Fixpoint contents_array (k : nat) (i : Z) (fm : fontmap) (a : list obj) : X unit :=
    match k with
    | O => xret tt
    | S k' =>
        '(c, ok) <- xlift (a_stream rs a i) ;;
        (if ok : bool
         then xpure (page_text fuel E fm (match c with Some c => c | None => [] end))
         else xret tt) ;;;
        contents_array k' (i + 1) fm a
    end.

  (** Page.Extract, pdf/page.go:11-33 *)
  Definition page_extract (st : site) (d : dict) : X unit :=
    '(resources, _) <- xlift (d_dict rs d (lit "Resources")) ;;
    '(fonts, _) <- xlift (d_dict rs resources (lit "Font")) ;;
    fm <- xlift (load_fonts (o_map OD st bytes (map fst fonts)) fonts []) ;;
    '(c, ok) <- xlift (d_stream rs d (lit "Contents")) ;;
    if ok : bool then xpure (page_text fuel E fm (match c with Some c => c | None => [] end))
    else
      '(a, ok) <- xlift (d_array rs d (lit "Contents")) ;;
      if ok : bool then contents_array (List.length a) 0 fm a else xret tt.
End Page2.
