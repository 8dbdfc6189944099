(** Render.v -- the String methods (pdf/object.go:23-31, array.go:9-20,
    dictionary.go:9-20, reference.go:18-20, number.go:9-11, string.go:5-7,
    name.go:5-7, keyword.go:33-35). *)
From Verif Require Import Base Msg Reader Num Lexer Obj Env Output.
From Coq Require Import Strings.String.

Section Render.
  Variable E : env.
  Variable OD : order.

  (** Object.String; [st] is the site of the map iterations. *)
  Fixpoint obj_string (st : site) (o : obj) {struct o} : bytes :=
    match o with
    | ONum v => e_fmt E v
    | OStr v => lit "(" ++ v ++ lit ")"
    | OName v => lit "/" ++ v
    | OKw v => v
    | ORef n g => dec_of_Z n ++ lit " " ++ dec_of_Z g ++ lit " R"
    | OArr l =>
        (* array.go:9-20 *)
        lit "[" ++
        (fix go (i : Z) (l : list obj) : bytes :=
           match l with
           | [] => []
           | [x] => obj_string (i :: st) x
           | x :: l' => obj_string (i :: st) x ++ lit " " ++ go (i + 1) l'
           end) 0 l
        ++ lit "]"
    | ODict d =>
        (* dictionary.go:9-20 *)
        lit "<<" ++
        List.concat (o_map OD st bytes
          ((fix go (i : Z) (d : list (bytes * obj)) : list bytes :=
              match d with
              | [] => []
              | (k, x) :: d' => (lit "/" ++ k ++ lit " " ++ obj_string (i :: st) x) :: go (i + 1) d'
              end) 0 d))
        ++ lit ">>"
    end.

  (** IndirectObject.String, pdf/object.go:23-31 *)
  Definition iobj_string (st : site) (o : iobj) : bytes :=
    dec_of_Z (inum o) ++ lit " " ++ dec_of_Z (igen o) ++ lit " obj" ++ [x0a]
    ++ obj_string st (ival o) ++ [x0a]
    ++ match istream o with
       | Some d => lit "stream" ++ [x0a] ++ d ++ [x0a] ++ lit "endstream" ++ [x0a]
       | None => []
       end
    ++ lit "endobj" ++ [x0a].
End Render.
