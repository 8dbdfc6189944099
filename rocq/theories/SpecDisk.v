(** SpecDisk.v -- what is in the output directory after a run (C116, C117). *)
From Verif Require Import Base Num Obj Env Output Parse SpecOut.
From Coq Require Import Strings.String.

(** The directory: the content of each name in it. *)
Definition disk := bytes -> option bytes.
Definition put (n c : bytes) (d : disk) : disk := fun m => if list_eq_dec Byte.byte_eq_dec m n then Some c else d m.

(** The names that the manual gives. *)
Definition out_name (f : ofile) : bytes :=
  match f with
  | FCommands => lit "commands.txt" | FErrors => lit "errors.txt" | FFiles => lit "files.txt" | FJavascript => lit "javascript.js"
  | FRaw => lit "raw.pdf" | FText => lit "contents.txt" | FURLs => lit "urls.txt"
  end.

(** What an operation does to the directory.  Creating a file that cannot be
    created and writing to one that is not there do nothing; the messages in
    errors.txt are not among the operations. *)
Definition step (S : sys) (d : disk) (o : op) : disk :=
  match o with
  | OpRemoveAll => fun _ => None
  | OpMkdirAll => d
  | OpCreate f => if s_create S f then put (out_name f) [] d else d
  | OpEv (EWrite f t) => match d (out_name f) with Some c => put (out_name f) (c ++ t) d | None => d end
  | OpEv (EDump n c) => put n c d
  | OpClose _ => d
  end.
Definition after (S : sys) (ops : list op) (d : disk) : disk := fold_left (step S) ops d.

(** [c] is the last that is dumped under the name [n]. *)
Definition last_dump (ops : list op) (n c : bytes) : Prop :=
  exists a b, ops = a ++ OpEv (EDump n c) :: b /\ forall c', ~ In (OpEv (EDump n c')) b.
