(** Errors.v -- the contents of errors.txt. *)
From Verif Require Import Base Msg Reader Env.

(** Output.Error, pdf/output.go:106-110: one line for each message. *)
Definition error_lines (ms : list msg) : bytes := List.concat (map (fun m => msg_text m ++ [x0a]) ms).
(** What the parser has written to errors.txt: the messages its reader has
    logged, in order (the parsers of pages and fonts have no output). *)
Definition errors_txt (p : pst) : bytes := error_lines (log (prd p)).
