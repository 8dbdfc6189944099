(** Msg.v -- error values and log messages of pdf/errors.go. *)
From Verif Require Import Base.
From Coq Require Import Strings.String.

(** pdf/errors.go:19-32 -- messages written to errors.txt. *)
Inductive msg : Set :=
| InvalidDictionaryKeyType
| InvalidHexStringChar
| InvalidNameEscapeChar
| InvalidOctal
| MissingDictionaryValue
| UnclosedArray
| UnclosedDictionary
| UnclosedHexString
| UnclosedStream
| UnclosedString
| UnclosedStringEscape
| UnclosedStringOctal
| UnnecessaryEscapeName
| UnnecessaryEscapeString.

(** pdf/errors.go:19-32 -- the text of each message. *)
Definition msg_text (m : msg) : bytes :=
  match m with
  | InvalidDictionaryKeyType => lit "invalid dictionary key type"
  | InvalidHexStringChar => lit "invalid hex string character"
  | InvalidNameEscapeChar => lit "invalid name escape character"
  | InvalidOctal => lit "invalid octal in string"
  | MissingDictionaryValue => lit "missing dictionary value"
  | UnclosedArray => lit "unclosed array"
  | UnclosedDictionary => lit "unclosed dictionary"
  | UnclosedHexString => lit "unclosed hex string"
  | UnclosedStream => lit "unclosed stream"
  | UnclosedString => lit "unclosed string"
  | UnclosedStringEscape => lit "unclosed escape in string"
  | UnclosedStringOctal => lit "unclosed octal in string"
  | UnnecessaryEscapeName => lit "unnecessary espace sequence in name"
  | UnnecessaryEscapeString => lit "unnecessary espace sequence in string"
  end.

(** pdf/errors.go:12-16 -- error results of ReadObject ([ENone] is nil). *)
Inductive oerr : Set :=
| ENone | EReadError | EEndOfArray | EEndOfDictionary | EEndOfHexString | EEndOfString.

(** pdf/errors.go:9-11 -- error results of SecurityHandler.Init. *)
Inductive encerr : Set :=
| EncryptionError | EncryptionPasswordError | EncryptionUnsupported.
