(** Model of parser.go: ParseString and ParseStream. *)
From Coq Require Import ZArith String List.
From Verif Require Import GoBase Unicode Reader Stream Ast Lexer Driver.
Import ListNotations.

(** The results of ParseStream and ParseString: (module, nil) or (nil, err).
    [None] in [ParseOk] would be a nil module without error. *)
Inductive parse_result : Type :=
| ParseOk (m : option Module_)
| ParseErr (e : string).

(** ParseStream, parser.go:21-29, over any reader.  [fuel] bounds the number of
    iterations of each loop. *)
Definition ParseReader {R} (ops : reader_ops R) (U : unicode_tables) (fuel : nat) (rd : R)
  : res parse_result :=
  do (_, ps) <- yyParse (Lex ops U fuel) Error fuel (new_lexer rd);
  match lx_err (ps_lx ps) with
  | Some e => Ok (ParseErr e)
  | None => Ok (ParseOk (option_map (resolve (arrays ps)) (ps_result ps)))
  end.

(** ParseStream over the abstract stream. *)
Definition ParseStream (U : unicode_tables) (fuel : nat) (s : stream) : res parse_result :=
  ParseReader stream_ops U fuel s.

(** ParseString, parser.go:16-18 (strings.NewReader). *)
Definition ParseString (U : unicode_tables) (fuel : nat) (s : string) : res parse_result :=
  ParseStream U fuel (stream_of_bytes (bytes_of_string s)).
