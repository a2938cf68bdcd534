(** Model of parseFlags in cmd/asn1go/main.go with the part of Go's package flag that
    it uses (go1.16 flag/flag.go), and of the whole process. *)
From Coq Require Import ZArith String Ascii List Bool SpecFloat.
From Verif Require Import GoBase Unicode Ast Parser GoAst Codegen Cli.
Import ListNotations.
Local Open Scope string_scope.
Local Open Scope Z_scope.

(** The values of the flags defined in main.go:37-38. *)
Record flag_values : Type := {
  fv_package : string;
  fv_intRepr : string
}.

(** The defaults, main.go:37-38. *)
Definition flag_defaults : flag_values := {| fv_package := ""; fv_intRepr := "int64" |}.

(** f.formal[name] of flag.go parseOne, as flag.Value.Set; [None] if no flag has this
    name (the names are those of main.go:37-38).  Setting a string flag never fails. *)
Definition flag_setter (name : string) : option (string -> flag_values -> flag_values) :=
  if String.eqb name "package" then
    Some (fun value v => {| fv_package := value; fv_intRepr := fv_intRepr v |})
  else if String.eqb name "default-integer-repr" then
    Some (fun value v => {| fv_package := fv_package v; fv_intRepr := value |})
  else None.

(** FlagSet.defaultUsage and PrintDefaults (flag.go) for the flags of main.go:37-38,
    which are listed by name. *)
Definition flag_usage (program : string) : string :=
  (if String.eqb program "" then "Usage:" else "Usage of " ++ program ++ ":") ++ nl
  ++ "  -default-integer-repr string" ++ nl
  ++ "    " ++ String (ascii_of_nat 9) "Type for numeric types (int64, big.Int) (default ""int64"")" ++ nl
  ++ "  -package string" ++ nl
  ++ "    " ++ String (ascii_of_nat 9) "package name for generated code" ++ nl.

(** The loop over the name of a flag that looks for an equals sign (flag.go parseOne:
    [for i := 1; i < len(name); i++]): the name before it and the value after it. *)
Fixpoint split_equals (name : string) : string * option string :=
  match name with
  | EmptyString => (EmptyString, None)
  | String c name' =>
      if Ascii.eqb c "=" then (EmptyString, Some name')
      else let '(n, v) := split_equals name' in (String c n, v)
  end.

(** The outcome of Parse with ExitOnError: the values and the remaining arguments, or
    the end of the process with a status and a text on standard error. *)
Inductive flag_result : Type :=
| FlagOk (v : flag_values) (rest : list string)
| FlagExit (status : Z) (text : string).

(** FlagSet.failf followed by the exit of Parse (ExitOnError: status 2). *)
Definition flag_fail (program msg : string) : flag_result :=
  FlagExit 2 (msg ++ nl ++ flag_usage program).

(** FlagSet.Parse (flag.go), main.go:39: the loop over parseOne. *)
Fixpoint flag_parse (program : string) (v : flag_values) (args : list string) : flag_result :=
  match args with
  | [] => FlagOk v []
  | s :: args' =>
      match s with
      | String "-" (String c r) =>
          if Ascii.eqb c "-" && String.eqb r "" then FlagOk v args'
          else
            let name := if Ascii.eqb c "-" then r else String c r in
            match name with
            | EmptyString => flag_fail program ("bad flag syntax: " ++ s)
            | String c1 name' =>
                if Ascii.eqb c1 "-" || Ascii.eqb c1 "=" then flag_fail program ("bad flag syntax: " ++ s)
                else
                  let '(n, given) := split_equals name' in
                  let flag := String c1 n in
                  match flag_setter flag with
                  | None =>
                      if String.eqb flag "help" || String.eqb flag "h" then FlagExit 0 (flag_usage program)
                      else flag_fail program ("flag provided but not defined: -" ++ flag)
                  | Some set =>
                      match given, args' with
                      | Some x, _ => flag_parse program (set x v) args'
                      | None, x :: args'' => flag_parse program (set x v) args''
                      | None, [] => flag_fail program ("flag needs an argument: -" ++ flag)
                      end
                  end
            end
      | _ => FlagOk v args
      end
  end.

(** The process: parseFlags (main.go:35-50) and the rest of main (main.go:74-94).
    [argv] is os.Args. *)
Definition asn1go_process (U : unicode_tables) (fmt_finite : spec_float -> string)
  (exotic : string -> string) (w : world) (fuel : nat) (argv : list string) (fs : fsys) : res proc :=
  match argv with
  | [] => Panic "index out of range"
  | program :: args =>
      match flag_parse program flag_defaults args with
      | FlagExit status text => Ok {| pr_exit := status; pr_stdout := ""; pr_stderr := text; pr_fs := fs |}
      | FlagOk v rest => asn1go_main U fmt_finite exotic w fuel (fv_package v) (fv_intRepr v) rest fs
      end
  end.
