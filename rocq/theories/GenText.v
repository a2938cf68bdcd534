(** Model of the texts of the errors of Generate, codegen.go. *)
From Coq Require Import ZArith String Ascii List Bool.
From Verif Require Import GoBase Tokens Ast Codegen.
Import ListNotations.
Local Open Scope string_scope.
Local Open Scope list_scope.
Local Open Scope Z_scope.

Section Text.
  (** fmt's %#v of a type (codegen.go:285) and of a value (codegen.go:448). *)
  Context (sharp_type : AType_ -> string) (sharp_value : Value -> string).

  (** The text of one error, codegen.go:101, 235, 285, 304, 383, 391, 442, 448, 520.
      (The mode at 235 and the names are strings, for which %v is the string.) *)
  Definition error_text (e : gen_error) : string :=
    match e with
    | ErrAutomaticModule => "AUTOMATIC tagged modules are not supported"
    | ErrIntRepr repr => "unknown int type mode: " ++ repr
    | ErrUnsupportedType t => "ignoring unsupported type " ++ sharp_type t
    | ErrForeignValue module value =>
        module ++ "." ++ value ++ ": value references from other modules are not supported"
    | ErrComponentsOf => "COMPONENTS OF is not supported"
    | ErrAutomaticTag field => "type " ++ field ++ ": AUTOMATIC tags are not supported"
    | ErrTagNumber v => "tag value should be Number, got " ++ sharp_value v
    | ErrUnresolved ref => "can not resolve TypeReference " ++ ref
    end.

  (** The loop over ctx.errors, codegen.go:119-121. *)
  Fixpoint error_lines (msg : string) (l : list gen_error) : string :=
    match l with
    | [] => msg
    | e :: l' => error_lines (msg ++ ("  " ++ error_text e ++ String (ascii_of_nat 10) "")) l'
    end.

  (** The text of the error of Generate, codegen.go:99-102 and 117-123; the first
      error is the only one with its constructor. *)
  Definition error_message (l : list gen_error) : string :=
    match l with
    | [ErrAutomaticModule] => error_text ErrAutomaticModule
    | _ => error_lines ("errors generating Go AST from module: " ++ String (ascii_of_nat 10) "") l
    end.
End Text.

(** strconv.Quote of a string of printable ASCII characters without double quotes and
    backslashes; for others [quote]. *)
Definition go_quote (quote : string -> string) (s : string) : string :=
  if forallb (fun c => let n := nat_of_ascii c in
      (32 <=? n)%nat && (n <=? 126)%nat && negb (n =? 34)%nat && negb (n =? 92)%nat) (list_ascii_of_string s)
  then String """" (s ++ String """" "") else quote s.

(** %#v of the types and values that occur in the errors for parsed modules: NullType
    (ast.go:266-267) and DefinedValue (ast.go:670-677); for others a parameter. *)
Definition sharp_type_of (other : AType_ -> string) (t : AType_) : string :=
  match t with
  | TNull => "asn1go.NullType{}"
  | TNil => "<nil>"
  | _ => other t
  end.
(** See [sharp_type_of]. *)
Definition sharp_value_of (quote : string -> string) (other : Value -> string) (v : Value) : string :=
  match v with
  | VDefined d => "asn1go.DefinedValue{ModuleName:" ++ go_quote quote (dv_ModuleName d)
                  ++ ", ValueName:" ++ go_quote quote (dv_ValueName d) ++ "}"
  | VNil => "<nil>"
  | _ => other v
  end.
