(** From the text of an assignment to its Go declarations: specification for C90. *)
From Coq Require Import ZArith String List Bool.
From Verif Require Import GoBase Unicode Tokens Ast GoAst Codegen CodegenSpec Grammar Words Forgotten ItemLists WrittenValues.
Import ListNotations.
Local Open Scope string_scope.
Local Open Scope list_scope.
Local Open Scope Z_scope.

(** The Go expression for a number, a boolean or a REAL; how the latter is written is the
    subject of C40. *)
Definition literal (repr : string) (x : said) (e : goexpr) : Prop :=
  match x with
  | SaidNumber z => denotes_int repr z e
  | SaidBoolean b => e = EBasicLit (if b then "true" else "false")
  | SaidReal _ => exists s, e = EBasicLit s
  | _ => False
  end.
Definition a_literal (x : said) : bool :=
  match x with SaidNumber _ | SaidBoolean _ | SaidReal _ => true | _ => false end.

(** The variable for the named number [i] of the INTEGER type [n]; the grammar has no named
    number without a value. *)
Definition item_spec (U : unicode_tables) (repr n : string) (i : string * label) (sp : gospec) : Prop :=
  exists e, sp = ValueSpec (goifyName U n ++ "Val" ++ goifyName U (fst i)) (EIdent (goifyName U n)) e /\
    match snd i with
    | Numbered z => denotes_int repr z e
    | Valued d => dv_ModuleName d = "" /\ e = EIdent ("Val" ++ goifyName U (dv_ValueName d))
    | Bare => e = ENilExpr
    end.

(** What is behind the tags, "[...]", "IMPLICIT" and "EXPLICIT", that begin a text;
    [tag] tells whether it begins inside such a bracket. *)
Fixpoint behind_tags (tag : bool) (l : list token) : list token :=
  match l with
  | [] => []
  | t :: r =>
      if tag then behind_tags (negb (tk_kind t =? T_CLOSE_SQUARE)) r
      else if tk_kind t =? T_OPEN_SQUARE then behind_tags true r
      else if (tk_kind t =? T_IMPLICIT) || (tk_kind t =? T_EXPLICIT) then behind_tags false r
      else l
  end.

(** What is before the next "}". *)
Fixpoint before_curly (l : list token) : list token :=
  match l with
  | [] => []
  | t :: r => if tk_kind t =? T_CLOSE_CURLY then [] else t :: before_curly r
  end.

(** The named numbers of a type that is written "INTEGER { ... }", behind tags or not. *)
Definition named_numbers (l : list token) : list (string * label) :=
  match behind_tags false l with
  | i :: o :: r => if (tk_kind i =? T_INTEGER) && (tk_kind o =? T_OPEN_CURLY) then read_items (before_curly r) else []
  | _ => []
  end.

(** "Name ::= type" becomes a type of that name, with variables for the named numbers of
    an INTEGER written there. *)
Definition type_from (U : unicode_tables) (repr : string) (A : tree) (g : list godecl) : Prop :=
  exists t u r d rest e, leaves A = t :: u :: r /\ tk_kind t = T_TYPEORMODULEREFERENCE /\ tk_kind u = T_ASSIGNMENT /\
    g = d :: rest /\ declares_type (goifyName U (tk_name t)) e d /\
    match named_numbers r with
    | [] => rest = []
    | items => exists specs, Forall2 (item_spec U repr (tk_name t)) items specs /\ rest = [{| gd_tok := TokVar; gd_specs := specs |}]
    end.

(** "name type ::= value" becomes a variable of that name and value, if the value is a
    number, a boolean or a REAL, and nothing otherwise. *)
Definition value_from (U : unicode_tables) (repr : string) (A : tree) (g : list godecl) : Prop :=
  exists t r u v, leaves A = t :: r ++ u :: v /\ tk_kind t = T_VALUEIDENTIFIER /\ tk_kind u = T_ASSIGNMENT /\
    Forall (fun x => tk_kind x <> T_ASSIGNMENT) v /\
    if a_literal (read_value v) then
      exists te e, g = [{| gd_tok := TokVar; gd_specs := [ValueSpec ("Val" ++ goifyName U (tk_name t)) te e] |}] /\ literal repr (read_value v) e
    else g = [].
