(** The part of go/ast that codegen.go builds.  Generate hands such a file to
    go/printer (codegen.go:131), which is not modelled. *)
From Coq Require Import String List.
Import ListNotations.

(** goast.Expr; a nil interface is [ENilExpr].  Identifiers may contain a dot
    ("asn1.BitString"), as in codegen.go. *)
Inductive goexpr : Type :=
| ENilExpr
| EIdent (name : string)
| EStar (x : goexpr)
| EArray (elt : goexpr)
| EStruct (fields : list gofield)
| EInterface
| EBasicLit (text : string)
| ECall (f : goexpr) (args : list goexpr)
(** goast.Field with its single name, type and tag (codegen.go:401-405). *)
with gofield : Type :=
| Field (name : string) (type : goexpr) (tag : option string).

(** goast.Spec: TypeSpec (codegen.go:166, 183), ValueSpec (213, 309), ImportSpec
    (127, the path without its quotes).  [assign] is "Assign is a non-zero position" (an alias declaration). *)
Inductive gospec : Type :=
| TypeSpec (name : string) (assign : bool) (type : goexpr)
| ValueSpec (name : string) (type : goexpr) (val : goexpr)
| ImportSpec (path : string).

(** Token of a goast.GenDecl. *)
Inductive gotok : Type := TokType | TokVar | TokImport.

(** goast.GenDecl. *)
Record godecl : Type := {
  gd_tok : gotok;
  gd_specs : list gospec
}.

(** goast.File (codegen.go:113-116). *)
Record gofile : Type := {
  gf_name : string;
  gf_decls : list godecl
}.
