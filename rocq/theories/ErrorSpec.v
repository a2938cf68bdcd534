(** What is wrong with a module, in terms of its types: the specification of the
    errors of Generate (C78). *)
From Coq Require Import ZArith String Ascii List Bool.
From Verif Require Import GoBase Tokens Ast CodegenSpec.
Import ListNotations.
Local Open Scope string_scope.
Local Open Scope list_scope.
Local Open Scope Z_scope.

Section Problems.
  (** fmt's %#v of a type and of a value. *)
  Context (sharp_type : AType_ -> string) (sharp_value : Value -> string).
  Context (tagDefault : Z) (asg : list Assignment_) (repr : string).

  (** [flaw t text]: the type [t], for which a Go type is needed, has a problem of its
      own (its parts not considered), described by [text]. *)
  Inductive flaw : AType_ -> string -> Prop :=
  | fl_type t : t = TNull \/ t = TNil \/ (exists n, t = TNamed n) ->
      flaw t ("ignoring unsupported type " ++ sharp_type t)
  | fl_integer l : repr <> "int64" -> repr <> "big.Int" -> flaw (TInteger l) ("unknown int type mode: " ++ repr)
  | fl_reference n : ~ resolvable asg n -> flaw (TReference n) ("can not resolve TypeReference " ++ n)
  (** An alternative of a CHOICE that is not preceded by a tagged one. *)
  | fl_alternative before n t after x r :
      ~ tagged_choice asg before -> unconstrained t = TReference r -> ~ time_name r -> ~ resolvable asg r ->
      flaw (TChoice (before ++ Named n t :: after) x) ("can not resolve TypeReference " ++ r)
  | fl_components_of t l u : has_components t l -> In (CComponentsOf u) l ->
      flaw t "COMPONENTS OF is not supported"
  | fl_automatic t l n u o d tag mode : has_components t l -> In (CNamed (Named n u) o d) l ->
      In (tag, mode) (tags_of u) -> match mode with Some z => z | None => tagDefault end = TAGS_AUTOMATIC ->
      flaw t ("type " ++ n ++ ": AUTOMATIC tags are not supported")
  | fl_number t l n u o d tag mode : has_components t l -> In (CNamed (Named n u) o d) l ->
      In (tag, mode) (tags_of u) -> (forall k, tag_ClassNumber tag <> VNumber k) ->
      flaw t ("tag value should be Number, got " ++ sharp_value (tag_ClassNumber tag)).

  (** [problem text]: something in the module is described by [text]: a flaw of a
      type that has to be expressed in Go, for a type assignment or for a value
      assignment with a literal value, or a named number of an INTEGER type that
      names a value of another module. *)
  Inductive problem : string -> Prop :=
  | pb_type n t u x : In (AType n t) asg -> visible asg t u -> flaw u x -> problem x
  | pb_value n t v u x : In (AValue n t v) asg -> is_literal v -> visible asg t u -> flaw u x -> problem x
  | pb_number n t l k d : In (AType n t) asg -> strip t = TInteger l -> In k l -> nn_Value k = NDefined d ->
      dv_ModuleName d <> "" ->
      problem (dv_ModuleName d ++ "." ++ dv_ValueName d ++ ": value references from other modules are not supported").
End Problems.
