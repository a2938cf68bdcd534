(** The rules of Go that a generated file has to meet to compile, and what is asked of
    the ASN.1 module for that.  Nothing here uses the functions of [Codegen.v] except
    the naming convention [goifyName], inside [go_type]. *)
From Coq Require Import ZArith String Ascii List Bool Relations SpecFloat.
From Verif Require Import GoBase Unicode Tokens Ast GoAst Codegen CodegenSpec GoifyFacts CodegenNames NamesGen Recursion.
Import ListNotations.
Local Open Scope string_scope.
Local Open Scope list_scope.
Local Open Scope Z_scope.

(** * Go *)

(** An ASCII identifier that is no keyword and not blank. *)
Definition keywords : list string :=
  ["break"; "case"; "chan"; "const"; "continue"; "default"; "defer"; "else"; "fallthrough"; "for"; "func"; "go";
   "goto"; "if"; "import"; "interface"; "map"; "package"; "range"; "return"; "select"; "struct"; "switch"; "type";
   "var"].
Definition go_identifier (s : string) : Prop :=
  match s with
  | String c s' =>
      (ascii_letter c = true \/ c = "_"%char) /\
      all_chars (fun c => ascii_letter c || ascii_digit (byte_of_ascii c) || Ascii.eqb c "_") s' = true
  | EmptyString => False
  end /\ s <> "_" /\ ~ In s keywords.

(** The exported types of the imported packages that may be used. *)
Definition package_types : list (string * string) :=
  [("asn1.BitString", "encoding/asn1"); ("asn1.Enumerated", "encoding/asn1");
   ("asn1.ObjectIdentifier", "encoding/asn1"); ("asn1.RawValue", "encoding/asn1");
   ("big.Int", "math/big"); ("time.Time", "time")].

Definition field_name (x : gofield) : string := match x with Field n _ _ => n end.

(** A type expression every part of which means something; no struct has two fields of
    one name. *)
Inductive valid_type (f : gofile) : goexpr -> Prop :=
| vt_predeclared s : In s predeclared -> valid_type f (EIdent s)
| vt_declared s : In s (declared_types f) -> valid_type f (EIdent s)
| vt_imported s path : In (s, path) package_types -> In path (imports f) -> valid_type f (EIdent s)
| vt_pointer e : valid_type f e -> valid_type f (EStar e)
| vt_slice e : valid_type f e -> valid_type f (EArray e)
| vt_interface : valid_type f EInterface
| vt_struct fs : NoDup (map field_name fs) ->
    (forall n e tag, In (Field n e tag) fs -> valid_type f e) -> valid_type f (EStruct fs).

(** The tags of the fields, at every depth. *)
Fixpoint tags_in (e : goexpr) : list string :=
  match e with
  | EStar x | EArray x => tags_in x
  | EStruct fs => flat_map (fun x => match x with Field _ t tag => match tag with Some s => [s] | None => [] end ++ tags_in t end) fs
  | _ => []
  end.

(** A raw string literal: between back quotes, without any. *)
Definition raw_literal (s : string) : Prop :=
  exists body, s = ("`" ++ body ++ "`")%string /\ all_chars (fun c => negb (Ascii.eqb c "`")) body = true.

(** [expands f e r]: [r] is the type [e] after following aliases. *)
Inductive expands (f : gofile) : goexpr -> goexpr -> Prop :=
| ex_same e : expands f e e
| ex_alias s e r : In (TypeSpec s true e) (file_specs f) -> expands f e r -> expands f (EIdent s) r.

Definition fits_int64 (z : Z) : Prop := - 2 ^ 63 <= z < 2 ^ 63.

(** [assignable f v t]: a variable of type [t] may be initialised with [v]. *)
Inductive assignable (f : gofile) : goexpr -> goexpr -> Prop :=
| as_int s z t : go_int s = Some z -> fits_int64 z -> expands f t (EIdent "int64") -> assignable f (EBasicLit s) t
| as_bool s t : s = "true" \/ s = "false" -> expands f t (EIdent "bool") -> assignable f (EBasicLit s) t
| as_float s t : go_number s = true -> expands f t (EIdent "float64") -> assignable f (EBasicLit s) t
| as_int_float s z t : go_int s = Some z -> expands f t (EIdent "float64") -> assignable f (EBasicLit s) t
| as_big s z t : go_int s = Some z -> fits_int64 z -> In "math/big" (imports f) ->
    expands f t (EStar (EIdent "big.Int")) -> assignable f (ECall (EIdent "big.NewInt") [EBasicLit s]) t
| as_variable x t t' v r : In (ValueSpec x t' v) (file_specs f) -> expands f t r -> expands f t' r ->
    assignable f (EIdent x) t.

(** An alias mentions another name; a cycle of aliases is not a type, however the
    names are mentioned. *)
Definition alias_step (f : gofile) (a b : string) : Prop :=
  exists e, In (TypeSpec a true e) (file_specs f) /\ In b (expr_idents e).
Definition alias_cycle (f : gofile) : Prop := exists a, clos_trans _ (alias_step f) a a.

(** A variable's initialiser mentions another variable. *)
Definition init_step (f : gofile) (a b : string) : Prop :=
  exists t v, In (ValueSpec a t v) (file_specs f) /\ In b (expr_idents v) /\ In b (declared_vars f).
Definition init_cycle (f : gofile) : Prop := exists a, clos_trans _ (init_step f) a a.

(** What the Go compiler checks in a file that has imports, type declarations and
    variables only. *)
Record compiles (f : gofile) : Prop := {
  co_package : go_identifier (gf_name f);
  (** Imports: first, each once, under different names, all used. *)
  co_imports_first : exists imps rest, gf_decls f = imps ++ rest /\ Forall is_import imps /\
    Forall (fun d => gd_tok d <> TokImport) rest;
  co_imports_once : NoDup (imports f) /\ NoDup (map package_name (imports f));
  co_imports_used : forall path, In path (imports f) ->
    exists id, In id (flat_map spec_type_idents (file_specs f)) /\ qualifier id = Some (package_name path);
  (** Declarations hold specs of their own kind. *)
  co_kinds : forall d sp, In d (gf_decls f) -> In sp (gd_specs d) ->
    match gd_tok d, sp with
    | TokImport, ImportSpec _ | TokType, TypeSpec _ _ _ | TokVar, ValueSpec _ _ _ => True
    | _, _ => False
    end;
  (** Names: identifiers, declared once, hiding neither imports nor predeclared types. *)
  co_identifiers : Forall go_identifier (declared_names f);
  co_names_once : NoDup (top_names f);
  co_names_free : forall s, In s predeclared \/ In s (map package_name (imports f)) -> ~ In s (top_names f);
  (** Types. *)
  co_types : forall n a e, In (TypeSpec n a e) (file_specs f) -> valid_type f e;
  co_tags : forall n a e, In (TypeSpec n a e) (file_specs f) -> Forall raw_literal (tags_in e);
  co_finite : ~ go_recursive f;
  co_aliases : ~ alias_cycle f;
  (** Variables. *)
  co_variable_types : forall n t v, In (ValueSpec n t v) (file_specs f) -> valid_type f t /\ tags_in t = [];
  co_variables : forall n t v, In (ValueSpec n t v) (file_specs f) -> assignable f v t;
  co_init : ~ init_cycle f
}.

(** * ASN.1 *)

(** [base asg t u]: [u] is the type [t] under tags and constraints, references
    followed. *)
Inductive base (asg : list Assignment_) : AType_ -> AType_ -> Prop :=
| ba_here t : (forall n, strip t <> TReference n) -> base asg t (strip t)
| ba_reference t n t' u : strip t = TReference n -> defines asg n t' -> base asg t' u -> base asg t u.

Definition is_integer (asg : list Assignment_) (t : AType_) : Prop := exists l, base asg t (TInteger l).

(** The value of an assignment is of its type.  A REAL may be given by an integer, but not
    if the generator writes integers as big.Int. *)
Definition typed_value (asg : list Assignment_) (repr : string) (t : AType_) (v : Value) : Prop :=
  match v with
  | VNumber _ => is_integer asg t \/ (base asg t TReal /\ repr <> "big.Int")
  | VBoolean _ => base asg t TBoolean
  | VReal x => base asg t TReal /\ is_finite x
  | _ => True
  end.

(** The number of a named number, or a reference to an INTEGER value of the module. *)
Definition typed_number (asg : list Assignment_) (x : NamedNumber) : Prop :=
  match nn_Value x with
  | NNumber _ => True
  | NDefined d => exists t z, In (AValue (dv_ValueName d) t (VNumber z)) asg /\ is_integer asg t
  | NNil => False
  end.

Definition component_name (c : component Value DefinedValue) : list string :=
  match c with CNamed (Named n _) _ _ => [n] | _ => [] end.

(** A SEQUENCE under tags, constraints and CHOICEs with one untagged alternative. *)
Inductive structured (asg : list Assignment_) : AType_ -> Prop :=
| sd_sequence c x : structured asg (TSequence c x)
| sd_tagged g t z b : structured asg t -> structured asg (TTagged g t z b)
| sd_constrained t c : structured asg t -> structured asg (TConstrained t c)
| sd_choice n t x : ~ tagged_alt asg t -> structured asg t -> structured asg (TChoice [Named n t] x).

(** [n] is defined as a type that mentions [m], and is neither a SEQUENCE nor does it have a
    SET. *)
Definition spelled_with (asg : list Assignment_) (n m : string) : Prop :=
  exists t, defines asg n t /\ ~ structured asg t /\ ~ reaches_set asg t /\ visible asg t (TReference m).
Definition spelled_with_itself (asg : list Assignment_) : Prop :=
  exists n, clos_trans _ (spelled_with asg) n n.

(** BIT STRING, ENUMERATED or OBJECT IDENTIFIER occurs in a type assignment. *)
Definition uses_asn1 (asg : list Assignment_) : Prop :=
  exists n t u, In (AType n t) asg /\ visible asg t u /\
    ((exists l, u = TBitString l) \/ (exists x, u = TEnumerated x) \/ u = TObjectIdentifier).

Record sound (repr : string) (asg : list Assignment_) : Prop := {
  so_names : NoDup (flat_map asg_name asg);
  so_affixes : forall n t, In (AType n t) asg -> ~ val_inside n /\ ~ ends_with "SET" n;
  so_reserved : forall n t, In (AType n t) asg -> ~ time_name n;
  so_numbers : forall n t l, In (AType n t) asg -> strip t = TInteger l ->
    NoDup (map nn_Name l) /\ Forall (typed_number asg) l;
  so_values : forall n t v, In (AValue n t v) asg -> typed_value asg repr t v;
  so_components : forall n t u cs, In (AType n t) asg -> visible asg t u -> has_components u cs ->
    NoDup (flat_map component_name cs);
  so_finite : ~ asn_recursive asg;
  so_spelled : ~ spelled_with_itself asg;
  so_choices : (exists n t alts x, In (AType n t) asg /\ visible asg t (TChoice alts x) /\ tagged_choice asg alts) ->
    uses_asn1 asg
}.
