(** The parts of a module and the texts they come from: specification for C85 and C86. *)
From Coq Require Import ZArith String List Bool Permutation.
From Verif Require Import GoBase Tokens Ast Grammar Words Forgotten Numbers Numerals Ranges Structs WrittenTags ItemLists Typings WrittenValues.
Import ListNotations.
Local Open Scope string_scope.
Local Open Scope list_scope.
Local Open Scope Z_scope.

(** ** The head of a module *)

(** The tag default between DEFINITIONS and "::=" (X.680 13.1, 13.2). *)
Definition said_tags (l : list token) : Z :=
  match l with
  | t :: _ => if tk_kind t =? T_IMPLICIT then TAGS_IMPLICIT else if tk_kind t =? T_AUTOMATIC then TAGS_AUTOMATIC else TAGS_EXPLICIT
  | [] => TAGS_EXPLICIT
  end.
Definition said_extensible (l : list token) : bool := existsb (fun t => tk_kind t =? T_EXTENSIBILITY) l.

(** ** Imports *)

(** A lower-case name is that of a value, an upper-case name that of a type. *)
Definition said_symbol (t : token) : Symbol :=
  if tk_kind t =? T_VALUEIDENTIFIER then SymValue (tk_name t) else SymType (tk_name t).
Definition no_comma (t : token) : bool := negb (tk_kind t =? T_COMMA).

(** [l] is the text of the import [i]: names with commas, FROM, the name of a module,
    and what identifies it. *)
Definition import_text {R} (l : list token) (i : SymbolsFromModule R) : Prop :=
  exists names from q id, l = names ++ from :: q :: id /\
    Forall (fun t => tk_kind t <> T_FROM) names /\ tk_kind from = T_FROM /\
    sfm_SymbolList i = map said_symbol (filter no_comma names) /\
    gmr_Reference (sfm_Module i) = tk_name q /\
    match gmr_AssignedIdentifier (sfm_Module i) with
    | VNil => id = []
    | VDefined d => exists v, id = [v] /\ d = {| dv_ModuleName := ""; dv_ValueName := tk_name v |} \/
        exists q dot, id = [q; dot; v] /\ d = {| dv_ModuleName := tk_name q; dv_ValueName := tk_name v |}
    | VObjectIdentifier _ => first_kind id = T_OPEN_CURLY
    | _ => False
    end.

(** ** Assignments *)

(** [l] is the text of an assignment of the name, and of the kind, of [a]. *)
Definition assignment_text {P R} (l : list token) (a : assignment P R) : Prop :=
  match a with
  | AType n _ => exists t u r, l = t :: u :: r /\ tk_kind t = T_TYPEORMODULEREFERENCE /\ tk_name t = n /\ tk_kind u = T_ASSIGNMENT
  | AValue n _ _ => exists t r u v, l = t :: r ++ u :: v /\ tk_kind t = T_VALUEIDENTIFIER /\ tk_name t = n /\ tk_kind u = T_ASSIGNMENT
  | ANil => False
  end.

(** All that is said in the phrase [A] (outside of what is forgotten) is in [a], and the
    other way round: words, numbers, components, structs, ranges, tags and lists
    of items. *)
Definition same_contents (A : tree) (a : Assignment_) : Prop :=
  (forall x, x <> "" -> occurrences x (text_words (outside A)) = occurrences x (assignment_words (value_words defined_words) defined_words a)) /\
  (forall x, x <> Whole 0 -> numeral_count x (written_numbers (remembered A)) = numeral_count x (assignment_numbers value_numbers a)) /\
  (forall x, component_count x (written_components (remembered A)) = component_count x (assignment_components a)) /\
  (forall x, struct_count x (written_structs (remembered A)) = struct_count x (assignment_structs a)) /\
  Permutation (text_ranges (outside A)) (assignment_ranges a) /\
  Permutation (text_tags (outside A)) (assignment_tags a) /\
  Permutation (written_lists (remembered A)) (assignment_lists a) /\
  Permutation (written_typings (remembered A)) (assignment_typings a) /\
  Permutation (written_values (remembered A)) (assignment_values a).

(** ** The text of a module *)

Definition exports_text (l : list token) : Prop :=
  l = [] \/ exists t r e, l = t :: r ++ [e] /\ tk_kind t = T_EXPORTS /\ tk_kind e = T_SEMICOLON.
Definition imports_text (l : list token) (imports : list tree) : Prop :=
  l = [] /\ imports = [] \/
  exists t e, l = t :: flat_map leaves imports ++ [e] /\ tk_kind t = T_IMPORTS /\ tk_kind e = T_SEMICOLON.

(** [ts] is the text of [m]: its head, exports, the phrases [imports] and the phrases
    [As] of its assignments, in this order, and nothing else. *)
Definition module_text (ts : list token) (m : Module_) (imports As : list tree) : Prop :=
  exists q oid def mid asg beg el il e,
    ts = q :: oid ++ def :: mid ++ asg :: beg :: el ++ il ++ flat_map leaves As ++ [e] /\
    Forall (fun t => tk_kind t <> T_DEFINITIONS) oid /\ tk_kind def = T_DEFINITIONS /\
    Forall (fun t => tk_kind t <> T_ASSIGNMENT) mid /\ tk_kind asg = T_ASSIGNMENT /\ tk_kind beg = T_BEGIN /\ tk_kind e = T_END /\
    exports_text el /\ imports_text il imports /\
    mi_Reference (md_ModuleIdentifier m) = tk_name q /\
    md_TagDefault m = said_tags mid /\ md_ExtensibilityImplied m = said_extensible mid.
