(** The pointers of a syntax tree: DEFAULT values (ast.go:331) and references to other
    values in object identifiers (ast.go:271).  Specification for C06 and C07. *)
From Coq Require Import ZArith String List Bool.
From Verif Require Import GoBase Tokens Ast Grammar.
Import ListNotations.
Local Open Scope list_scope.

(** [w] is a part of the tokens [ts]. *)
Definition part_of (w ts : list token) : Prop := exists a b, ts = a ++ w ++ b.

(** The references in a value. *)
Definition value_references {R} (v : value R) : list R :=
  match v with
  | VObjectIdentifier l => flat_map (fun e => match oe_Reference e with Some r => [r] | None => [] end) l
  | VNil | VNumber _ | VReal _ | VBoolean _ | VDefined _ | VIdentifiedInteger _ => []
  end.

Section TreePointers.
  Context {P R : Type}.

  Definition value_pointers (v : value R) : list (P + R) := map inr (value_references v).

  Fixpoint type_pointers (t : atype P R) : list (P + R) :=
    match t with
    | TNamed n => named_pointers n
    | TChoice a e => flat_map named_pointers a ++ flat_map (fun o => match o with Some n => named_pointers n | None => [] end) e
    | TSequence c e | TSet c e => flat_map component_pointers c ++ flat_map component_pointers e
    | TTagged g t _ _ => value_pointers (tag_ClassNumber g) ++ type_pointers t
    | TSequenceOf t | TSetOf t => type_pointers t
    | TBitString l => flat_map (fun b => value_pointers (nb_Index b)) l
    | TConstrained t c => type_pointers t ++ constraint_pointers c
    | TNil | TReference _ | TNull | TObjectIdentifier | TReal | TBoolean | TRestrictedString _ | TCharacterString
    | TOctetString | TAny _ | TInteger _ | TEnumerated _ => []
    end
  with named_pointers (n : NamedType P R) : list (P + R) :=
    match n with Named _ t => type_pointers t end
  with component_pointers (c : component P R) : list (P + R) :=
    match c with
    | CNil => []
    | CNamed n _ d => named_pointers n ++ match d with Some v => [inl v] | None => [] end
    | CComponentsOf t => type_pointers t
    end
  with constraint_pointers (c : ConstraintSpec P R) : list (P + R) :=
    match c with
    | CSSubtype l => flat_map elements_pointers l
    | _ => []
    end
  with elements_pointers (e : Elements P R) : list (P + R) :=
    match e with
    | ENil | EInner => []
    | EUnions l => flat_map (flat_map intersection_pointers) l
    | EExclusions e => elements_pointers e
    | ESingleValue v => value_pointers v
    | EValueRange a b => value_pointers (re_Value a) ++ value_pointers (re_Value b)
    | EType t => type_pointers t
    | ESize c => constraint_pointers c
    end
  with intersection_pointers (i : IntersectionElements P R) : list (P + R) :=
    match i with Intersect e x => elements_pointers e ++ elements_pointers x end.

  Definition assignment_pointers (a : assignment P R) : list (P + R) :=
    match a with
    | ANil => []
    | AType _ t => type_pointers t
    | AValue _ t v => type_pointers t ++ value_pointers v
    end.

  Definition sfm_pointers (s : SymbolsFromModule R) : list (P + R) := value_pointers (gmr_AssignedIdentifier (sfm_Module s)).

  Definition mb_pointers (b : ModuleBody P R) : list (P + R) :=
    flat_map sfm_pointers (mb_Imports b) ++ flat_map assignment_pointers (mb_AssignmentList b).

  (** The pointers of a module. *)
  Definition module_pointers (m : ModuleDefinition P R) : list (P + R) := mb_pointers (md_ModuleBody m).
End TreePointers.

(** The DEFAULT values of a module as a caller sees it ... *)
Definition default_values (m : Module_) : list Value :=
  flat_map (fun x => match x with inl v => [v] | inr _ => [] end) (module_pointers m).
(** ... and its references, also those in DEFAULT values. *)
Definition references (m : Module_) : list DefinedValue :=
  flat_map (fun x => match x with inl v => value_references v | inr d => [d] end) (module_pointers m).

(** Two values that differ at most in what their references name. *)
Definition same_but_references (v v' : Value) : Prop := value_map (fun _ => tt) v = value_map (fun _ => tt) v'.

(** [v] is the value of a phrase that is a part of [ts]. *)
Definition value_in_text (ts : list token) (v : Value) : Prop :=
  exists N w, part_of w ts /\ derives N w (S_Value v).

(** [d] is the value of a reference that is a part of [ts]. *)
Definition reference_in_text (ts : list token) (d : DefinedValue) : Prop :=
  exists w, part_of w ts /\ derives N_DefinedValue w (S_DefinedValue d).
