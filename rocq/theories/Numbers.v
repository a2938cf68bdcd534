(** The numbers of a text and the numbers of a tree: specification for C75. *)
From Coq Require Import ZArith String List Bool SpecFloat.
From Verif Require Import GoBase Tokens Ast Grammar Words.
Import ListNotations.
Local Open Scope list_scope.
Local Open Scope Z_scope.

(** A number of a tree: an integer, or the value of a REAL, whose digits the tree does
    not keep. *)
Inductive numeral : Type :=
| Whole (z : Z)
| Decimal (f : spec_float).

(** The number of a token, if it is one. *)
Definition token_numbers (t : token) : list Z := if tk_kind t =? T_NUMBER then [tk_number t] else [].

(** The numbers of a text. *)
Definition text_numbers (ts : list token) : list Z := flat_map token_numbers ts.

Section TreeNumbers.
  (** The numbers behind the pointers to default values. *)
  Context {P R : Type} (p : P -> list numeral).

  (** A missing number in an object identifier is 0. *)
  Definition value_numbers (v : value R) : list numeral :=
    match v with
    | VNumber n => [Whole n]
    | VReal f => [Decimal f]
    | VObjectIdentifier l => map (fun e => Whole (oe_ID e)) l
    | VNil | VBoolean _ | VDefined _ | VIdentifiedInteger _ => []
    end.
  Definition nn_numbers (n : NamedNumber) : list numeral :=
    match nn_Value n with NNumber z => [Whole z] | _ => [] end.
  Definition ei_numbers (e : EnumerationItem) : list numeral :=
    match e with EINumber n => nn_numbers n | _ => [] end.
  Definition et_numbers (e : EnumeratedType) : list numeral :=
    flat_map ei_numbers (et_RootEnumeration e) ++ flat_map ei_numbers (et_AdditionalEnumeration e).

  Fixpoint type_numbers (t : atype P R) : list numeral :=
    match t with
    | TNamed n => named_numbers n
    | TInteger l => flat_map nn_numbers l
    | TEnumerated e => et_numbers e
    | TChoice a e => flat_map named_numbers a ++ flat_map (fun o => match o with Some n => named_numbers n | None => [] end) e
    | TSequence c e | TSet c e => flat_map component_numbers c ++ flat_map component_numbers e
    | TTagged g t _ _ => value_numbers (tag_ClassNumber g) ++ type_numbers t
    | TSequenceOf t | TSetOf t => type_numbers t
    | TBitString l => flat_map (fun b => value_numbers (nb_Index b)) l
    | TConstrained t c => type_numbers t ++ constraint_numbers c
    | TNil | TReference _ | TNull | TObjectIdentifier | TReal | TBoolean | TRestrictedString _ | TCharacterString
    | TOctetString | TAny _ => []
    end
  with named_numbers (n : NamedType P R) : list numeral :=
    match n with Named _ t => type_numbers t end
  with component_numbers (c : component P R) : list numeral :=
    match c with
    | CNil => []
    | CNamed n _ d => named_numbers n ++ match d with Some v => p v | None => [] end
    | CComponentsOf t => type_numbers t
    end
  with constraint_numbers (c : ConstraintSpec P R) : list numeral :=
    match c with
    | CSSubtype l => flat_map elements_numbers l
    | _ => []
    end
  with elements_numbers (e : Elements P R) : list numeral :=
    match e with
    | ENil | EInner => []
    | EUnions l => flat_map (flat_map intersection_numbers) l
    | EExclusions e => elements_numbers e
    | ESingleValue v => value_numbers v
    | EValueRange a b => value_numbers (re_Value a) ++ value_numbers (re_Value b)
    | EType t => type_numbers t
    | ESize c => constraint_numbers c
    end
  with intersection_numbers (i : IntersectionElements P R) : list numeral :=
    match i with Intersect e x => elements_numbers e ++ elements_numbers x end.

  Definition assignment_numbers (a : assignment P R) : list numeral :=
    match a with
    | ANil => []
    | AType _ t => type_numbers t
    | AValue _ t v => type_numbers t ++ value_numbers v
    end.

  Definition sfm_numbers (s : SymbolsFromModule R) : list numeral := value_numbers (gmr_AssignedIdentifier (sfm_Module s)).

  Definition mb_numbers (b : ModuleBody P R) : list numeral :=
    flat_map sfm_numbers (mb_Imports b) ++ flat_map assignment_numbers (mb_AssignmentList b).

  Definition mi_numbers (i : ModuleIdentifier) : list numeral := map (fun c => Whole (doc_Id c)) (mi_DefinitiveIdentifier i).

  (** The numbers of a module. *)
  Definition module_numbers (m : ModuleDefinition P R) : list numeral :=
    mi_numbers (md_ModuleIdentifier m) ++ mb_numbers (md_ModuleBody m).
End TreeNumbers.

(** The numbers of a module as a caller sees it, default values included ... *)
Definition numbers (m : Module_) : list numeral := module_numbers value_numbers m.
(** ... and without default values. *)
Definition plain_numbers (m : Module_) : list numeral := module_numbers (fun _ => []) m.

(** No number is a REAL. *)
Definition all_whole (l : list numeral) : bool := forallb (fun x => match x with Whole _ => true | Decimal _ => false end) l.

(** How often a number occurs in a text; how often in a tree, with either sign. *)
Definition times (n : Z) (l : list Z) : nat := count_occ Z.eq_dec l n.
Definition times_unsigned (n : Z) (l : list numeral) : nat :=
  length (filter (fun x => match x with Whole z => Z.abs z =? n | Decimal _ => false end) l).
