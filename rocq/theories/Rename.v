(** Renaming: specification for C81.  A renaming is a function on names; these are the
    trees and tokens with every name replaced. *)
From Coq Require Import ZArith String List Bool.
From Verif Require Import GoBase Tokens Ast Grammar.
Import ListNotations.
Local Open Scope string_scope.
Local Open Scope list_scope.
Local Open Scope Z_scope.

(** What a renaming has to leave alone: the name that is not there, and the names the
    parser gives to the two time types (asn1.y, UsefulType). *)
Definition proper_renaming (rn : string -> string) : Prop :=
  rn "" = "" /\ rn "GeneralizedTime" = "GeneralizedTime" /\ rn "UTCTime" = "UTCTime".

Section Rename.
  Context (rn : string -> string).

  (** A token with its name replaced, if it is a name. *)
  Definition token_ren (t : token) : token :=
    if (tk_kind t =? T_TYPEORMODULEREFERENCE) || (tk_kind t =? T_VALUEIDENTIFIER)
    then {| tk_kind := tk_kind t; tk_name := rn (tk_name t); tk_number := tk_number t |} else t.

  Definition doc_ren (c : DefinitiveObjIdComponent) : DefinitiveObjIdComponent :=
    {| doc_Name := rn (doc_Name c); doc_Id := doc_Id c |}.
  Definition mi_ren (i : ModuleIdentifier) : ModuleIdentifier :=
    {| mi_Reference := rn (mi_Reference i); mi_DefinitiveIdentifier := map doc_ren (mi_DefinitiveIdentifier i) |}.
  Definition symbol_ren (s : Symbol) : Symbol :=
    match s with SymNil => SymNil | SymType n => SymType (rn n) | SymModule n => SymModule (rn n) | SymValue n => SymValue (rn n) end.
  Definition dv_ren (d : DefinedValue) : DefinedValue :=
    {| dv_ModuleName := rn (dv_ModuleName d); dv_ValueName := rn (dv_ValueName d) |}.
  Definition nn_ren (n : NamedNumber) : NamedNumber :=
    {| nn_Name := rn (nn_Name n);
       nn_Value := match nn_Value n with NNil => NNil | NNumber z => NNumber z | NDefined d => NDefined (dv_ren d) end |}.
  Definition ei_ren (e : EnumerationItem) : EnumerationItem :=
    match e with EINil => EINil | EINumber n => EINumber (nn_ren n) | EIIdentifier s => EIIdentifier (rn s) end.
  Definition et_ren (e : EnumeratedType) : EnumeratedType :=
    {| et_RootEnumeration := map ei_ren (et_RootEnumeration e); et_AdditionalEnumeration := map ei_ren (et_AdditionalEnumeration e) |}.

  Section Trees.
    (** How the pointers are renamed. *)
    Context {P R : Type} (f : P -> P) (g : R -> R).

    Definition oe_ren (e : ObjectIdElement R) : ObjectIdElement R :=
      {| oe_Name := rn (oe_Name e); oe_ID := oe_ID e; oe_Reference := option_map g (oe_Reference e) |}.
    Definition value_ren (v : value R) : value R :=
      match v with
      | VNil => VNil
      | VNumber n => VNumber n
      | VReal r => VReal r
      | VBoolean b => VBoolean b
      | VDefined d => VDefined (dv_ren d)
      | VIdentifiedInteger s => VIdentifiedInteger (rn s)
      | VObjectIdentifier l => VObjectIdentifier (map oe_ren l)
      end.
    Definition nb_ren (b : NamedBit R) : NamedBit R := {| nb_Name := rn (nb_Name b); nb_Index := value_ren (nb_Index b) |}.
    Definition tag_ren (t : Tag R) : Tag R := {| tag_Class := tag_Class t; tag_ClassNumber := value_ren (tag_ClassNumber t) |}.
    Definition re_ren (e : RangeEndpoint R) : RangeEndpoint R := {| re_Value := value_ren (re_Value e); re_IsOpen := re_IsOpen e |}.

    Fixpoint tren (t : atype P R) : atype P R :=
      match t with
      | TNil => TNil
      | TReference s => TReference (rn s)
      | TNamed n => TNamed (nren n)
      | TNull => TNull
      | TObjectIdentifier => TObjectIdentifier
      | TInteger l => TInteger (map nn_ren l)
      | TEnumerated e => TEnumerated (et_ren e)
      | TReal => TReal
      | TBoolean => TBoolean
      | TChoice a e => TChoice (map nren a) (map (option_map nren) e)
      | TRestrictedString z => TRestrictedString z
      | TCharacterString => TCharacterString
      | TOctetString => TOctetString
      | TSequence c e => TSequence (map cren c) (map cren e)
      | TSet c e => TSet (map cren c) (map cren e)
      | TTagged g t z b => TTagged (tag_ren g) (tren t) z b
      | TSequenceOf t => TSequenceOf (tren t)
      | TSetOf t => TSetOf (tren t)
      | TAny s => TAny (rn s)
      | TBitString l => TBitString (map nb_ren l)
      | TConstrained t c => TConstrained (tren t) (csren c)
      end
    with nren (n : NamedType P R) : NamedType P R :=
      match n with Named s t => Named (rn s) (tren t) end
    with cren (c : component P R) : component P R :=
      match c with
      | CNil => CNil
      | CNamed n o d => CNamed (nren n) o (option_map f d)
      | CComponentsOf t => CComponentsOf (tren t)
      end
    with csren (c : ConstraintSpec P R) : ConstraintSpec P R :=
      match c with
      | CSNil => CSNil
      | CSSubtype l => CSSubtype (map eren l)
      | CSGeneral => CSGeneral
      end
    with eren (e : Elements P R) : Elements P R :=
      match e with
      | ENil => ENil
      | EUnions l => EUnions (map (map iren) l)
      | EExclusions e => EExclusions (eren e)
      | ESingleValue v => ESingleValue (value_ren v)
      | EValueRange a b => EValueRange (re_ren a) (re_ren b)
      | EType t => EType (tren t)
      | ESize c => ESize (csren c)
      | EInner => EInner
      end
    with iren (i : IntersectionElements P R) : IntersectionElements P R :=
      match i with Intersect e x => Intersect (eren e) (eren x) end.

    Definition gmr_ren (x : GlobalModuleReference R) : GlobalModuleReference R :=
      {| gmr_Reference := rn (gmr_Reference x); gmr_AssignedIdentifier := value_ren (gmr_AssignedIdentifier x) |}.
    Definition sfm_ren (x : SymbolsFromModule R) : SymbolsFromModule R :=
      {| sfm_SymbolList := map symbol_ren (sfm_SymbolList x); sfm_Module := gmr_ren (sfm_Module x) |}.
    Definition aren (a : assignment P R) : assignment P R :=
      match a with
      | ANil => ANil
      | AType s t => AType (rn s) (tren t)
      | AValue s t v => AValue (rn s) (tren t) (value_ren v)
      end.
    Definition mb_ren (b : ModuleBody P R) : ModuleBody P R :=
      {| mb_AssignmentList := map aren (mb_AssignmentList b); mb_Imports := map sfm_ren (mb_Imports b) |}.
    Definition md_ren (m : ModuleDefinition P R) : ModuleDefinition P R :=
      {| md_ModuleIdentifier := mi_ren (md_ModuleIdentifier m);
         md_TagDefault := md_TagDefault m;
         md_ExtensibilityImplied := md_ExtensibilityImplied m;
         md_ModuleBody := mb_ren (md_ModuleBody m) |}.
  End Trees.

  (** A module as a caller sees it, renamed; what pointers point to as well. *)
  Definition module_ren (m : Module_) : Module_ := md_ren (value_ren dv_ren) dv_ren m.
End Rename.
