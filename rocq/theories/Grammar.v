(** The rules section of asn1.y as an inductive relation: specification of what
    the parser has to do.  Generated by tools/gen_actions.py from asn1.y; one
    constructor per production, its value is the text of the action with $k
    standing for the value of the k-th symbol.  The tree has no pointers: the
    address of a value stands for that value. *)
From Coq Require Import ZArith String List SpecFloat.
From Verif Require Import GoBase Tokens Ast RealNum.
Import ListNotations.
Local Open Scope string_scope.
Local Open Scope list_scope.
Local Open Scope Z_scope.

(** A token as the grammar sees it: its kind (a constant of Tokens.v), the
    identifier text and the number it carries. *)
Record token : Type := {
  tk_kind : Z;
  tk_name : string;
  tk_number : Z
}.

(** The nonterminals of asn1.y. *)
Inductive nonterm : Type :=
| N_ModuleDefinition
| N_typereference
| N_modulereference
| N_valuereference
| N_number
| N_identifier
| N_ModuleIdentifier
| N_DefinitiveIdentifier
| N_DefinitiveObjIdComponentList
| N_DefinitiveObjIdComponent
| N_DefinitiveNumberForm
| N_DefinitiveNameAndNumberForm
| N_TagDefault
| N_ExtensionDefault
| N_ModuleBody
| N_Exports
| N_SymbolsExported
| N_Imports
| N_SymbolsImported
| N_SymbolsFromModuleList
| N_SymbolsFromModule
| N_GlobalModuleReference
| N_AssignedIdentifier
| N_SymbolList
| N_Symbol
| N_Reference
| N_AssignmentList
| N_Assignment
| N_DefinedType
| N_DefinedValue
| N_TypeAssignment
| N_ValueAssignment
| N_Type
| N_BuiltinType
| N_ReferencedType
| N_NamedType
| N_Value
| N_BuiltinValue
| N_BooleanType
| N_BooleanValue
| N_IntegerType
| N_NamedNumberList
| N_NamedNumber
| N_SignedNumber
| N_IntegerValue
| N_EnumeratedType
| N_Enumerations
| N_RootEnumeration
| N_AdditionalEnumeration
| N_Enumeration
| N_EnumerationItem
| N_RealType
| N_RealValue
| N_NumericRealValue
| N_SpecialRealValue
| N_realnumber
| N_SignedExponent
| N_BitStringType
| N_NamedBitList
| N_NamedBit
| N_OctetStringType
| N_NullType
| N_SequenceType
| N_ExtensionAndException
| N_OptionalExtensionMarker
| N_ComponentTypeLists
| N_RootComponentTypeList
| N_ExtensionEndMarker
| N_ExtensionAdditions
| N_ExtensionAdditionList
| N_ExtensionAddition
| N_ExtensionAdditionGroup
| N_VersionNumber
| N_ComponentTypeList
| N_ComponentType
| N_SetType
| N_SetOfType
| N_AnyType
| N_ChoiceType
| N_AlternativeTypeLists
| N_RootAlternativeTypeList
| N_ExtensionAdditionAlternatives
| N_ExtensionAdditionAlternativesList
| N_ExtensionAdditionAlternative
| N_ExtensionAdditionAlternativesGroup
| N_AlternativeTypeList
| N_TaggedType
| N_Tag
| N_ClassNumber
| N_Class
| N_SequenceOfType
| N_ObjectIdentifierType
| N_ObjectIdentifierValue
| N_ObjIdComponentsList
| N_ObjIdComponents
| N_NumberForm
| N_NameAndNumberForm
| N_NameForm
| N_CharacterStringType
| N_RestrictedCharacterStringType
| N_UnrestrictedCharacterStringType
| N_UsefulType
| N_ConstrainedType
| N_TypeWithConstraint
| N_Constraint
| N_ConstraintSpec
| N_SubtypeConstraint
| N_ElementSetSpecs
| N_RootElementSetSpec
| N_AdditionalElementSetSpec
| N_ElementSetSpec
| N_Unions
| N_UElems
| N_Intersections
| N_IElems
| N_IntersectionElements
| N_Elems
| N_Exclusions
| N_UnionMark
| N_IntersectionMark
| N_Elements
| N_SubtypeElements
| N_SingleValue
| N_ValueRange
| N_LowerEndpoint
| N_UpperEndpoint
| N_LowerEndValue
| N_UpperEndValue
| N_SizeConstraint
| N_TypeConstraint
| N_InnerTypeConstraints
| N_SingleTypeConstraint
| N_MultipleTypeConstraints
| N_FullSpecification
| N_PartialSpecification
| N_TypeConstraints
| N_NamedConstraint
| N_ComponentConstraint
| N_ValueConstraint
| N_PresenceConstraint
| N_ExceptionSpec
| N_ExceptionIdentification.

(** Values of nonterminals: one constructor per %union field that types a
    nonterminal (asn1.y:14-74), and one for nonterminals without a type. *)
Inductive sem : Type :=
| S_none
| S_module (x : ModuleDefinition (value DefinedValue) DefinedValue)
| S_TypeReference (x : string)
| S_name (x : string)
| S_ValueReference (x : string)
| S_Number (x : Z)
| S_ModuleIdentifier (x : ModuleIdentifier)
| S_DefinitiveIdentifier (x : list DefinitiveObjIdComponent)
| S_DefinitiveObjIdComponentList (x : list (DefinitiveObjIdComponent))
| S_DefinitiveObjIdComponent (x : DefinitiveObjIdComponent)
| S_TagDefault (x : Z)
| S_ExtensionDefault (x : bool)
| S_ModuleBody (x : ModuleBody (value DefinedValue) DefinedValue)
| S_Imports (x : list (SymbolsFromModule DefinedValue))
| S_SymbolsFromModule (x : SymbolsFromModule DefinedValue)
| S_GlobalModuleReference (x : GlobalModuleReference DefinedValue)
| S_Value (x : value DefinedValue)
| S_SymbolList (x : list (Symbol))
| S_Symbol (x : Symbol)
| S_AssignmentList (x : list (assignment (value DefinedValue) DefinedValue))
| S_Assignment (x : assignment (value DefinedValue) DefinedValue)
| S_Type (x : atype (value DefinedValue) DefinedValue)
| S_DefinedValue (x : DefinedValue)
| S_NamedType (x : NamedType (value DefinedValue) DefinedValue)
| S_NamedNumberList (x : list (NamedNumber))
| S_NamedNumber (x : NamedNumber)
| S_EnumeratedType (x : EnumeratedType)
| S_Enumeration (x : list (EnumerationItem))
| S_EnumerationItem (x : EnumerationItem)
| S_Real (x : spec_float)
| S_NamedBitList (x : list (NamedBit DefinedValue))
| S_NamedBit (x : NamedBit DefinedValue)
| S_ComponentTypeLists (x : ComponentTypeLists (value DefinedValue) DefinedValue)
| S_ComponentTypeList (x : list (component (value DefinedValue) DefinedValue))
| S_ExtensionAdditions (x : list (component (value DefinedValue) DefinedValue))
| S_ComponentType (x : component (value DefinedValue) DefinedValue)
| S_ChoiceType (x : ChoiceType (value DefinedValue) DefinedValue)
| S_AlternativeTypeList (x : list (NamedType (value DefinedValue) DefinedValue))
| S_ExtensionAdditionAlternativesList (x : list (option (NamedType (value DefinedValue) DefinedValue)))
| S_ExtensionAdditionAlternative (x : option (NamedType (value DefinedValue) DefinedValue))
| S_Tag (x : Tag DefinedValue)
| S_Class (x : Z)
| S_ObjectIdentifierValue (x : list (ObjectIdElement DefinedValue))
| S_ObjectIdElement (x : ObjectIdElement DefinedValue)
| S_Constraint (x : ConstraintSpec (value DefinedValue) DefinedValue)
| S_ConstraintSpec (x : ConstraintSpec (value DefinedValue) DefinedValue)
| S_SubtypeConstraint (x : list (Elements (value DefinedValue) DefinedValue))
| S_ElementSetSpec (x : Elements (value DefinedValue) DefinedValue)
| S_Unions (x : list (list (IntersectionElements (value DefinedValue) DefinedValue)))
| S_Intersections (x : list (IntersectionElements (value DefinedValue) DefinedValue))
| S_IntersectionElements (x : IntersectionElements (value DefinedValue) DefinedValue)
| S_Elements (x : Elements (value DefinedValue) DefinedValue)
| S_Exclusions (x : Elements (value DefinedValue) DefinedValue)
| S_RangeEndpoint (x : RangeEndpoint DefinedValue).

(** A symbol of a right side with its value: a token, or a nonterminal and the
    value of its phrase. *)
Inductive item : Type :=
| Tk (t : token)
| Nt (N : nonterm) (v : sem).

(** [rule_k X l v]: by the k-th production of asn1.y a sequence of symbols with
    values [l] makes an [X] with value [v]. *)

(** asn1.y:343 *)
Inductive rule_1 : nonterm -> list item -> sem -> Prop :=
| G_1 : forall v1 t2 v3 v4 t5 t6 v7 t8,
    tk_kind t2 = T_DEFINITIONS ->
    tk_kind t5 = T_ASSIGNMENT ->
    tk_kind t6 = T_BEGIN ->
    tk_kind t8 = T_END ->
    rule_1 N_ModuleDefinition [Nt N_ModuleIdentifier (S_ModuleIdentifier v1);
      Tk t2;
      Nt N_TagDefault (S_TagDefault v3);
      Nt N_ExtensionDefault (S_ExtensionDefault v4);
      Tk t5;
      Tk t6;
      Nt N_ModuleBody (S_ModuleBody v7);
      Tk t8] (S_module {| md_ModuleIdentifier := v1; md_TagDefault := v3; md_ExtensibilityImplied := v4; md_ModuleBody := v7 |}).

(** asn1.y:346 *)
Inductive rule_2 : nonterm -> list item -> sem -> Prop :=
| G_2 : forall t1,
    tk_kind t1 = T_TYPEORMODULEREFERENCE ->
    rule_2 N_typereference [Tk t1] (S_TypeReference (tk_name t1)).

(** asn1.y:349 *)
Inductive rule_3 : nonterm -> list item -> sem -> Prop :=
| G_3 : forall t1,
    tk_kind t1 = T_TYPEORMODULEREFERENCE ->
    rule_3 N_modulereference [Tk t1] (S_name (tk_name t1)).

(** asn1.y:351 *)
Inductive rule_4 : nonterm -> list item -> sem -> Prop :=
| G_4 : forall t1,
    tk_kind t1 = T_VALUEIDENTIFIER ->
    rule_4 N_valuereference [Tk t1] (S_ValueReference (tk_name t1)).

(** asn1.y:354 *)
Inductive rule_5 : nonterm -> list item -> sem -> Prop :=
| G_5 : forall t1,
    tk_kind t1 = T_NUMBER ->
    rule_5 N_number [Tk t1] (S_Number (tk_number t1)).

(** asn1.y:357 *)
Inductive rule_6 : nonterm -> list item -> sem -> Prop :=
| G_6 : forall t1,
    tk_kind t1 = T_VALUEIDENTIFIER ->
    rule_6 N_identifier [Tk t1] (S_name (tk_name t1)).

(** asn1.y:362 *)
Inductive rule_7 : nonterm -> list item -> sem -> Prop :=
| G_7 : forall v1 v2,
    rule_7 N_ModuleIdentifier [Nt N_modulereference (S_name v1);
      Nt N_DefinitiveIdentifier (S_DefinitiveIdentifier v2)] (S_ModuleIdentifier {| mi_Reference := v1; mi_DefinitiveIdentifier := v2 |}).

(** asn1.y:365 *)
Inductive rule_8 : nonterm -> list item -> sem -> Prop :=
| G_8 : forall t1 v2 t3,
    tk_kind t1 = T_OPEN_CURLY ->
    tk_kind t3 = T_CLOSE_CURLY ->
    rule_8 N_DefinitiveIdentifier [Tk t1;
      Nt N_DefinitiveObjIdComponentList (S_DefinitiveObjIdComponentList v2);
      Tk t3] (S_DefinitiveIdentifier v2).

(** asn1.y:366 *)
Inductive rule_9 : nonterm -> list item -> sem -> Prop :=
| G_9 : rule_9 N_DefinitiveIdentifier [] (S_DefinitiveIdentifier []).

(** asn1.y:369 *)
Inductive rule_10 : nonterm -> list item -> sem -> Prop :=
| G_10 : forall v1,
    rule_10 N_DefinitiveObjIdComponentList [Nt N_DefinitiveObjIdComponent (S_DefinitiveObjIdComponent v1)] (S_DefinitiveObjIdComponentList ([] ++ [v1])).

(** asn1.y:370 *)
Inductive rule_11 : nonterm -> list item -> sem -> Prop :=
| G_11 : forall v1 v2,
    rule_11 N_DefinitiveObjIdComponentList [Nt N_DefinitiveObjIdComponent (S_DefinitiveObjIdComponent v1);
      Nt N_DefinitiveObjIdComponentList (S_DefinitiveObjIdComponentList v2)] (S_DefinitiveObjIdComponentList (([] ++ [v1]) ++ v2)).

(** asn1.y:373 *)
Inductive rule_12 : nonterm -> list item -> sem -> Prop :=
| G_12 : forall v1,
    rule_12 N_DefinitiveObjIdComponent [Nt N_NameForm (S_name v1)] (S_DefinitiveObjIdComponent {| doc_Name := v1; doc_Id := 0 |}).

(** asn1.y:374 *)
Inductive rule_13 : nonterm -> list item -> sem -> Prop :=
| G_13 : forall v1,
    rule_13 N_DefinitiveObjIdComponent [Nt N_DefinitiveNumberForm (S_Number v1)] (S_DefinitiveObjIdComponent {| doc_Name := ""; doc_Id := v1 |}).

(** asn1.y:375 *)
Inductive rule_14 : nonterm -> list item -> sem -> Prop :=
| G_14 : forall v1,
    rule_14 N_DefinitiveObjIdComponent [Nt N_DefinitiveNameAndNumberForm (S_DefinitiveObjIdComponent v1)] (S_DefinitiveObjIdComponent v1).

(** asn1.y:378 *)
Inductive rule_15 : nonterm -> list item -> sem -> Prop :=
| G_15 : forall t1,
    tk_kind t1 = T_NUMBER ->
    rule_15 N_DefinitiveNumberForm [Tk t1] (S_Number (tk_number t1)).

(** asn1.y:382 *)
Inductive rule_16 : nonterm -> list item -> sem -> Prop :=
| G_16 : forall v1 t2 v3 t4,
    tk_kind t2 = T_OPEN_ROUND ->
    tk_kind t4 = T_CLOSE_ROUND ->
    rule_16 N_DefinitiveNameAndNumberForm [Nt N_identifier (S_name v1);
      Tk t2;
      Nt N_DefinitiveNumberForm (S_Number v3);
      Tk t4] (S_DefinitiveObjIdComponent {| doc_Name := v1; doc_Id := v3 |}).

(** asn1.y:385 *)
Inductive rule_17 : nonterm -> list item -> sem -> Prop :=
| G_17 : forall t1 t2,
    tk_kind t1 = T_EXPLICIT ->
    tk_kind t2 = T_TAGS ->
    rule_17 N_TagDefault [Tk t1;
      Tk t2] (S_TagDefault TAGS_EXPLICIT).

(** asn1.y:386 *)
Inductive rule_18 : nonterm -> list item -> sem -> Prop :=
| G_18 : forall t1 t2,
    tk_kind t1 = T_IMPLICIT ->
    tk_kind t2 = T_TAGS ->
    rule_18 N_TagDefault [Tk t1;
      Tk t2] (S_TagDefault TAGS_IMPLICIT).

(** asn1.y:387 *)
Inductive rule_19 : nonterm -> list item -> sem -> Prop :=
| G_19 : forall t1 t2,
    tk_kind t1 = T_AUTOMATIC ->
    tk_kind t2 = T_TAGS ->
    rule_19 N_TagDefault [Tk t1;
      Tk t2] (S_TagDefault TAGS_AUTOMATIC).

(** asn1.y:388 *)
Inductive rule_20 : nonterm -> list item -> sem -> Prop :=
| G_20 : rule_20 N_TagDefault [] (S_TagDefault TAGS_EXPLICIT).

(** asn1.y:391 *)
Inductive rule_21 : nonterm -> list item -> sem -> Prop :=
| G_21 : forall t1 t2,
    tk_kind t1 = T_EXTENSIBILITY ->
    tk_kind t2 = T_IMPLIED ->
    rule_21 N_ExtensionDefault [Tk t1;
      Tk t2] (S_ExtensionDefault true).

(** asn1.y:392 *)
Inductive rule_22 : nonterm -> list item -> sem -> Prop :=
| G_22 : rule_22 N_ExtensionDefault [] (S_ExtensionDefault false).

(** asn1.y:395 *)
Inductive rule_23 : nonterm -> list item -> sem -> Prop :=
| G_23 : forall v2 v3,
    rule_23 N_ModuleBody [Nt N_Exports S_none;
      Nt N_Imports (S_Imports v2);
      Nt N_AssignmentList (S_AssignmentList v3)] (S_ModuleBody {| mb_AssignmentList := v3; mb_Imports := v2 |}).

(** asn1.y:396 *)
Inductive rule_24 : nonterm -> list item -> sem -> Prop :=
| G_24 : rule_24 N_ModuleBody [] (S_ModuleBody {| mb_AssignmentList := []; mb_Imports := [] |}).

(** asn1.y:400 *)
Inductive rule_25 : nonterm -> list item -> sem -> Prop :=
| G_25 : forall t1 t3,
    tk_kind t1 = T_EXPORTS ->
    tk_kind t3 = T_SEMICOLON ->
    rule_25 N_Exports [Tk t1;
      Nt N_SymbolsExported S_none;
      Tk t3] S_none.

(** asn1.y:401 *)
Inductive rule_26 : nonterm -> list item -> sem -> Prop :=
| G_26 : forall t1 t2 t3,
    tk_kind t1 = T_EXPORTS ->
    tk_kind t2 = T_ALL ->
    tk_kind t3 = T_SEMICOLON ->
    rule_26 N_Exports [Tk t1;
      Tk t2;
      Tk t3] S_none.

(** asn1.y:403 *)
Inductive rule_27 : nonterm -> list item -> sem -> Prop :=
| G_27 : rule_27 N_Exports [] S_none.

(** asn1.y:405 *)
Inductive rule_28 : nonterm -> list item -> sem -> Prop :=
| G_28 : forall v1,
    rule_28 N_SymbolsExported [Nt N_SymbolList (S_SymbolList v1)] S_none.

(** asn1.y:407 *)
Inductive rule_29 : nonterm -> list item -> sem -> Prop :=
| G_29 : rule_29 N_SymbolsExported [] S_none.

(** asn1.y:409 *)
Inductive rule_30 : nonterm -> list item -> sem -> Prop :=
| G_30 : forall t1 v2 t3,
    tk_kind t1 = T_IMPORTS ->
    tk_kind t3 = T_SEMICOLON ->
    rule_30 N_Imports [Tk t1;
      Nt N_SymbolsImported (S_Imports v2);
      Tk t3] (S_Imports v2).

(** asn1.y:410 *)
Inductive rule_31 : nonterm -> list item -> sem -> Prop :=
| G_31 : rule_31 N_Imports [] (S_Imports []).

(** asn1.y:413 *)
Inductive rule_32 : nonterm -> list item -> sem -> Prop :=
| G_32 : forall v1,
    rule_32 N_SymbolsImported [Nt N_SymbolsFromModuleList (S_Imports v1)] (S_Imports v1).

(** asn1.y:414 *)
Inductive rule_33 : nonterm -> list item -> sem -> Prop :=
| G_33 : rule_33 N_SymbolsImported [] (S_Imports []).

(** asn1.y:417 *)
Inductive rule_34 : nonterm -> list item -> sem -> Prop :=
| G_34 : forall v1,
    rule_34 N_SymbolsFromModuleList [Nt N_SymbolsFromModule (S_SymbolsFromModule v1)] (S_Imports ([] ++ [v1])).

(** asn1.y:418 *)
Inductive rule_35 : nonterm -> list item -> sem -> Prop :=
| G_35 : forall v1 v2,
    rule_35 N_SymbolsFromModuleList [Nt N_SymbolsFromModuleList (S_Imports v1);
      Nt N_SymbolsFromModule (S_SymbolsFromModule v2)] (S_Imports (v1 ++ [v2])).

(** asn1.y:421 *)
Inductive rule_36 : nonterm -> list item -> sem -> Prop :=
| G_36 : forall v1 t2 v3,
    tk_kind t2 = T_FROM ->
    rule_36 N_SymbolsFromModule [Nt N_SymbolList (S_SymbolList v1);
      Tk t2;
      Nt N_GlobalModuleReference (S_GlobalModuleReference v3)] (S_SymbolsFromModule {| sfm_SymbolList := v1; sfm_Module := v3 |}).

(** asn1.y:424 *)
Inductive rule_37 : nonterm -> list item -> sem -> Prop :=
| G_37 : forall v1 v2,
    rule_37 N_GlobalModuleReference [Nt N_modulereference (S_name v1);
      Nt N_AssignedIdentifier (S_Value v2)] (S_GlobalModuleReference {| gmr_Reference := v1; gmr_AssignedIdentifier := v2 |}).

(** asn1.y:427 *)
Inductive rule_38 : nonterm -> list item -> sem -> Prop :=
| G_38 : forall v1,
    rule_38 N_AssignedIdentifier [Nt N_ObjectIdentifierValue (S_ObjectIdentifierValue v1)] (S_Value (VObjectIdentifier v1)).

(** asn1.y:428 *)
Inductive rule_39 : nonterm -> list item -> sem -> Prop :=
| G_39 : forall v1,
    rule_39 N_AssignedIdentifier [Nt N_DefinedValue (S_DefinedValue v1)] (S_Value (VDefined v1)).

(** asn1.y:429 *)
Inductive rule_40 : nonterm -> list item -> sem -> Prop :=
| G_40 : rule_40 N_AssignedIdentifier [] (S_Value VNil).

(** asn1.y:432 *)
Inductive rule_41 : nonterm -> list item -> sem -> Prop :=
| G_41 : forall v1,
    rule_41 N_SymbolList [Nt N_Symbol (S_Symbol v1)] (S_SymbolList ([] ++ [v1])).

(** asn1.y:433 *)
Inductive rule_42 : nonterm -> list item -> sem -> Prop :=
| G_42 : forall v1 t2 v3,
    tk_kind t2 = T_COMMA ->
    rule_42 N_SymbolList [Nt N_SymbolList (S_SymbolList v1);
      Tk t2;
      Nt N_Symbol (S_Symbol v3)] (S_SymbolList (v1 ++ [v3])).

(** asn1.y:436 *)
Inductive rule_43 : nonterm -> list item -> sem -> Prop :=
| G_43 : forall v1,
    rule_43 N_Symbol [Nt N_Reference (S_Symbol v1)] (S_Symbol v1).

(** asn1.y:440 *)
Inductive rule_44 : nonterm -> list item -> sem -> Prop :=
| G_44 : forall v1,
    rule_44 N_Reference [Nt N_typereference (S_TypeReference v1)] (S_Symbol (SymType v1)).

(** asn1.y:441 *)
Inductive rule_45 : nonterm -> list item -> sem -> Prop :=
| G_45 : forall v1,
    rule_45 N_Reference [Nt N_modulereference (S_name v1)] (S_Symbol (SymModule v1)).

(** asn1.y:442 *)
Inductive rule_46 : nonterm -> list item -> sem -> Prop :=
| G_46 : forall v1,
    rule_46 N_Reference [Nt N_valuereference (S_ValueReference v1)] (S_Symbol (SymValue v1)).

(** asn1.y:448 *)
Inductive rule_47 : nonterm -> list item -> sem -> Prop :=
| G_47 : forall v1,
    rule_47 N_AssignmentList [Nt N_Assignment (S_Assignment v1)] (S_AssignmentList [v1]).

(** asn1.y:449 *)
Inductive rule_48 : nonterm -> list item -> sem -> Prop :=
| G_48 : forall v1 v2,
    rule_48 N_AssignmentList [Nt N_AssignmentList (S_AssignmentList v1);
      Nt N_Assignment (S_Assignment v2)] (S_AssignmentList (v1 ++ [v2])).

(** asn1.y:452 *)
Inductive rule_49 : nonterm -> list item -> sem -> Prop :=
| G_49 : forall v1,
    rule_49 N_Assignment [Nt N_TypeAssignment (S_Assignment v1)] (S_Assignment v1).

(** asn1.y:453 *)
Inductive rule_50 : nonterm -> list item -> sem -> Prop :=
| G_50 : forall v1,
    rule_50 N_Assignment [Nt N_ValueAssignment (S_Assignment v1)] (S_Assignment v1).

(** asn1.y:465 *)
Inductive rule_51 : nonterm -> list item -> sem -> Prop :=
| G_51 : forall v1,
    rule_51 N_DefinedType [Nt N_typereference (S_TypeReference v1)] (S_Type (TReference v1)).

(** asn1.y:473 *)
Inductive rule_52 : nonterm -> list item -> sem -> Prop :=
| G_52 : forall v1 t2 v3,
    tk_kind t2 = T_DOT ->
    rule_52 N_DefinedValue [Nt N_modulereference (S_name v1);
      Tk t2;
      Nt N_valuereference (S_ValueReference v3)] (S_DefinedValue {| dv_ModuleName := v1; dv_ValueName := v3 |}).

(** asn1.y:474 *)
Inductive rule_53 : nonterm -> list item -> sem -> Prop :=
| G_53 : forall v1,
    rule_53 N_DefinedValue [Nt N_valuereference (S_ValueReference v1)] (S_DefinedValue {| dv_ModuleName := ""; dv_ValueName := v1 |}).

(** asn1.y:489 *)
Inductive rule_54 : nonterm -> list item -> sem -> Prop :=
| G_54 : forall v1 t2 v3,
    tk_kind t2 = T_ASSIGNMENT ->
    rule_54 N_TypeAssignment [Nt N_typereference (S_TypeReference v1);
      Tk t2;
      Nt N_Type (S_Type v3)] (S_Assignment (AType v1 v3)).

(** asn1.y:492 *)
Inductive rule_55 : nonterm -> list item -> sem -> Prop :=
| G_55 : forall v1 v2 t3 v4,
    tk_kind t3 = T_ASSIGNMENT ->
    rule_55 N_ValueAssignment [Nt N_valuereference (S_ValueReference v1);
      Nt N_Type (S_Type v2);
      Tk t3;
      Nt N_Value (S_Value v4)] (S_Assignment (AValue v1 v2 v4)).

(** asn1.y:497 *)
Inductive rule_56 : nonterm -> list item -> sem -> Prop :=
| G_56 : forall v1,
    rule_56 N_Type [Nt N_BuiltinType (S_Type v1)] (S_Type v1).

(** asn1.y:498 *)
Inductive rule_57 : nonterm -> list item -> sem -> Prop :=
| G_57 : forall v1,
    rule_57 N_Type [Nt N_ReferencedType (S_Type v1)] (S_Type v1).

(** asn1.y:499 *)
Inductive rule_58 : nonterm -> list item -> sem -> Prop :=
| G_58 : forall v1,
    rule_58 N_Type [Nt N_ConstrainedType (S_Type v1)] (S_Type v1).

(** asn1.y:504 *)
Inductive rule_59 : nonterm -> list item -> sem -> Prop :=
| G_59 : forall v1,
    rule_59 N_BuiltinType [Nt N_BitStringType (S_Type v1)] (S_Type v1).

(** asn1.y:505 *)
Inductive rule_60 : nonterm -> list item -> sem -> Prop :=
| G_60 : forall v1,
    rule_60 N_BuiltinType [Nt N_BooleanType (S_Type v1)] (S_Type v1).

(** asn1.y:506 *)
Inductive rule_61 : nonterm -> list item -> sem -> Prop :=
| G_61 : forall v1,
    rule_61 N_BuiltinType [Nt N_CharacterStringType (S_Type v1)] (S_Type v1).

(** asn1.y:507 *)
Inductive rule_62 : nonterm -> list item -> sem -> Prop :=
| G_62 : forall v1,
    rule_62 N_BuiltinType [Nt N_ChoiceType (S_Type v1)] (S_Type v1).

(** asn1.y:509 *)
Inductive rule_63 : nonterm -> list item -> sem -> Prop :=
| G_63 : forall v1,
    rule_63 N_BuiltinType [Nt N_EnumeratedType (S_Type v1)] (S_Type v1).

(** asn1.y:512 *)
Inductive rule_64 : nonterm -> list item -> sem -> Prop :=
| G_64 : forall v1,
    rule_64 N_BuiltinType [Nt N_IntegerType (S_Type v1)] (S_Type v1).

(** asn1.y:513 *)
Inductive rule_65 : nonterm -> list item -> sem -> Prop :=
| G_65 : forall v1,
    rule_65 N_BuiltinType [Nt N_NullType (S_Type v1)] (S_Type v1).

(** asn1.y:515 *)
Inductive rule_66 : nonterm -> list item -> sem -> Prop :=
| G_66 : forall v1,
    rule_66 N_BuiltinType [Nt N_ObjectIdentifierType (S_Type v1)] (S_Type v1).

(** asn1.y:516 *)
Inductive rule_67 : nonterm -> list item -> sem -> Prop :=
| G_67 : forall v1,
    rule_67 N_BuiltinType [Nt N_OctetStringType (S_Type v1)] (S_Type v1).

(** asn1.y:517 *)
Inductive rule_68 : nonterm -> list item -> sem -> Prop :=
| G_68 : forall v1,
    rule_68 N_BuiltinType [Nt N_RealType (S_Type v1)] (S_Type v1).

(** asn1.y:519 *)
Inductive rule_69 : nonterm -> list item -> sem -> Prop :=
| G_69 : forall v1,
    rule_69 N_BuiltinType [Nt N_SequenceType (S_Type v1)] (S_Type v1).

(** asn1.y:520 *)
Inductive rule_70 : nonterm -> list item -> sem -> Prop :=
| G_70 : forall v1,
    rule_70 N_BuiltinType [Nt N_SequenceOfType (S_Type v1)] (S_Type v1).

(** asn1.y:521 *)
Inductive rule_71 : nonterm -> list item -> sem -> Prop :=
| G_71 : forall v1,
    rule_71 N_BuiltinType [Nt N_SetType (S_Type v1)] (S_Type v1).

(** asn1.y:522 *)
Inductive rule_72 : nonterm -> list item -> sem -> Prop :=
| G_72 : forall v1,
    rule_72 N_BuiltinType [Nt N_SetOfType (S_Type v1)] (S_Type v1).

(** asn1.y:524 *)
Inductive rule_73 : nonterm -> list item -> sem -> Prop :=
| G_73 : forall v1,
    rule_73 N_BuiltinType [Nt N_AnyType (S_Type v1)] (S_Type v1).

(** asn1.y:525 *)
Inductive rule_74 : nonterm -> list item -> sem -> Prop :=
| G_74 : forall v1,
    rule_74 N_BuiltinType [Nt N_TaggedType (S_Type v1)] (S_Type v1).

(** asn1.y:530 *)
Inductive rule_75 : nonterm -> list item -> sem -> Prop :=
| G_75 : forall v1,
    rule_75 N_ReferencedType [Nt N_DefinedType (S_Type v1)] (S_Type v1).

(** asn1.y:531 *)
Inductive rule_76 : nonterm -> list item -> sem -> Prop :=
| G_76 : forall v1,
    rule_76 N_ReferencedType [Nt N_UsefulType (S_Type v1)] (S_Type v1).

(** asn1.y:539 *)
Inductive rule_77 : nonterm -> list item -> sem -> Prop :=
| G_77 : forall v1 v2,
    rule_77 N_NamedType [Nt N_identifier (S_name v1);
      Nt N_Type (S_Type v2)] (S_NamedType (Named v1 v2)).

(** asn1.y:544 *)
Inductive rule_78 : nonterm -> list item -> sem -> Prop :=
| G_78 : forall v1,
    rule_78 N_Value [Nt N_BuiltinValue (S_Value v1)] (S_Value v1).

(** asn1.y:553 *)
Inductive rule_79 : nonterm -> list item -> sem -> Prop :=
| G_79 : forall v1,
    rule_79 N_BuiltinValue [Nt N_BooleanValue (S_Value v1)] (S_Value v1).

(** asn1.y:560 *)
Inductive rule_80 : nonterm -> list item -> sem -> Prop :=
| G_80 : forall v1,
    rule_80 N_BuiltinValue [Nt N_IntegerValue (S_Value v1)] (S_Value v1).

(** asn1.y:562 *)
Inductive rule_81 : nonterm -> list item -> sem -> Prop :=
| G_81 : forall v1,
    rule_81 N_BuiltinValue [Nt N_ObjectIdentifierValue (S_ObjectIdentifierValue v1)] (S_Value (VObjectIdentifier v1)).

(** asn1.y:564 *)
Inductive rule_82 : nonterm -> list item -> sem -> Prop :=
| G_82 : forall v1,
    rule_82 N_BuiltinValue [Nt N_RealValue (S_Value v1)] (S_Value v1).

(** asn1.y:575 *)
Inductive rule_83 : nonterm -> list item -> sem -> Prop :=
| G_83 : forall t1,
    tk_kind t1 = T_BOOLEAN ->
    rule_83 N_BooleanType [Tk t1] (S_Type TBoolean).

(** asn1.y:578 *)
Inductive rule_84 : nonterm -> list item -> sem -> Prop :=
| G_84 : forall t1,
    tk_kind t1 = T_TRUE ->
    rule_84 N_BooleanValue [Tk t1] (S_Value (VBoolean true)).

(** asn1.y:579 *)
Inductive rule_85 : nonterm -> list item -> sem -> Prop :=
| G_85 : forall t1,
    tk_kind t1 = T_FALSE ->
    rule_85 N_BooleanValue [Tk t1] (S_Value (VBoolean false)).

(** asn1.y:584 *)
Inductive rule_86 : nonterm -> list item -> sem -> Prop :=
| G_86 : forall t1,
    tk_kind t1 = T_INTEGER ->
    rule_86 N_IntegerType [Tk t1] (S_Type (TInteger [])).

(** asn1.y:585 *)
Inductive rule_87 : nonterm -> list item -> sem -> Prop :=
| G_87 : forall t1 t2 v3 t4,
    tk_kind t1 = T_INTEGER ->
    tk_kind t2 = T_OPEN_CURLY ->
    tk_kind t4 = T_CLOSE_CURLY ->
    rule_87 N_IntegerType [Tk t1;
      Tk t2;
      Nt N_NamedNumberList (S_NamedNumberList v3);
      Tk t4] (S_Type (TInteger v3)).

(** asn1.y:588 *)
Inductive rule_88 : nonterm -> list item -> sem -> Prop :=
| G_88 : forall v1,
    rule_88 N_NamedNumberList [Nt N_NamedNumber (S_NamedNumber v1)] (S_NamedNumberList [v1]).

(** asn1.y:589 *)
Inductive rule_89 : nonterm -> list item -> sem -> Prop :=
| G_89 : forall v1 t2 v3,
    tk_kind t2 = T_COMMA ->
    rule_89 N_NamedNumberList [Nt N_NamedNumberList (S_NamedNumberList v1);
      Tk t2;
      Nt N_NamedNumber (S_NamedNumber v3)] (S_NamedNumberList (v1 ++ [v3])).

(** asn1.y:592 *)
Inductive rule_90 : nonterm -> list item -> sem -> Prop :=
| G_90 : forall v1 t2 v3 t4,
    tk_kind t2 = T_OPEN_ROUND ->
    tk_kind t4 = T_CLOSE_ROUND ->
    rule_90 N_NamedNumber [Nt N_identifier (S_name v1);
      Tk t2;
      Nt N_SignedNumber (S_Number v3);
      Tk t4] (S_NamedNumber {| nn_Name := v1; nn_Value := (NNumber v3) |}).

(** asn1.y:593 *)
Inductive rule_91 : nonterm -> list item -> sem -> Prop :=
| G_91 : forall v1 t2 v3 t4,
    tk_kind t2 = T_OPEN_ROUND ->
    tk_kind t4 = T_CLOSE_ROUND ->
    rule_91 N_NamedNumber [Nt N_identifier (S_name v1);
      Tk t2;
      Nt N_DefinedValue (S_DefinedValue v3);
      Tk t4] (S_NamedNumber {| nn_Name := v1; nn_Value := (NDefined v3) |}).

(** asn1.y:596 *)
Inductive rule_92 : nonterm -> list item -> sem -> Prop :=
| G_92 : forall t1,
    tk_kind t1 = T_NUMBER ->
    rule_92 N_SignedNumber [Tk t1] (S_Number (tk_number t1)).

(** asn1.y:597 *)
Inductive rule_93 : nonterm -> list item -> sem -> Prop :=
| G_93 : forall t1 t2,
    tk_kind t1 = T_MINUS ->
    tk_kind t2 = T_NUMBER ->
    rule_93 N_SignedNumber [Tk t1;
      Tk t2] (S_Number (wrap64 (- (tk_number t2)))).

(** asn1.y:602 *)
Inductive rule_94 : nonterm -> list item -> sem -> Prop :=
| G_94 : forall v1,
    rule_94 N_IntegerValue [Nt N_SignedNumber (S_Number v1)] (S_Value (VNumber v1)).

(** asn1.y:603 *)
Inductive rule_95 : nonterm -> list item -> sem -> Prop :=
| G_95 : forall v1,
    rule_95 N_IntegerValue [Nt N_identifier (S_name v1)] (S_Value (VIdentifiedInteger v1)).

(** asn1.y:608 *)
Inductive rule_96 : nonterm -> list item -> sem -> Prop :=
| G_96 : forall t1 t2 v3 t4,
    tk_kind t1 = T_ENUMERATED ->
    tk_kind t2 = T_OPEN_CURLY ->
    tk_kind t4 = T_CLOSE_CURLY ->
    rule_96 N_EnumeratedType [Tk t1;
      Tk t2;
      Nt N_Enumerations (S_EnumeratedType v3);
      Tk t4] (S_Type (TEnumerated v3)).

(** asn1.y:611 *)
Inductive rule_97 : nonterm -> list item -> sem -> Prop :=
| G_97 : forall v1,
    rule_97 N_Enumerations [Nt N_RootEnumeration (S_Enumeration v1)] (S_EnumeratedType {| et_RootEnumeration := v1; et_AdditionalEnumeration := [] |}).

(** asn1.y:612 *)
Inductive rule_98 : nonterm -> list item -> sem -> Prop :=
| G_98 : forall v1 t2 t3,
    tk_kind t2 = T_COMMA ->
    tk_kind t3 = T_ELLIPSIS ->
    rule_98 N_Enumerations [Nt N_RootEnumeration (S_Enumeration v1);
      Tk t2;
      Tk t3;
      Nt N_ExceptionSpec S_none] (S_EnumeratedType {| et_RootEnumeration := v1; et_AdditionalEnumeration := [] |}).

(** asn1.y:613 *)
Inductive rule_99 : nonterm -> list item -> sem -> Prop :=
| G_99 : forall v1 t2 t3 t5 v6,
    tk_kind t2 = T_COMMA ->
    tk_kind t3 = T_ELLIPSIS ->
    tk_kind t5 = T_COMMA ->
    rule_99 N_Enumerations [Nt N_RootEnumeration (S_Enumeration v1);
      Tk t2;
      Tk t3;
      Nt N_ExceptionSpec S_none;
      Tk t5;
      Nt N_AdditionalEnumeration (S_Enumeration v6)] (S_EnumeratedType {| et_RootEnumeration := v1; et_AdditionalEnumeration := v6 |}).

(** asn1.y:615 *)
Inductive rule_100 : nonterm -> list item -> sem -> Prop :=
| G_100 : forall v1,
    rule_100 N_RootEnumeration [Nt N_Enumeration (S_Enumeration v1)] (S_Enumeration v1).

(** asn1.y:618 *)
Inductive rule_101 : nonterm -> list item -> sem -> Prop :=
| G_101 : forall v1,
    rule_101 N_AdditionalEnumeration [Nt N_Enumeration (S_Enumeration v1)] (S_Enumeration v1).

(** asn1.y:621 *)
Inductive rule_102 : nonterm -> list item -> sem -> Prop :=
| G_102 : forall v1,
    rule_102 N_Enumeration [Nt N_EnumerationItem (S_EnumerationItem v1)] (S_Enumeration [v1]).

(** asn1.y:622 *)
Inductive rule_103 : nonterm -> list item -> sem -> Prop :=
| G_103 : forall v1 t2 v3,
    tk_kind t2 = T_COMMA ->
    rule_103 N_Enumeration [Nt N_EnumerationItem (S_EnumerationItem v1);
      Tk t2;
      Nt N_Enumeration (S_Enumeration v3)] (S_Enumeration ([v1] ++ v3)).

(** asn1.y:625 *)
Inductive rule_104 : nonterm -> list item -> sem -> Prop :=
| G_104 : forall v1,
    rule_104 N_EnumerationItem [Nt N_NamedNumber (S_NamedNumber v1)] (S_EnumerationItem (EINumber v1)).

(** asn1.y:626 *)
Inductive rule_105 : nonterm -> list item -> sem -> Prop :=
| G_105 : forall v1,
    rule_105 N_EnumerationItem [Nt N_identifier (S_name v1)] (S_EnumerationItem (EIIdentifier v1)).

(** asn1.y:631 *)
Inductive rule_106 : nonterm -> list item -> sem -> Prop :=
| G_106 : forall t1,
    tk_kind t1 = T_REAL ->
    rule_106 N_RealType [Tk t1] (S_Type TReal).

(** asn1.y:636 *)
Inductive rule_107 : nonterm -> list item -> sem -> Prop :=
| G_107 : forall v1,
    rule_107 N_RealValue [Nt N_NumericRealValue (S_Value v1)] (S_Value v1).

(** asn1.y:637 *)
Inductive rule_108 : nonterm -> list item -> sem -> Prop :=
| G_108 : forall v1,
    rule_108 N_RealValue [Nt N_SpecialRealValue (S_Value v1)] (S_Value v1).

(** asn1.y:640 *)
Inductive rule_109 : nonterm -> list item -> sem -> Prop :=
| G_109 : forall v1,
    rule_109 N_NumericRealValue [Nt N_realnumber (S_Real v1)] (S_Value (VReal v1)).

(** asn1.y:641 *)
Inductive rule_110 : nonterm -> list item -> sem -> Prop :=
| G_110 : forall t1 v2,
    tk_kind t1 = T_MINUS ->
    rule_110 N_NumericRealValue [Tk t1;
      Nt N_realnumber (S_Real v2)] (S_Value (VReal (SFopp v2))).

(** asn1.y:645 *)
Inductive rule_111 : nonterm -> list item -> sem -> Prop :=
| G_111 : forall t1,
    tk_kind t1 = T_PLUS_INFINITY ->
    rule_111 N_SpecialRealValue [Tk t1] (S_Value (VReal (S754_infinity false))).

(** asn1.y:646 *)
Inductive rule_112 : nonterm -> list item -> sem -> Prop :=
| G_112 : forall t1,
    tk_kind t1 = T_MINUS_INFINITY ->
    rule_112 N_SpecialRealValue [Tk t1] (S_Value (VReal (S754_infinity true))).

(** asn1.y:650 *)
Inductive rule_113 : nonterm -> list item -> sem -> Prop :=
| G_113 : forall t1,
    tk_kind t1 = T_NUMBER ->
    rule_113 N_realnumber [Tk t1] (S_Real (parseRealNumber (tk_number t1) 0 0)).

(** asn1.y:651 *)
Inductive rule_114 : nonterm -> list item -> sem -> Prop :=
| G_114 : forall t1 t2 t3,
    tk_kind t1 = T_NUMBER ->
    tk_kind t2 = T_DOT ->
    tk_kind t3 = T_NUMBER ->
    rule_114 N_realnumber [Tk t1;
      Tk t2;
      Tk t3] (S_Real (parseRealNumber (tk_number t1) (tk_number t3) 0)).

(** asn1.y:652 *)
Inductive rule_115 : nonterm -> list item -> sem -> Prop :=
| G_115 : forall t1 t2 t3 t4 v5,
    tk_kind t1 = T_NUMBER ->
    tk_kind t2 = T_DOT ->
    tk_kind t3 = T_NUMBER ->
    tk_kind t4 = T_EXPONENT ->
    rule_115 N_realnumber [Tk t1;
      Tk t2;
      Tk t3;
      Tk t4;
      Nt N_SignedExponent (S_Number v5)] (S_Real (parseRealNumber (tk_number t1) (tk_number t3) v5)).

(** asn1.y:653 *)
Inductive rule_116 : nonterm -> list item -> sem -> Prop :=
| G_116 : forall t1 t2 v3,
    tk_kind t1 = T_NUMBER ->
    tk_kind t2 = T_EXPONENT ->
    rule_116 N_realnumber [Tk t1;
      Tk t2;
      Nt N_SignedExponent (S_Number v3)] (S_Real (parseRealNumber (tk_number t1) 0 v3)).

(** asn1.y:656 *)
Inductive rule_117 : nonterm -> list item -> sem -> Prop :=
| G_117 : forall t1,
    tk_kind t1 = T_NUMBER ->
    rule_117 N_SignedExponent [Tk t1] (S_Number (tk_number t1)).

(** asn1.y:657 *)
Inductive rule_118 : nonterm -> list item -> sem -> Prop :=
| G_118 : forall t1 t2,
    tk_kind t1 = T_MINUS ->
    tk_kind t2 = T_NUMBER ->
    rule_118 N_SignedExponent [Tk t1;
      Tk t2] (S_Number (wrap64 (- (tk_number t2)))).

(** asn1.y:662 *)
Inductive rule_119 : nonterm -> list item -> sem -> Prop :=
| G_119 : forall t1 t2,
    tk_kind t1 = T_BIT ->
    tk_kind t2 = T_STRING ->
    rule_119 N_BitStringType [Tk t1;
      Tk t2] (S_Type (TBitString [])).

(** asn1.y:663 *)
Inductive rule_120 : nonterm -> list item -> sem -> Prop :=
| G_120 : forall t1 t2 t3 v4 t5,
    tk_kind t1 = T_BIT ->
    tk_kind t2 = T_STRING ->
    tk_kind t3 = T_OPEN_CURLY ->
    tk_kind t5 = T_CLOSE_CURLY ->
    rule_120 N_BitStringType [Tk t1;
      Tk t2;
      Tk t3;
      Nt N_NamedBitList (S_NamedBitList v4);
      Tk t5] (S_Type (TBitString v4)).

(** asn1.y:666 *)
Inductive rule_121 : nonterm -> list item -> sem -> Prop :=
| G_121 : forall v1,
    rule_121 N_NamedBitList [Nt N_NamedBit (S_NamedBit v1)] (S_NamedBitList ([] ++ [v1])).

(** asn1.y:667 *)
Inductive rule_122 : nonterm -> list item -> sem -> Prop :=
| G_122 : forall v1 t2 v3,
    tk_kind t2 = T_COMMA ->
    rule_122 N_NamedBitList [Nt N_NamedBitList (S_NamedBitList v1);
      Tk t2;
      Nt N_NamedBit (S_NamedBit v3)] (S_NamedBitList (v1 ++ [v3])).

(** asn1.y:670 *)
Inductive rule_123 : nonterm -> list item -> sem -> Prop :=
| G_123 : forall v1 t2 v3 t4,
    tk_kind t2 = T_OPEN_ROUND ->
    tk_kind t4 = T_CLOSE_ROUND ->
    rule_123 N_NamedBit [Nt N_identifier (S_name v1);
      Tk t2;
      Nt N_number (S_Number v3);
      Tk t4] (S_NamedBit {| nb_Name := v1; nb_Index := (VNumber v3) |}).

(** asn1.y:671 *)
Inductive rule_124 : nonterm -> list item -> sem -> Prop :=
| G_124 : forall v1 t2 v3 t4,
    tk_kind t2 = T_OPEN_ROUND ->
    tk_kind t4 = T_CLOSE_ROUND ->
    rule_124 N_NamedBit [Nt N_identifier (S_name v1);
      Tk t2;
      Nt N_DefinedValue (S_DefinedValue v3);
      Tk t4] (S_NamedBit {| nb_Name := v1; nb_Index := (VDefined v3) |}).

(** asn1.y:676 *)
Inductive rule_125 : nonterm -> list item -> sem -> Prop :=
| G_125 : forall t1 t2,
    tk_kind t1 = T_OCTET ->
    tk_kind t2 = T_STRING ->
    rule_125 N_OctetStringType [Tk t1;
      Tk t2] (S_Type TOctetString).

(** asn1.y:681 *)
Inductive rule_126 : nonterm -> list item -> sem -> Prop :=
| G_126 : forall t1,
    tk_kind t1 = T_NULL ->
    rule_126 N_NullType [Tk t1] (S_Type TNull).

(** asn1.y:686 *)
Inductive rule_127 : nonterm -> list item -> sem -> Prop :=
| G_127 : forall t1 t2 t3,
    tk_kind t1 = T_SEQUENCE ->
    tk_kind t2 = T_OPEN_CURLY ->
    tk_kind t3 = T_CLOSE_CURLY ->
    rule_127 N_SequenceType [Tk t1;
      Tk t2;
      Tk t3] (S_Type (TSequence [] [])).

(** asn1.y:687 *)
Inductive rule_128 : nonterm -> list item -> sem -> Prop :=
| G_128 : forall t1 t2 t5,
    tk_kind t1 = T_SEQUENCE ->
    tk_kind t2 = T_OPEN_CURLY ->
    tk_kind t5 = T_CLOSE_CURLY ->
    rule_128 N_SequenceType [Tk t1;
      Tk t2;
      Nt N_ExtensionAndException S_none;
      Nt N_OptionalExtensionMarker S_none;
      Tk t5] (S_Type (TSequence [] [])).

(** asn1.y:688 *)
Inductive rule_129 : nonterm -> list item -> sem -> Prop :=
| G_129 : forall t1 t2 v3 t4,
    tk_kind t1 = T_SEQUENCE ->
    tk_kind t2 = T_OPEN_CURLY ->
    tk_kind t4 = T_CLOSE_CURLY ->
    rule_129 N_SequenceType [Tk t1;
      Tk t2;
      Nt N_ComponentTypeLists (S_ComponentTypeLists v3);
      Tk t4] (S_Type (TSequence ((ctl_Components v3) ++ (ctl_TrailingComponents v3)) (ctl_ExtensionAdditions v3))).

(** asn1.y:691 *)
Inductive rule_130 : nonterm -> list item -> sem -> Prop :=
| G_130 : forall t1,
    tk_kind t1 = T_ELLIPSIS ->
    rule_130 N_ExtensionAndException [Tk t1] S_none.

(** asn1.y:692 *)
Inductive rule_131 : nonterm -> list item -> sem -> Prop :=
| G_131 : forall t1,
    tk_kind t1 = T_ELLIPSIS ->
    rule_131 N_ExtensionAndException [Tk t1;
      Nt N_ExceptionSpec S_none] S_none.

(** asn1.y:695 *)
Inductive rule_132 : nonterm -> list item -> sem -> Prop :=
| G_132 : forall t1 t2,
    tk_kind t1 = T_COMMA ->
    tk_kind t2 = T_ELLIPSIS ->
    rule_132 N_OptionalExtensionMarker [Tk t1;
      Tk t2] S_none.

(** asn1.y:696 *)
Inductive rule_133 : nonterm -> list item -> sem -> Prop :=
| G_133 : rule_133 N_OptionalExtensionMarker [] S_none.

(** asn1.y:700 *)
Inductive rule_134 : nonterm -> list item -> sem -> Prop :=
| G_134 : forall v1,
    rule_134 N_ComponentTypeLists [Nt N_ComponentTypeList (S_ComponentTypeList v1)] (S_ComponentTypeLists {| ctl_Components := v1; ctl_ExtensionAdditions := []; ctl_TrailingComponents := [] |}).

(** asn1.y:701 *)
Inductive rule_135 : nonterm -> list item -> sem -> Prop :=
| G_135 : forall v1 t2 v4,
    tk_kind t2 = T_COMMA ->
    rule_135 N_ComponentTypeLists [Nt N_ComponentTypeList (S_ComponentTypeList v1);
      Tk t2;
      Nt N_ExtensionAndException S_none;
      Nt N_ExtensionAdditions (S_ExtensionAdditions v4);
      Nt N_OptionalExtensionMarker S_none] (S_ComponentTypeLists {| ctl_Components := v1; ctl_ExtensionAdditions := v4; ctl_TrailingComponents := [] |}).

(** asn1.y:702 *)
Inductive rule_136 : nonterm -> list item -> sem -> Prop :=
| G_136 : forall v1 t2 v4 t6 v7,
    tk_kind t2 = T_COMMA ->
    tk_kind t6 = T_COMMA ->
    rule_136 N_ComponentTypeLists [Nt N_ComponentTypeList (S_ComponentTypeList v1);
      Tk t2;
      Nt N_ExtensionAndException S_none;
      Nt N_ExtensionAdditions (S_ExtensionAdditions v4);
      Nt N_ExtensionEndMarker S_none;
      Tk t6;
      Nt N_ComponentTypeList (S_ComponentTypeList v7)] (S_ComponentTypeLists {| ctl_Components := v1; ctl_ExtensionAdditions := v4; ctl_TrailingComponents := v7 |}).

(** asn1.y:708 *)
Inductive rule_137 : nonterm -> list item -> sem -> Prop :=
| G_137 : forall v1,
    rule_137 N_RootComponentTypeList [Nt N_ComponentTypeList (S_ComponentTypeList v1)] (S_ComponentTypeList v1).

(** asn1.y:711 *)
Inductive rule_138 : nonterm -> list item -> sem -> Prop :=
| G_138 : forall t1 t2,
    tk_kind t1 = T_COMMA ->
    tk_kind t2 = T_ELLIPSIS ->
    rule_138 N_ExtensionEndMarker [Tk t1;
      Tk t2] S_none.

(** asn1.y:714 *)
Inductive rule_139 : nonterm -> list item -> sem -> Prop :=
| G_139 : forall t1 v2,
    tk_kind t1 = T_COMMA ->
    rule_139 N_ExtensionAdditions [Tk t1;
      Nt N_ExtensionAdditionList (S_ExtensionAdditions v2)] (S_ExtensionAdditions v2).

(** asn1.y:715 *)
Inductive rule_140 : nonterm -> list item -> sem -> Prop :=
| G_140 : rule_140 N_ExtensionAdditions [] (S_ExtensionAdditions []).

(** asn1.y:718 *)
Inductive rule_141 : nonterm -> list item -> sem -> Prop :=
| G_141 : forall v1,
    rule_141 N_ExtensionAdditionList [Nt N_ExtensionAddition (S_ExtensionAdditions v1)] (S_ExtensionAdditions ([] ++ v1)).

(** asn1.y:719 *)
Inductive rule_142 : nonterm -> list item -> sem -> Prop :=
| G_142 : forall v1 t2 v3,
    tk_kind t2 = T_COMMA ->
    rule_142 N_ExtensionAdditionList [Nt N_ExtensionAdditionList (S_ExtensionAdditions v1);
      Tk t2;
      Nt N_ExtensionAddition (S_ExtensionAdditions v3)] (S_ExtensionAdditions (v1 ++ v3)).

(** asn1.y:722 *)
Inductive rule_143 : nonterm -> list item -> sem -> Prop :=
| G_143 : forall v1,
    rule_143 N_ExtensionAddition [Nt N_ComponentType (S_ComponentType v1)] (S_ExtensionAdditions [v1]).

(** asn1.y:723 *)
Inductive rule_144 : nonterm -> list item -> sem -> Prop :=
| G_144 : rule_144 N_ExtensionAddition [Nt N_ExtensionAdditionGroup S_none] (S_ExtensionAdditions []).

(** asn1.y:725 *)
Inductive rule_145 : nonterm -> list item -> sem -> Prop :=
| G_145 : forall t1 v3 t4,
    tk_kind t1 = T_LEFT_VERSION_BRACKETS ->
    tk_kind t4 = T_RIGHT_VERSION_BRACKETS ->
    rule_145 N_ExtensionAdditionGroup [Tk t1;
      Nt N_VersionNumber S_none;
      Nt N_ComponentTypeList (S_ComponentTypeList v3);
      Tk t4] S_none.

(** asn1.y:729 *)
Inductive rule_146 : nonterm -> list item -> sem -> Prop :=
| G_146 : rule_146 N_VersionNumber [] S_none.

(** asn1.y:729 *)
Inductive rule_147 : nonterm -> list item -> sem -> Prop :=
| G_147 : forall t1 t2,
    tk_kind t1 = T_NUMBER ->
    tk_kind t2 = T_COLON ->
    rule_147 N_VersionNumber [Tk t1;
      Tk t2] S_none.

(** asn1.y:732 *)
Inductive rule_148 : nonterm -> list item -> sem -> Prop :=
| G_148 : forall v1,
    rule_148 N_ComponentTypeList [Nt N_ComponentType (S_ComponentType v1)] (S_ComponentTypeList ([] ++ [v1])).

(** asn1.y:733 *)
Inductive rule_149 : nonterm -> list item -> sem -> Prop :=
| G_149 : forall v1 t2 v3,
    tk_kind t2 = T_COMMA ->
    rule_149 N_ComponentTypeList [Nt N_ComponentTypeList (S_ComponentTypeList v1);
      Tk t2;
      Nt N_ComponentType (S_ComponentType v3)] (S_ComponentTypeList (v1 ++ [v3])).

(** asn1.y:736 *)
Inductive rule_150 : nonterm -> list item -> sem -> Prop :=
| G_150 : forall v1,
    rule_150 N_ComponentType [Nt N_NamedType (S_NamedType v1)] (S_ComponentType (CNamed v1 false None)).

(** asn1.y:737 *)
Inductive rule_151 : nonterm -> list item -> sem -> Prop :=
| G_151 : forall v1 t2,
    tk_kind t2 = T_OPTIONAL ->
    rule_151 N_ComponentType [Nt N_NamedType (S_NamedType v1);
      Tk t2] (S_ComponentType (CNamed v1 true None)).

(** asn1.y:738 *)
Inductive rule_152 : nonterm -> list item -> sem -> Prop :=
| G_152 : forall v1 t2 v3,
    tk_kind t2 = T_DEFAULT ->
    rule_152 N_ComponentType [Nt N_NamedType (S_NamedType v1);
      Tk t2;
      Nt N_Value (S_Value v3)] (S_ComponentType (CNamed v1 false (Some v3))).

(** asn1.y:739 *)
Inductive rule_153 : nonterm -> list item -> sem -> Prop :=
| G_153 : forall t1 t2 v3,
    tk_kind t1 = T_COMPONENTS ->
    tk_kind t2 = T_OF ->
    rule_153 N_ComponentType [Tk t1;
      Tk t2;
      Nt N_Type (S_Type v3)] (S_ComponentType (CComponentsOf v3)).

(** asn1.y:744 *)
Inductive rule_154 : nonterm -> list item -> sem -> Prop :=
| G_154 : forall t1 t2 t3,
    tk_kind t1 = T_SET ->
    tk_kind t2 = T_OPEN_CURLY ->
    tk_kind t3 = T_CLOSE_CURLY ->
    rule_154 N_SetType [Tk t1;
      Tk t2;
      Tk t3] (S_Type (TSet [] [])).

(** asn1.y:745 *)
Inductive rule_155 : nonterm -> list item -> sem -> Prop :=
| G_155 : forall t1 t2 t5,
    tk_kind t1 = T_SET ->
    tk_kind t2 = T_OPEN_CURLY ->
    tk_kind t5 = T_CLOSE_CURLY ->
    rule_155 N_SetType [Tk t1;
      Tk t2;
      Nt N_ExtensionAndException S_none;
      Nt N_OptionalExtensionMarker S_none;
      Tk t5] (S_Type (TSet [] [])).

(** asn1.y:746 *)
Inductive rule_156 : nonterm -> list item -> sem -> Prop :=
| G_156 : forall t1 t2 v3 t4,
    tk_kind t1 = T_SET ->
    tk_kind t2 = T_OPEN_CURLY ->
    tk_kind t4 = T_CLOSE_CURLY ->
    rule_156 N_SetType [Tk t1;
      Tk t2;
      Nt N_ComponentTypeLists (S_ComponentTypeLists v3);
      Tk t4] (S_Type (TSet ((ctl_Components v3) ++ (ctl_TrailingComponents v3)) (ctl_ExtensionAdditions v3))).

(** asn1.y:751 *)
Inductive rule_157 : nonterm -> list item -> sem -> Prop :=
| G_157 : forall t1 t2 v3,
    tk_kind t1 = T_SET ->
    tk_kind t2 = T_OF ->
    rule_157 N_SetOfType [Tk t1;
      Tk t2;
      Nt N_Type (S_Type v3)] (S_Type (TSetOf v3)).

(** asn1.y:752 *)
Inductive rule_158 : nonterm -> list item -> sem -> Prop :=
| G_158 : forall t1 t2 v3,
    tk_kind t1 = T_SET ->
    tk_kind t2 = T_OF ->
    rule_158 N_SetOfType [Tk t1;
      Tk t2;
      Nt N_NamedType (S_NamedType v3)] (S_Type (TSetOf (TNamed v3))).

(** asn1.y:756 *)
Inductive rule_159 : nonterm -> list item -> sem -> Prop :=
| G_159 : forall t1,
    tk_kind t1 = T_ANY ->
    rule_159 N_AnyType [Tk t1] (S_Type (TAny "")).

(** asn1.y:757 *)
Inductive rule_160 : nonterm -> list item -> sem -> Prop :=
| G_160 : forall t1 t2 t3 v4,
    tk_kind t1 = T_ANY ->
    tk_kind t2 = T_DEFINED ->
    tk_kind t3 = T_BY ->
    rule_160 N_AnyType [Tk t1;
      Tk t2;
      Tk t3;
      Nt N_identifier (S_name v4)] (S_Type (TAny v4)).

(** asn1.y:762 *)
Inductive rule_161 : nonterm -> list item -> sem -> Prop :=
| G_161 : forall t1 t2 v3 t4,
    tk_kind t1 = T_CHOICE ->
    tk_kind t2 = T_OPEN_CURLY ->
    tk_kind t4 = T_CLOSE_CURLY ->
    rule_161 N_ChoiceType [Tk t1;
      Tk t2;
      Nt N_AlternativeTypeLists (S_ChoiceType v3);
      Tk t4] (S_Type (let c := v3 in TChoice (ct_AlternativeTypeList c) (ct_ExtensionTypes c))).

(** asn1.y:765 *)
Inductive rule_162 : nonterm -> list item -> sem -> Prop :=
| G_162 : forall v1 t2 v4,
    tk_kind t2 = T_COMMA ->
    rule_162 N_AlternativeTypeLists [Nt N_AlternativeTypeList (S_AlternativeTypeList v1);
      Tk t2;
      Nt N_ExtensionAndException S_none;
      Nt N_ExtensionAdditionAlternatives (S_ExtensionAdditionAlternativesList v4);
      Nt N_OptionalExtensionMarker S_none] (S_ChoiceType {| ct_AlternativeTypeList := v1; ct_ExtensionTypes := v4 |}).

(** asn1.y:766 *)
Inductive rule_163 : nonterm -> list item -> sem -> Prop :=
| G_163 : forall v1,
    rule_163 N_AlternativeTypeLists [Nt N_AlternativeTypeList (S_AlternativeTypeList v1)] (S_ChoiceType {| ct_AlternativeTypeList := v1; ct_ExtensionTypes := [] |}).

(** asn1.y:767 *)
Inductive rule_164 : nonterm -> list item -> sem -> Prop :=
| G_164 : forall v2,
    rule_164 N_AlternativeTypeLists [Nt N_ExtensionAndException S_none;
      Nt N_ExtensionAdditionAlternatives (S_ExtensionAdditionAlternativesList v2);
      Nt N_OptionalExtensionMarker S_none] (S_ChoiceType {| ct_AlternativeTypeList := []; ct_ExtensionTypes := v2 |}).

(** asn1.y:771 *)
Inductive rule_165 : nonterm -> list item -> sem -> Prop :=
| G_165 : forall v1,
    rule_165 N_RootAlternativeTypeList [Nt N_AlternativeTypeList (S_AlternativeTypeList v1)] (S_AlternativeTypeList v1).

(** asn1.y:774 *)
Inductive rule_166 : nonterm -> list item -> sem -> Prop :=
| G_166 : forall t1 v2,
    tk_kind t1 = T_COMMA ->
    rule_166 N_ExtensionAdditionAlternatives [Tk t1;
      Nt N_ExtensionAdditionAlternativesList (S_ExtensionAdditionAlternativesList v2)] (S_ExtensionAdditionAlternativesList v2).

(** asn1.y:775 *)
Inductive rule_167 : nonterm -> list item -> sem -> Prop :=
| G_167 : rule_167 N_ExtensionAdditionAlternatives [] (S_ExtensionAdditionAlternativesList []).

(** asn1.y:778 *)
Inductive rule_168 : nonterm -> list item -> sem -> Prop :=
| G_168 : forall v1,
    rule_168 N_ExtensionAdditionAlternativesList [Nt N_ExtensionAdditionAlternative (S_ExtensionAdditionAlternative v1)] (S_ExtensionAdditionAlternativesList ([] ++ [v1])).

(** asn1.y:779 *)
Inductive rule_169 : nonterm -> list item -> sem -> Prop :=
| G_169 : forall v1 t2 v3,
    tk_kind t2 = T_COMMA ->
    rule_169 N_ExtensionAdditionAlternativesList [Nt N_ExtensionAdditionAlternativesList (S_ExtensionAdditionAlternativesList v1);
      Tk t2;
      Nt N_ExtensionAdditionAlternative (S_ExtensionAdditionAlternative v3)] (S_ExtensionAdditionAlternativesList (v1 ++ [v3])).

(** asn1.y:783 *)
Inductive rule_170 : nonterm -> list item -> sem -> Prop :=
| G_170 : forall v1,
    rule_170 N_ExtensionAdditionAlternative [Nt N_NamedType (S_NamedType v1)] (S_ExtensionAdditionAlternative (Some v1)).

(** asn1.y:787 *)
Inductive rule_171 : nonterm -> list item -> sem -> Prop :=
| G_171 : forall t1 v3 t4,
    tk_kind t1 = T_LEFT_VERSION_BRACKETS ->
    tk_kind t4 = T_RIGHT_VERSION_BRACKETS ->
    rule_171 N_ExtensionAdditionAlternativesGroup [Tk t1;
      Nt N_VersionNumber S_none;
      Nt N_AlternativeTypeList (S_AlternativeTypeList v3);
      Tk t4] S_none.

(** asn1.y:790 *)
Inductive rule_172 : nonterm -> list item -> sem -> Prop :=
| G_172 : forall v1,
    rule_172 N_AlternativeTypeList [Nt N_NamedType (S_NamedType v1)] (S_AlternativeTypeList ([] ++ [v1])).

(** asn1.y:791 *)
Inductive rule_173 : nonterm -> list item -> sem -> Prop :=
| G_173 : forall v1 t2 v3,
    tk_kind t2 = T_COMMA ->
    rule_173 N_AlternativeTypeList [Nt N_AlternativeTypeList (S_AlternativeTypeList v1);
      Tk t2;
      Nt N_NamedType (S_NamedType v3)] (S_AlternativeTypeList (v1 ++ [v3])).

(** asn1.y:796 *)
Inductive rule_174 : nonterm -> list item -> sem -> Prop :=
| G_174 : forall v1 v2,
    rule_174 N_TaggedType [Nt N_Tag (S_Tag v1);
      Nt N_Type (S_Type v2)] (S_Type (TTagged v1 v2 0 false)).

(** asn1.y:797 *)
Inductive rule_175 : nonterm -> list item -> sem -> Prop :=
| G_175 : forall v1 t2 v3,
    tk_kind t2 = T_IMPLICIT ->
    rule_175 N_TaggedType [Nt N_Tag (S_Tag v1);
      Tk t2;
      Nt N_Type (S_Type v3)] (S_Type (TTagged v1 v3 TAGS_IMPLICIT true)).

(** asn1.y:798 *)
Inductive rule_176 : nonterm -> list item -> sem -> Prop :=
| G_176 : forall v1 t2 v3,
    tk_kind t2 = T_EXPLICIT ->
    rule_176 N_TaggedType [Nt N_Tag (S_Tag v1);
      Tk t2;
      Nt N_Type (S_Type v3)] (S_Type (TTagged v1 v3 TAGS_EXPLICIT true)).

(** asn1.y:801 *)
Inductive rule_177 : nonterm -> list item -> sem -> Prop :=
| G_177 : forall t1 v2 v3 t4,
    tk_kind t1 = T_OPEN_SQUARE ->
    tk_kind t4 = T_CLOSE_SQUARE ->
    rule_177 N_Tag [Tk t1;
      Nt N_Class (S_Class v2);
      Nt N_ClassNumber (S_Value v3);
      Tk t4] (S_Tag {| tag_Class := v2; tag_ClassNumber := v3 |}).

(** asn1.y:804 *)
Inductive rule_178 : nonterm -> list item -> sem -> Prop :=
| G_178 : forall v1,
    rule_178 N_ClassNumber [Nt N_number (S_Number v1)] (S_Value (VNumber v1)).

(** asn1.y:805 *)
Inductive rule_179 : nonterm -> list item -> sem -> Prop :=
| G_179 : forall v1,
    rule_179 N_ClassNumber [Nt N_DefinedValue (S_DefinedValue v1)] (S_Value (VDefined v1)).

(** asn1.y:808 *)
Inductive rule_180 : nonterm -> list item -> sem -> Prop :=
| G_180 : forall t1,
    tk_kind t1 = T_UNIVERSAL ->
    rule_180 N_Class [Tk t1] (S_Class CLASS_UNIVERSAL).

(** asn1.y:809 *)
Inductive rule_181 : nonterm -> list item -> sem -> Prop :=
| G_181 : forall t1,
    tk_kind t1 = T_APPLICATION ->
    rule_181 N_Class [Tk t1] (S_Class CLASS_APPLICATION).

(** asn1.y:810 *)
Inductive rule_182 : nonterm -> list item -> sem -> Prop :=
| G_182 : forall t1,
    tk_kind t1 = T_PRIVATE ->
    rule_182 N_Class [Tk t1] (S_Class CLASS_PRIVATE).

(** asn1.y:811 *)
Inductive rule_183 : nonterm -> list item -> sem -> Prop :=
| G_183 : rule_183 N_Class [] (S_Class CLASS_CONTEXT_SPECIFIC).

(** asn1.y:816 *)
Inductive rule_184 : nonterm -> list item -> sem -> Prop :=
| G_184 : forall t1 t2 v3,
    tk_kind t1 = T_SEQUENCE ->
    tk_kind t2 = T_OF ->
    rule_184 N_SequenceOfType [Tk t1;
      Tk t2;
      Nt N_Type (S_Type v3)] (S_Type (TSequenceOf v3)).

(** asn1.y:817 *)
Inductive rule_185 : nonterm -> list item -> sem -> Prop :=
| G_185 : forall t1 t2 v3,
    tk_kind t1 = T_SEQUENCE ->
    tk_kind t2 = T_OF ->
    rule_185 N_SequenceOfType [Tk t1;
      Tk t2;
      Nt N_NamedType (S_NamedType v3)] (S_Type (TSequenceOf (TNamed v3))).

(** asn1.y:822 *)
Inductive rule_186 : nonterm -> list item -> sem -> Prop :=
| G_186 : forall t1 t2,
    tk_kind t1 = T_OBJECT ->
    tk_kind t2 = T_IDENTIFIER ->
    rule_186 N_ObjectIdentifierType [Tk t1;
      Tk t2] (S_Type TObjectIdentifier).

(** asn1.y:827 *)
Inductive rule_187 : nonterm -> list item -> sem -> Prop :=
| G_187 : forall t1 v2 t3,
    tk_kind t1 = T_OPEN_CURLY ->
    tk_kind t3 = T_CLOSE_CURLY ->
    rule_187 N_ObjectIdentifierValue [Tk t1;
      Nt N_ObjIdComponentsList (S_ObjectIdentifierValue v2);
      Tk t3] (S_ObjectIdentifierValue v2).

(** asn1.y:828 *)
Inductive rule_188 : nonterm -> list item -> sem -> Prop :=
| G_188 : forall t1 v2 v3 t4,
    tk_kind t1 = T_OPEN_CURLY ->
    tk_kind t4 = T_CLOSE_CURLY ->
    rule_188 N_ObjectIdentifierValue [Tk t1;
      Nt N_DefinedValue (S_DefinedValue v2);
      Nt N_ObjIdComponentsList (S_ObjectIdentifierValue v3);
      Tk t4] (S_ObjectIdentifierValue ([{| oe_Name := ""; oe_ID := 0; oe_Reference := (Some v2) |}] ++ v3)).

(** asn1.y:831 *)
Inductive rule_189 : nonterm -> list item -> sem -> Prop :=
| G_189 : forall v1,
    rule_189 N_ObjIdComponentsList [Nt N_ObjIdComponents (S_ObjectIdElement v1)] (S_ObjectIdentifierValue [v1]).

(** asn1.y:832 *)
Inductive rule_190 : nonterm -> list item -> sem -> Prop :=
| G_190 : forall v1 v2,
    rule_190 N_ObjIdComponentsList [Nt N_ObjIdComponents (S_ObjectIdElement v1);
      Nt N_ObjIdComponentsList (S_ObjectIdentifierValue v2)] (S_ObjectIdentifierValue ([v1] ++ v2)).

(** asn1.y:835 *)
Inductive rule_191 : nonterm -> list item -> sem -> Prop :=
| G_191 : forall v1,
    rule_191 N_ObjIdComponents [Nt N_NameForm (S_name v1)] (S_ObjectIdElement {| oe_Name := v1; oe_ID := 0; oe_Reference := None |}).

(** asn1.y:836 *)
Inductive rule_192 : nonterm -> list item -> sem -> Prop :=
| G_192 : forall v1,
    rule_192 N_ObjIdComponents [Nt N_NumberForm (S_ObjectIdElement v1)] (S_ObjectIdElement v1).

(** asn1.y:837 *)
Inductive rule_193 : nonterm -> list item -> sem -> Prop :=
| G_193 : forall v1,
    rule_193 N_ObjIdComponents [Nt N_NameAndNumberForm (S_ObjectIdElement v1)] (S_ObjectIdElement v1).

(** asn1.y:838 *)
Inductive rule_194 : nonterm -> list item -> sem -> Prop :=
| G_194 : forall v1,
    rule_194 N_ObjIdComponents [Nt N_DefinedValue (S_DefinedValue v1)] (S_ObjectIdElement {| oe_Name := ""; oe_ID := 0; oe_Reference := (Some v1) |}).

(** asn1.y:841 *)
Inductive rule_195 : nonterm -> list item -> sem -> Prop :=
| G_195 : forall t1,
    tk_kind t1 = T_NUMBER ->
    rule_195 N_NumberForm [Tk t1] (S_ObjectIdElement {| oe_Name := ""; oe_ID := (tk_number t1); oe_Reference := None |}).

(** asn1.y:842 *)
Inductive rule_196 : nonterm -> list item -> sem -> Prop :=
| G_196 : forall v1,
    rule_196 N_NumberForm [Nt N_DefinedValue (S_DefinedValue v1)] (S_ObjectIdElement {| oe_Name := ""; oe_ID := 0; oe_Reference := (Some v1) |}).

(** asn1.y:846 *)
Inductive rule_197 : nonterm -> list item -> sem -> Prop :=
| G_197 : forall v1 t2 v3 t4,
    tk_kind t2 = T_OPEN_ROUND ->
    tk_kind t4 = T_CLOSE_ROUND ->
    rule_197 N_NameAndNumberForm [Nt N_identifier (S_name v1);
      Tk t2;
      Nt N_NumberForm (S_ObjectIdElement v3);
      Tk t4] (S_ObjectIdElement {| oe_Name := v1; oe_ID := (oe_ID v3); oe_Reference := (oe_Reference v3) |}).

(** asn1.y:849 *)
Inductive rule_198 : nonterm -> list item -> sem -> Prop :=
| G_198 : forall v1,
    rule_198 N_NameForm [Nt N_identifier (S_name v1)] (S_name v1).

(** asn1.y:854 *)
Inductive rule_199 : nonterm -> list item -> sem -> Prop :=
| G_199 : forall v1,
    rule_199 N_CharacterStringType [Nt N_RestrictedCharacterStringType (S_Type v1)] (S_Type v1).

(** asn1.y:855 *)
Inductive rule_200 : nonterm -> list item -> sem -> Prop :=
| G_200 : forall v1,
    rule_200 N_CharacterStringType [Nt N_UnrestrictedCharacterStringType (S_Type v1)] (S_Type v1).

(** asn1.y:858 *)
Inductive rule_201 : nonterm -> list item -> sem -> Prop :=
| G_201 : forall t1,
    tk_kind t1 = T_BMPString ->
    rule_201 N_RestrictedCharacterStringType [Tk t1] (S_Type (TRestrictedString T_BMPString)).

(** asn1.y:859 *)
Inductive rule_202 : nonterm -> list item -> sem -> Prop :=
| G_202 : forall t1,
    tk_kind t1 = T_GeneralString ->
    rule_202 N_RestrictedCharacterStringType [Tk t1] (S_Type (TRestrictedString T_GeneralString)).

(** asn1.y:860 *)
Inductive rule_203 : nonterm -> list item -> sem -> Prop :=
| G_203 : forall t1,
    tk_kind t1 = T_GraphicString ->
    rule_203 N_RestrictedCharacterStringType [Tk t1] (S_Type (TRestrictedString T_GraphicString)).

(** asn1.y:861 *)
Inductive rule_204 : nonterm -> list item -> sem -> Prop :=
| G_204 : forall t1,
    tk_kind t1 = T_IA5String ->
    rule_204 N_RestrictedCharacterStringType [Tk t1] (S_Type (TRestrictedString T_IA5String)).

(** asn1.y:862 *)
Inductive rule_205 : nonterm -> list item -> sem -> Prop :=
| G_205 : forall t1,
    tk_kind t1 = T_ISO646String ->
    rule_205 N_RestrictedCharacterStringType [Tk t1] (S_Type (TRestrictedString T_ISO646String)).

(** asn1.y:863 *)
Inductive rule_206 : nonterm -> list item -> sem -> Prop :=
| G_206 : forall t1,
    tk_kind t1 = T_NumericString ->
    rule_206 N_RestrictedCharacterStringType [Tk t1] (S_Type (TRestrictedString T_NumericString)).

(** asn1.y:864 *)
Inductive rule_207 : nonterm -> list item -> sem -> Prop :=
| G_207 : forall t1,
    tk_kind t1 = T_PrintableString ->
    rule_207 N_RestrictedCharacterStringType [Tk t1] (S_Type (TRestrictedString T_PrintableString)).

(** asn1.y:865 *)
Inductive rule_208 : nonterm -> list item -> sem -> Prop :=
| G_208 : forall t1,
    tk_kind t1 = T_TeletexString ->
    rule_208 N_RestrictedCharacterStringType [Tk t1] (S_Type (TRestrictedString T_TeletexString)).

(** asn1.y:866 *)
Inductive rule_209 : nonterm -> list item -> sem -> Prop :=
| G_209 : forall t1,
    tk_kind t1 = T_T61String ->
    rule_209 N_RestrictedCharacterStringType [Tk t1] (S_Type (TRestrictedString T_T61String)).

(** asn1.y:867 *)
Inductive rule_210 : nonterm -> list item -> sem -> Prop :=
| G_210 : forall t1,
    tk_kind t1 = T_UniversalString ->
    rule_210 N_RestrictedCharacterStringType [Tk t1] (S_Type (TRestrictedString T_UniversalString)).

(** asn1.y:868 *)
Inductive rule_211 : nonterm -> list item -> sem -> Prop :=
| G_211 : forall t1,
    tk_kind t1 = T_UTF8String ->
    rule_211 N_RestrictedCharacterStringType [Tk t1] (S_Type (TRestrictedString T_UTF8String)).

(** asn1.y:869 *)
Inductive rule_212 : nonterm -> list item -> sem -> Prop :=
| G_212 : forall t1,
    tk_kind t1 = T_VideotexString ->
    rule_212 N_RestrictedCharacterStringType [Tk t1] (S_Type (TRestrictedString T_VideotexString)).

(** asn1.y:870 *)
Inductive rule_213 : nonterm -> list item -> sem -> Prop :=
| G_213 : forall t1,
    tk_kind t1 = T_VisibleString ->
    rule_213 N_RestrictedCharacterStringType [Tk t1] (S_Type (TRestrictedString T_VisibleString)).

(** asn1.y:875 *)
Inductive rule_214 : nonterm -> list item -> sem -> Prop :=
| G_214 : forall t1 t2,
    tk_kind t1 = T_CHARACTER ->
    tk_kind t2 = T_STRING ->
    rule_214 N_UnrestrictedCharacterStringType [Tk t1;
      Tk t2] (S_Type TCharacterString).

(** asn1.y:880 *)
Inductive rule_215 : nonterm -> list item -> sem -> Prop :=
| G_215 : forall t1,
    tk_kind t1 = T_GeneralizedTime ->
    rule_215 N_UsefulType [Tk t1] (S_Type (TReference "GeneralizedTime")).

(** asn1.y:881 *)
Inductive rule_216 : nonterm -> list item -> sem -> Prop :=
| G_216 : forall t1,
    tk_kind t1 = T_UTCTime ->
    rule_216 N_UsefulType [Tk t1] (S_Type (TReference "UTCTime")).

(** asn1.y:886 *)
Inductive rule_217 : nonterm -> list item -> sem -> Prop :=
| G_217 : forall v1 v2,
    rule_217 N_ConstrainedType [Nt N_Type (S_Type v1);
      Nt N_Constraint (S_Constraint v2)] (S_Type (TConstrained v1 v2)).

(** asn1.y:887 *)
Inductive rule_218 : nonterm -> list item -> sem -> Prop :=
| G_218 : forall v1,
    rule_218 N_ConstrainedType [Nt N_TypeWithConstraint (S_Type v1)] (S_Type v1).

(** asn1.y:892 *)
Inductive rule_219 : nonterm -> list item -> sem -> Prop :=
| G_219 : forall t1 v2 t3 v4,
    tk_kind t1 = T_SET ->
    tk_kind t3 = T_OF ->
    rule_219 N_TypeWithConstraint [Tk t1;
      Nt N_Constraint (S_Constraint v2);
      Tk t3;
      Nt N_Type (S_Type v4)] (S_Type (TConstrained (TSetOf v4) v2)).

(** asn1.y:893 *)
Inductive rule_220 : nonterm -> list item -> sem -> Prop :=
| G_220 : forall t1 v2 t3 v4,
    tk_kind t1 = T_SET ->
    tk_kind t3 = T_OF ->
    rule_220 N_TypeWithConstraint [Tk t1;
      Nt N_SizeConstraint (S_Elements v2);
      Tk t3;
      Nt N_Type (S_Type v4)] (S_Type (TConstrained (TSetOf v4) (SingleElementConstraint v2))).

(** asn1.y:894 *)
Inductive rule_221 : nonterm -> list item -> sem -> Prop :=
| G_221 : forall t1 v2 t3 v4,
    tk_kind t1 = T_SEQUENCE ->
    tk_kind t3 = T_OF ->
    rule_221 N_TypeWithConstraint [Tk t1;
      Nt N_Constraint (S_Constraint v2);
      Tk t3;
      Nt N_Type (S_Type v4)] (S_Type (TConstrained (TSequenceOf v4) v2)).

(** asn1.y:895 *)
Inductive rule_222 : nonterm -> list item -> sem -> Prop :=
| G_222 : forall t1 v2 t3 v4,
    tk_kind t1 = T_SEQUENCE ->
    tk_kind t3 = T_OF ->
    rule_222 N_TypeWithConstraint [Tk t1;
      Nt N_SizeConstraint (S_Elements v2);
      Tk t3;
      Nt N_Type (S_Type v4)] (S_Type (TConstrained (TSequenceOf v4) (SingleElementConstraint v2))).

(** asn1.y:896 *)
Inductive rule_223 : nonterm -> list item -> sem -> Prop :=
| G_223 : forall t1 v2 t3 v4,
    tk_kind t1 = T_SET ->
    tk_kind t3 = T_OF ->
    rule_223 N_TypeWithConstraint [Tk t1;
      Nt N_Constraint (S_Constraint v2);
      Tk t3;
      Nt N_NamedType (S_NamedType v4)] (S_Type (TConstrained (TSetOf (TNamed v4)) v2)).

(** asn1.y:897 *)
Inductive rule_224 : nonterm -> list item -> sem -> Prop :=
| G_224 : forall t1 v2 t3 v4,
    tk_kind t1 = T_SET ->
    tk_kind t3 = T_OF ->
    rule_224 N_TypeWithConstraint [Tk t1;
      Nt N_SizeConstraint (S_Elements v2);
      Tk t3;
      Nt N_NamedType (S_NamedType v4)] (S_Type (TConstrained (TSetOf (TNamed v4)) (SingleElementConstraint v2))).

(** asn1.y:898 *)
Inductive rule_225 : nonterm -> list item -> sem -> Prop :=
| G_225 : forall t1 v2 t3 v4,
    tk_kind t1 = T_SEQUENCE ->
    tk_kind t3 = T_OF ->
    rule_225 N_TypeWithConstraint [Tk t1;
      Nt N_Constraint (S_Constraint v2);
      Tk t3;
      Nt N_NamedType (S_NamedType v4)] (S_Type (TConstrained (TSequenceOf (TNamed v4)) v2)).

(** asn1.y:899 *)
Inductive rule_226 : nonterm -> list item -> sem -> Prop :=
| G_226 : forall t1 v2 t3 v4,
    tk_kind t1 = T_SEQUENCE ->
    tk_kind t3 = T_OF ->
    rule_226 N_TypeWithConstraint [Tk t1;
      Nt N_SizeConstraint (S_Elements v2);
      Tk t3;
      Nt N_NamedType (S_NamedType v4)] (S_Type (TConstrained (TSequenceOf (TNamed v4)) (SingleElementConstraint v2))).

(** asn1.y:904 *)
Inductive rule_227 : nonterm -> list item -> sem -> Prop :=
| G_227 : forall t1 v2 t4,
    tk_kind t1 = T_OPEN_ROUND ->
    tk_kind t4 = T_CLOSE_ROUND ->
    rule_227 N_Constraint [Tk t1;
      Nt N_ConstraintSpec (S_ConstraintSpec v2);
      Nt N_ExceptionSpec S_none;
      Tk t4] (S_Constraint v2).

(** asn1.y:907 *)
Inductive rule_228 : nonterm -> list item -> sem -> Prop :=
| G_228 : forall v1,
    rule_228 N_ConstraintSpec [Nt N_SubtypeConstraint (S_SubtypeConstraint v1)] (S_ConstraintSpec (CSSubtype v1)).

(** asn1.y:911 *)
Inductive rule_229 : nonterm -> list item -> sem -> Prop :=
| G_229 : forall v1,
    rule_229 N_SubtypeConstraint [Nt N_ElementSetSpecs (S_SubtypeConstraint v1)] (S_SubtypeConstraint v1).

(** asn1.y:916 *)
Inductive rule_230 : nonterm -> list item -> sem -> Prop :=
| G_230 : forall v1,
    rule_230 N_ElementSetSpecs [Nt N_RootElementSetSpec (S_SubtypeConstraint v1)] (S_SubtypeConstraint v1).

(** asn1.y:917 *)
Inductive rule_231 : nonterm -> list item -> sem -> Prop :=
| G_231 : forall v1 t2 t3,
    tk_kind t2 = T_COMMA ->
    tk_kind t3 = T_ELLIPSIS ->
    rule_231 N_ElementSetSpecs [Nt N_RootElementSetSpec (S_SubtypeConstraint v1);
      Tk t2;
      Tk t3] (S_SubtypeConstraint v1).

(** asn1.y:918 *)
Inductive rule_232 : nonterm -> list item -> sem -> Prop :=
| G_232 : forall v1 t2 t3 t4 v5,
    tk_kind t2 = T_COMMA ->
    tk_kind t3 = T_ELLIPSIS ->
    tk_kind t4 = T_COMMA ->
    rule_232 N_ElementSetSpecs [Nt N_RootElementSetSpec (S_SubtypeConstraint v1);
      Tk t2;
      Tk t3;
      Tk t4;
      Nt N_AdditionalElementSetSpec (S_ElementSetSpec v5)] (S_SubtypeConstraint (v1 ++ [v5])).

(** asn1.y:921 *)
Inductive rule_233 : nonterm -> list item -> sem -> Prop :=
| G_233 : forall v1,
    rule_233 N_RootElementSetSpec [Nt N_ElementSetSpec (S_ElementSetSpec v1)] (S_SubtypeConstraint [v1]).

(** asn1.y:924 *)
Inductive rule_234 : nonterm -> list item -> sem -> Prop :=
| G_234 : forall v1,
    rule_234 N_AdditionalElementSetSpec [Nt N_ElementSetSpec (S_ElementSetSpec v1)] (S_ElementSetSpec v1).

(** asn1.y:927 *)
Inductive rule_235 : nonterm -> list item -> sem -> Prop :=
| G_235 : forall v1,
    rule_235 N_ElementSetSpec [Nt N_Unions (S_Unions v1)] (S_ElementSetSpec (EUnions v1)).

(** asn1.y:928 *)
Inductive rule_236 : nonterm -> list item -> sem -> Prop :=
| G_236 : forall t1 v2,
    tk_kind t1 = T_ALL ->
    rule_236 N_ElementSetSpec [Tk t1;
      Nt N_Exclusions (S_Exclusions v2)] (S_ElementSetSpec (EExclusions v2)).

(** asn1.y:931 *)
Inductive rule_237 : nonterm -> list item -> sem -> Prop :=
| G_237 : forall v1,
    rule_237 N_Unions [Nt N_Intersections (S_Intersections v1)] (S_Unions [v1]).

(** asn1.y:932 *)
Inductive rule_238 : nonterm -> list item -> sem -> Prop :=
| G_238 : forall v1 v3,
    rule_238 N_Unions [Nt N_UElems (S_Unions v1);
      Nt N_UnionMark S_none;
      Nt N_Intersections (S_Intersections v3)] (S_Unions (v1 ++ [v3])).

(** asn1.y:935 *)
Inductive rule_239 : nonterm -> list item -> sem -> Prop :=
| G_239 : forall v1,
    rule_239 N_UElems [Nt N_Unions (S_Unions v1)] (S_Unions v1).

(** asn1.y:938 *)
Inductive rule_240 : nonterm -> list item -> sem -> Prop :=
| G_240 : forall v1,
    rule_240 N_Intersections [Nt N_IntersectionElements (S_IntersectionElements v1)] (S_Intersections [v1]).

(** asn1.y:939 *)
Inductive rule_241 : nonterm -> list item -> sem -> Prop :=
| G_241 : forall v1 v3,
    rule_241 N_Intersections [Nt N_IElems (S_Intersections v1);
      Nt N_IntersectionMark S_none;
      Nt N_IntersectionElements (S_IntersectionElements v3)] (S_Intersections (v1 ++ [v3])).

(** asn1.y:942 *)
Inductive rule_242 : nonterm -> list item -> sem -> Prop :=
| G_242 : forall v1,
    rule_242 N_IElems [Nt N_Intersections (S_Intersections v1)] (S_Intersections v1).

(** asn1.y:945 *)
Inductive rule_243 : nonterm -> list item -> sem -> Prop :=
| G_243 : forall v1,
    rule_243 N_IntersectionElements [Nt N_Elements (S_Elements v1)] (S_IntersectionElements (Intersect v1 ENil)).

(** asn1.y:946 *)
Inductive rule_244 : nonterm -> list item -> sem -> Prop :=
| G_244 : forall v1 v2,
    rule_244 N_IntersectionElements [Nt N_Elems (S_Elements v1);
      Nt N_Exclusions (S_Exclusions v2)] (S_IntersectionElements (Intersect v1 v2)).

(** asn1.y:949 *)
Inductive rule_245 : nonterm -> list item -> sem -> Prop :=
| G_245 : forall v1,
    rule_245 N_Elems [Nt N_Elements (S_Elements v1)] (S_Elements v1).

(** asn1.y:952 *)
Inductive rule_246 : nonterm -> list item -> sem -> Prop :=
| G_246 : forall t1 v2,
    tk_kind t1 = T_EXCEPT ->
    rule_246 N_Exclusions [Tk t1;
      Nt N_Elements (S_Elements v2)] (S_Exclusions v2).

(** asn1.y:955 *)
Inductive rule_247 : nonterm -> list item -> sem -> Prop :=
| G_247 : forall t1,
    tk_kind t1 = T_PIPE ->
    rule_247 N_UnionMark [Tk t1] S_none.

(** asn1.y:955 *)
Inductive rule_248 : nonterm -> list item -> sem -> Prop :=
| G_248 : forall t1,
    tk_kind t1 = T_UNION ->
    rule_248 N_UnionMark [Tk t1] S_none.

(** asn1.y:958 *)
Inductive rule_249 : nonterm -> list item -> sem -> Prop :=
| G_249 : forall t1,
    tk_kind t1 = T_CARET ->
    rule_249 N_IntersectionMark [Tk t1] S_none.

(** asn1.y:958 *)
Inductive rule_250 : nonterm -> list item -> sem -> Prop :=
| G_250 : forall t1,
    tk_kind t1 = T_INTERSECTION ->
    rule_250 N_IntersectionMark [Tk t1] S_none.

(** asn1.y:961 *)
Inductive rule_251 : nonterm -> list item -> sem -> Prop :=
| G_251 : forall v1,
    rule_251 N_Elements [Nt N_SubtypeElements (S_Elements v1)] (S_Elements v1).

(** asn1.y:963 *)
Inductive rule_252 : nonterm -> list item -> sem -> Prop :=
| G_252 : forall t1 v2 t3,
    tk_kind t1 = T_OPEN_ROUND ->
    tk_kind t3 = T_CLOSE_ROUND ->
    rule_252 N_Elements [Tk t1;
      Nt N_ElementSetSpec (S_ElementSetSpec v2);
      Tk t3] (S_Elements v2).

(** asn1.y:966 *)
Inductive rule_253 : nonterm -> list item -> sem -> Prop :=
| G_253 : forall v1,
    rule_253 N_SubtypeElements [Nt N_SingleValue (S_Elements v1)] (S_Elements v1).

(** asn1.y:968 *)
Inductive rule_254 : nonterm -> list item -> sem -> Prop :=
| G_254 : forall v1,
    rule_254 N_SubtypeElements [Nt N_ValueRange (S_Elements v1)] (S_Elements v1).

(** asn1.y:970 *)
Inductive rule_255 : nonterm -> list item -> sem -> Prop :=
| G_255 : forall v1,
    rule_255 N_SubtypeElements [Nt N_SizeConstraint (S_Elements v1)] (S_Elements v1).

(** asn1.y:971 *)
Inductive rule_256 : nonterm -> list item -> sem -> Prop :=
| G_256 : forall v1,
    rule_256 N_SubtypeElements [Nt N_TypeConstraint (S_Elements v1)] (S_Elements v1).

(** asn1.y:972 *)
Inductive rule_257 : nonterm -> list item -> sem -> Prop :=
| G_257 : forall v1,
    rule_257 N_SubtypeElements [Nt N_InnerTypeConstraints (S_Elements v1)] (S_Elements v1).

(** asn1.y:978 *)
Inductive rule_258 : nonterm -> list item -> sem -> Prop :=
| G_258 : forall v1,
    rule_258 N_SingleValue [Nt N_Value (S_Value v1)] (S_Elements (ESingleValue v1)).

(** asn1.y:983 *)
Inductive rule_259 : nonterm -> list item -> sem -> Prop :=
| G_259 : forall v1 t2 v3,
    tk_kind t2 = T_RANGE_SEPARATOR ->
    rule_259 N_ValueRange [Nt N_LowerEndpoint (S_RangeEndpoint v1);
      Tk t2;
      Nt N_UpperEndpoint (S_RangeEndpoint v3)] (S_Elements (EValueRange v1 v3)).

(** asn1.y:986 *)
Inductive rule_260 : nonterm -> list item -> sem -> Prop :=
| G_260 : forall v1,
    rule_260 N_LowerEndpoint [Nt N_LowerEndValue (S_Value v1)] (S_RangeEndpoint {| re_Value := v1; re_IsOpen := false |}).

(** asn1.y:987 *)
Inductive rule_261 : nonterm -> list item -> sem -> Prop :=
| G_261 : forall v1 t2,
    tk_kind t2 = T_LESS ->
    rule_261 N_LowerEndpoint [Nt N_LowerEndValue (S_Value v1);
      Tk t2] (S_RangeEndpoint {| re_Value := v1; re_IsOpen := true |}).

(** asn1.y:990 *)
Inductive rule_262 : nonterm -> list item -> sem -> Prop :=
| G_262 : forall v1,
    rule_262 N_UpperEndpoint [Nt N_UpperEndValue (S_Value v1)] (S_RangeEndpoint {| re_Value := v1; re_IsOpen := false |}).

(** asn1.y:991 *)
Inductive rule_263 : nonterm -> list item -> sem -> Prop :=
| G_263 : forall t1 v2,
    tk_kind t1 = T_LESS ->
    rule_263 N_UpperEndpoint [Tk t1;
      Nt N_UpperEndValue (S_Value v2)] (S_RangeEndpoint {| re_Value := v2; re_IsOpen := true |}).

(** asn1.y:994 *)
Inductive rule_264 : nonterm -> list item -> sem -> Prop :=
| G_264 : forall v1,
    rule_264 N_LowerEndValue [Nt N_Value (S_Value v1)] (S_Value v1).

(** asn1.y:995 *)
Inductive rule_265 : nonterm -> list item -> sem -> Prop :=
| G_265 : forall t1,
    tk_kind t1 = T_MIN ->
    rule_265 N_LowerEndValue [Tk t1] (S_Value VNil).

(** asn1.y:998 *)
Inductive rule_266 : nonterm -> list item -> sem -> Prop :=
| G_266 : forall v1,
    rule_266 N_UpperEndValue [Nt N_Value (S_Value v1)] (S_Value v1).

(** asn1.y:999 *)
Inductive rule_267 : nonterm -> list item -> sem -> Prop :=
| G_267 : forall t1,
    tk_kind t1 = T_MAX ->
    rule_267 N_UpperEndValue [Tk t1] (S_Value VNil).

(** asn1.y:1004 *)
Inductive rule_268 : nonterm -> list item -> sem -> Prop :=
| G_268 : forall t1 v2,
    tk_kind t1 = T_SIZE ->
    rule_268 N_SizeConstraint [Tk t1;
      Nt N_Constraint (S_Constraint v2)] (S_Elements (ESize v2)).

(** asn1.y:1009 *)
Inductive rule_269 : nonterm -> list item -> sem -> Prop :=
| G_269 : forall v1,
    rule_269 N_TypeConstraint [Nt N_Type (S_Type v1)] (S_Elements (EType v1)).

(** asn1.y:1014 *)
Inductive rule_270 : nonterm -> list item -> sem -> Prop :=
| G_270 : forall t1 t2,
    tk_kind t1 = T_WITH ->
    tk_kind t2 = T_COMPONENT ->
    rule_270 N_InnerTypeConstraints [Tk t1;
      Tk t2;
      Nt N_SingleTypeConstraint S_none] (S_Elements EInner).

(** asn1.y:1015 *)
Inductive rule_271 : nonterm -> list item -> sem -> Prop :=
| G_271 : forall t1 t2,
    tk_kind t1 = T_WITH ->
    tk_kind t2 = T_COMPONENTS ->
    rule_271 N_InnerTypeConstraints [Tk t1;
      Tk t2;
      Nt N_MultipleTypeConstraints S_none] (S_Elements EInner).

(** asn1.y:1018 *)
Inductive rule_272 : nonterm -> list item -> sem -> Prop :=
| G_272 : forall v1,
    rule_272 N_SingleTypeConstraint [Nt N_Constraint (S_Constraint v1)] S_none.

(** asn1.y:1021 *)
Inductive rule_273 : nonterm -> list item -> sem -> Prop :=
| G_273 : rule_273 N_MultipleTypeConstraints [Nt N_FullSpecification S_none] S_none.

(** asn1.y:1022 *)
Inductive rule_274 : nonterm -> list item -> sem -> Prop :=
| G_274 : rule_274 N_MultipleTypeConstraints [Nt N_PartialSpecification S_none] S_none.

(** asn1.y:1025 *)
Inductive rule_275 : nonterm -> list item -> sem -> Prop :=
| G_275 : forall t1 t3,
    tk_kind t1 = T_OPEN_CURLY ->
    tk_kind t3 = T_CLOSE_CURLY ->
    rule_275 N_FullSpecification [Tk t1;
      Nt N_TypeConstraints S_none;
      Tk t3] S_none.

(** asn1.y:1028 *)
Inductive rule_276 : nonterm -> list item -> sem -> Prop :=
| G_276 : forall t1 t2 t3 t5,
    tk_kind t1 = T_OPEN_CURLY ->
    tk_kind t2 = T_ELLIPSIS ->
    tk_kind t3 = T_COMMA ->
    tk_kind t5 = T_CLOSE_CURLY ->
    rule_276 N_PartialSpecification [Tk t1;
      Tk t2;
      Tk t3;
      Nt N_TypeConstraints S_none;
      Tk t5] S_none.

(** asn1.y:1031 *)
Inductive rule_277 : nonterm -> list item -> sem -> Prop :=
| G_277 : rule_277 N_TypeConstraints [Nt N_NamedConstraint S_none] S_none.

(** asn1.y:1032 *)
Inductive rule_278 : nonterm -> list item -> sem -> Prop :=
| G_278 : forall t2,
    tk_kind t2 = T_COMMA ->
    rule_278 N_TypeConstraints [Nt N_NamedConstraint S_none;
      Tk t2;
      Nt N_TypeConstraints S_none] S_none.

(** asn1.y:1034 *)
Inductive rule_279 : nonterm -> list item -> sem -> Prop :=
| G_279 : forall v1,
    rule_279 N_NamedConstraint [Nt N_identifier (S_name v1);
      Nt N_ComponentConstraint S_none] S_none.

(** asn1.y:1037 *)
Inductive rule_280 : nonterm -> list item -> sem -> Prop :=
| G_280 : rule_280 N_ComponentConstraint [Nt N_ValueConstraint S_none;
      Nt N_PresenceConstraint S_none] S_none.

(** asn1.y:1040 *)
Inductive rule_281 : nonterm -> list item -> sem -> Prop :=
| G_281 : forall v1,
    rule_281 N_ValueConstraint [Nt N_Constraint (S_Constraint v1)] S_none.

(** asn1.y:1041 *)
Inductive rule_282 : nonterm -> list item -> sem -> Prop :=
| G_282 : rule_282 N_ValueConstraint [] S_none.

(** asn1.y:1043 *)
Inductive rule_283 : nonterm -> list item -> sem -> Prop :=
| G_283 : forall t1,
    tk_kind t1 = T_PRESENT ->
    rule_283 N_PresenceConstraint [Tk t1] S_none.

(** asn1.y:1043 *)
Inductive rule_284 : nonterm -> list item -> sem -> Prop :=
| G_284 : forall t1,
    tk_kind t1 = T_ABSENT ->
    rule_284 N_PresenceConstraint [Tk t1] S_none.

(** asn1.y:1043 *)
Inductive rule_285 : nonterm -> list item -> sem -> Prop :=
| G_285 : forall t1,
    tk_kind t1 = T_OPTIONAL ->
    rule_285 N_PresenceConstraint [Tk t1] S_none.

(** asn1.y:1044 *)
Inductive rule_286 : nonterm -> list item -> sem -> Prop :=
| G_286 : rule_286 N_PresenceConstraint [] S_none.

(** asn1.y:1048 *)
Inductive rule_287 : nonterm -> list item -> sem -> Prop :=
| G_287 : forall t1,
    tk_kind t1 = T_EXCLAMATION ->
    rule_287 N_ExceptionSpec [Tk t1;
      Nt N_ExceptionIdentification S_none] S_none.

(** asn1.y:1050 *)
Inductive rule_288 : nonterm -> list item -> sem -> Prop :=
| G_288 : rule_288 N_ExceptionSpec [] S_none.

(** asn1.y:1052 *)
Inductive rule_289 : nonterm -> list item -> sem -> Prop :=
| G_289 : forall v1,
    rule_289 N_ExceptionIdentification [Nt N_SignedNumber (S_Number v1)] S_none.

(** asn1.y:1053 *)
Inductive rule_290 : nonterm -> list item -> sem -> Prop :=
| G_290 : forall v1,
    rule_290 N_ExceptionIdentification [Nt N_DefinedValue (S_DefinedValue v1)] S_none.

(** asn1.y:1054 *)
Inductive rule_291 : nonterm -> list item -> sem -> Prop :=
| G_291 : forall v1 t2 v3,
    tk_kind t2 = T_COLON ->
    rule_291 N_ExceptionIdentification [Nt N_Type (S_Type v1);
      Tk t2;
      Nt N_Value (S_Value v3)] S_none.

(** The productions in the order of asn1.y, counted from 1 as goyacc does. *)
Definition rule_table : list (nonterm -> list item -> sem -> Prop) :=
  [(fun _ _ _ => False);
   rule_1; rule_2; rule_3; rule_4; rule_5; rule_6; rule_7; rule_8; rule_9; rule_10;
   rule_11; rule_12; rule_13; rule_14; rule_15; rule_16; rule_17; rule_18; rule_19; rule_20;
   rule_21; rule_22; rule_23; rule_24; rule_25; rule_26; rule_27; rule_28; rule_29; rule_30;
   rule_31; rule_32; rule_33; rule_34; rule_35; rule_36; rule_37; rule_38; rule_39; rule_40;
   rule_41; rule_42; rule_43; rule_44; rule_45; rule_46; rule_47; rule_48; rule_49; rule_50;
   rule_51; rule_52; rule_53; rule_54; rule_55; rule_56; rule_57; rule_58; rule_59; rule_60;
   rule_61; rule_62; rule_63; rule_64; rule_65; rule_66; rule_67; rule_68; rule_69; rule_70;
   rule_71; rule_72; rule_73; rule_74; rule_75; rule_76; rule_77; rule_78; rule_79; rule_80;
   rule_81; rule_82; rule_83; rule_84; rule_85; rule_86; rule_87; rule_88; rule_89; rule_90;
   rule_91; rule_92; rule_93; rule_94; rule_95; rule_96; rule_97; rule_98; rule_99; rule_100;
   rule_101; rule_102; rule_103; rule_104; rule_105; rule_106; rule_107; rule_108; rule_109; rule_110;
   rule_111; rule_112; rule_113; rule_114; rule_115; rule_116; rule_117; rule_118; rule_119; rule_120;
   rule_121; rule_122; rule_123; rule_124; rule_125; rule_126; rule_127; rule_128; rule_129; rule_130;
   rule_131; rule_132; rule_133; rule_134; rule_135; rule_136; rule_137; rule_138; rule_139; rule_140;
   rule_141; rule_142; rule_143; rule_144; rule_145; rule_146; rule_147; rule_148; rule_149; rule_150;
   rule_151; rule_152; rule_153; rule_154; rule_155; rule_156; rule_157; rule_158; rule_159; rule_160;
   rule_161; rule_162; rule_163; rule_164; rule_165; rule_166; rule_167; rule_168; rule_169; rule_170;
   rule_171; rule_172; rule_173; rule_174; rule_175; rule_176; rule_177; rule_178; rule_179; rule_180;
   rule_181; rule_182; rule_183; rule_184; rule_185; rule_186; rule_187; rule_188; rule_189; rule_190;
   rule_191; rule_192; rule_193; rule_194; rule_195; rule_196; rule_197; rule_198; rule_199; rule_200;
   rule_201; rule_202; rule_203; rule_204; rule_205; rule_206; rule_207; rule_208; rule_209; rule_210;
   rule_211; rule_212; rule_213; rule_214; rule_215; rule_216; rule_217; rule_218; rule_219; rule_220;
   rule_221; rule_222; rule_223; rule_224; rule_225; rule_226; rule_227; rule_228; rule_229; rule_230;
   rule_231; rule_232; rule_233; rule_234; rule_235; rule_236; rule_237; rule_238; rule_239; rule_240;
   rule_241; rule_242; rule_243; rule_244; rule_245; rule_246; rule_247; rule_248; rule_249; rule_250;
   rule_251; rule_252; rule_253; rule_254; rule_255; rule_256; rule_257; rule_258; rule_259; rule_260;
   rule_261; rule_262; rule_263; rule_264; rule_265; rule_266; rule_267; rule_268; rule_269; rule_270;
   rule_271; rule_272; rule_273; rule_274; rule_275; rule_276; rule_277; rule_278; rule_279; rule_280;
   rule_281; rule_282; rule_283; rule_284; rule_285; rule_286; rule_287; rule_288; rule_289; rule_290;
   rule_291].

(** [rule n X l v]: production number [n]. *)
Definition rule (n : Z) : nonterm -> list item -> sem -> Prop :=
  nth (Z.to_nat n) rule_table (fun _ _ _ => False).

(** Derivation trees: tokens and uses of productions. *)
Inductive tree : Type :=
| Leaf (t : token)
| Node (n : Z) (l : list tree).

(** The tokens of a tree from left to right. *)
Fixpoint leaves (T : tree) : list token :=
  match T with
  | Leaf t => [t]
  | Node _ l => flat_map leaves l
  end.

(** [yields T i]: every node of [T] is a use of its production, and the root is the
    symbol and value [i]. *)
Inductive yields : tree -> item -> Prop :=
| yields_leaf t : yields (Leaf t) (Tk t)
| yields_node n N its v l :
    rule n N its v -> Forall2 yields l its -> yields (Node n l) (Nt N v).

(** [derives X ts v]: the tokens [ts] are a phrase of the nonterminal [X] with
    value [v]. *)
Definition derives (N : nonterm) (ts : list token) (v : sem) : Prop :=
  exists T, yields T (Nt N v) /\ leaves T = ts.
