(** Model of the semantic actions of y.go:1061-2239 (the body of [switch yynt]).
    Generated by tools/gen_actions.py from y.go; one definition per [case]. *)
From Coq Require Import ZArith String List SpecFloat.
From Verif Require Import GoBase Tokens Ast RealNum.
Import ListNotations.
Local Open Scope string_scope.
Local Open Scope list_scope.
Local Open Scope Z_scope.

(** yySymType, y.go:14-74, without [yys] (kept beside the value in the parser
    stack) and without the fields SequenceType and SequenceOfType, which no action
    uses. *)
Record yySymType (P R : Type) : Type := {
  yy_name : string;
  yy_numberRepr : string;
  yy_Number : Z;
  yy_Real : spec_float;
  yy_TagDefault : Z;
  yy_ExtensionDefault : bool;
  yy_ModuleIdentifier : ModuleIdentifier;
  yy_DefinitiveObjIdComponent : DefinitiveObjIdComponent;
  yy_DefinitiveObjIdComponentList : list (DefinitiveObjIdComponent);
  yy_DefinitiveIdentifier : list DefinitiveObjIdComponent;
  yy_Type : atype P R;
  yy_ObjectIdElement : ObjectIdElement R;
  yy_DefinedValue : DefinedValue;
  yy_ObjectIdentifierValue : list (ObjectIdElement R);
  yy_Value : value R;
  yy_Assignment : assignment P R;
  yy_AssignmentList : list (assignment P R);
  yy_ModuleBody : ModuleBody P R;
  yy_ValueReference : string;
  yy_TypeReference : string;
  yy_Constraint : ConstraintSpec P R;
  yy_ConstraintSpec : ConstraintSpec P R;
  yy_ElementSetSpec : Elements P R;
  yy_Unions : list (list (IntersectionElements P R));
  yy_Intersections : list (IntersectionElements P R);
  yy_IntersectionElements : IntersectionElements P R;
  yy_Exclusions : Elements P R;
  yy_Elements : Elements P R;
  yy_SubtypeConstraint : list (Elements P R);
  yy_RangeEndpoint : RangeEndpoint R;
  yy_NamedType : NamedType P R;
  yy_ComponentType : component P R;
  yy_ComponentTypeLists : ComponentTypeLists P R;
  yy_ComponentTypeList : list (component P R);
  yy_Tag : Tag R;
  yy_Class : Z;
  yy_NamedBitList : list (NamedBit R);
  yy_NamedBit : NamedBit R;
  yy_Imports : list (SymbolsFromModule R);
  yy_SymbolsFromModule : SymbolsFromModule R;
  yy_SymbolList : list (Symbol);
  yy_Symbol : Symbol;
  yy_GlobalModuleReference : GlobalModuleReference R;
  yy_AlternativeTypeList : list (NamedType P R);
  yy_ChoiceType : ChoiceType P R;
  yy_ExtensionAdditionAlternative : option (NamedType P R);
  yy_ExtensionAdditionAlternativesList : list (option (NamedType P R));
  yy_ExtensionAdditions : list (component P R);
  yy_NamedNumberList : list (NamedNumber);
  yy_NamedNumber : NamedNumber;
  yy_EnumeratedType : EnumeratedType;
  yy_Enumeration : list (EnumerationItem);
  yy_EnumerationItem : EnumerationItem
}.
Arguments yy_name {P R}.
Arguments yy_numberRepr {P R}.
Arguments yy_Number {P R}.
Arguments yy_Real {P R}.
Arguments yy_TagDefault {P R}.
Arguments yy_ExtensionDefault {P R}.
Arguments yy_ModuleIdentifier {P R}.
Arguments yy_DefinitiveObjIdComponent {P R}.
Arguments yy_DefinitiveObjIdComponentList {P R}.
Arguments yy_DefinitiveIdentifier {P R}.
Arguments yy_Type {P R}.
Arguments yy_ObjectIdElement {P R}.
Arguments yy_DefinedValue {P R}.
Arguments yy_ObjectIdentifierValue {P R}.
Arguments yy_Value {P R}.
Arguments yy_Assignment {P R}.
Arguments yy_AssignmentList {P R}.
Arguments yy_ModuleBody {P R}.
Arguments yy_ValueReference {P R}.
Arguments yy_TypeReference {P R}.
Arguments yy_Constraint {P R}.
Arguments yy_ConstraintSpec {P R}.
Arguments yy_ElementSetSpec {P R}.
Arguments yy_Unions {P R}.
Arguments yy_Intersections {P R}.
Arguments yy_IntersectionElements {P R}.
Arguments yy_Exclusions {P R}.
Arguments yy_Elements {P R}.
Arguments yy_SubtypeConstraint {P R}.
Arguments yy_RangeEndpoint {P R}.
Arguments yy_NamedType {P R}.
Arguments yy_ComponentType {P R}.
Arguments yy_ComponentTypeLists {P R}.
Arguments yy_ComponentTypeList {P R}.
Arguments yy_Tag {P R}.
Arguments yy_Class {P R}.
Arguments yy_NamedBitList {P R}.
Arguments yy_NamedBit {P R}.
Arguments yy_Imports {P R}.
Arguments yy_SymbolsFromModule {P R}.
Arguments yy_SymbolList {P R}.
Arguments yy_Symbol {P R}.
Arguments yy_GlobalModuleReference {P R}.
Arguments yy_AlternativeTypeList {P R}.
Arguments yy_ChoiceType {P R}.
Arguments yy_ExtensionAdditionAlternative {P R}.
Arguments yy_ExtensionAdditionAlternativesList {P R}.
Arguments yy_ExtensionAdditions {P R}.
Arguments yy_NamedNumberList {P R}.
Arguments yy_NamedNumber {P R}.
Arguments yy_EnumeratedType {P R}.
Arguments yy_Enumeration {P R}.
Arguments yy_EnumerationItem {P R}.

(** Zero value of yySymType. *)
Definition yy_zero {P R : Type} : yySymType P R := {|
  yy_name := "";
  yy_numberRepr := "";
  yy_Number := 0;
  yy_Real := (S754_zero false);
  yy_TagDefault := 0;
  yy_ExtensionDefault := false;
  yy_ModuleIdentifier := {| mi_Reference := ""; mi_DefinitiveIdentifier := [] |};
  yy_DefinitiveObjIdComponent := {| doc_Name := ""; doc_Id := 0 |};
  yy_DefinitiveObjIdComponentList := [];
  yy_DefinitiveIdentifier := [];
  yy_Type := TNil;
  yy_ObjectIdElement := {| oe_Name := ""; oe_ID := 0; oe_Reference := None |};
  yy_DefinedValue := {| dv_ModuleName := ""; dv_ValueName := "" |};
  yy_ObjectIdentifierValue := [];
  yy_Value := VNil;
  yy_Assignment := ANil;
  yy_AssignmentList := [];
  yy_ModuleBody := {| mb_AssignmentList := []; mb_Imports := [] |};
  yy_ValueReference := "";
  yy_TypeReference := "";
  yy_Constraint := CSNil;
  yy_ConstraintSpec := CSNil;
  yy_ElementSetSpec := ENil;
  yy_Unions := [];
  yy_Intersections := [];
  yy_IntersectionElements := (Intersect ENil ENil);
  yy_Exclusions := ENil;
  yy_Elements := ENil;
  yy_SubtypeConstraint := [];
  yy_RangeEndpoint := {| re_Value := VNil; re_IsOpen := false |};
  yy_NamedType := (Named "" TNil);
  yy_ComponentType := CNil;
  yy_ComponentTypeLists := {| ctl_Components := []; ctl_ExtensionAdditions := []; ctl_TrailingComponents := [] |};
  yy_ComponentTypeList := [];
  yy_Tag := {| tag_Class := 0; tag_ClassNumber := VNil |};
  yy_Class := 0;
  yy_NamedBitList := [];
  yy_NamedBit := {| nb_Name := ""; nb_Index := VNil |};
  yy_Imports := [];
  yy_SymbolsFromModule := {| sfm_SymbolList := []; sfm_Module := {| gmr_Reference := ""; gmr_AssignedIdentifier := VNil |} |};
  yy_SymbolList := [];
  yy_Symbol := SymNil;
  yy_GlobalModuleReference := {| gmr_Reference := ""; gmr_AssignedIdentifier := VNil |};
  yy_AlternativeTypeList := [];
  yy_ChoiceType := {| ct_AlternativeTypeList := []; ct_ExtensionTypes := [] |};
  yy_ExtensionAdditionAlternative := None;
  yy_ExtensionAdditionAlternativesList := [];
  yy_ExtensionAdditions := [];
  yy_NamedNumberList := [];
  yy_NamedNumber := {| nn_Name := ""; nn_Value := NNil |};
  yy_EnumeratedType := {| et_RootEnumeration := []; et_AdditionalEnumeration := [] |};
  yy_Enumeration := [];
  yy_EnumerationItem := EINil
|}.

(** yyVAL.name = x *)
Definition set_name {P R : Type} (y : yySymType P R) (x : string) : yySymType P R := {|
  yy_name := x;
  yy_numberRepr := yy_numberRepr y;
  yy_Number := yy_Number y;
  yy_Real := yy_Real y;
  yy_TagDefault := yy_TagDefault y;
  yy_ExtensionDefault := yy_ExtensionDefault y;
  yy_ModuleIdentifier := yy_ModuleIdentifier y;
  yy_DefinitiveObjIdComponent := yy_DefinitiveObjIdComponent y;
  yy_DefinitiveObjIdComponentList := yy_DefinitiveObjIdComponentList y;
  yy_DefinitiveIdentifier := yy_DefinitiveIdentifier y;
  yy_Type := yy_Type y;
  yy_ObjectIdElement := yy_ObjectIdElement y;
  yy_DefinedValue := yy_DefinedValue y;
  yy_ObjectIdentifierValue := yy_ObjectIdentifierValue y;
  yy_Value := yy_Value y;
  yy_Assignment := yy_Assignment y;
  yy_AssignmentList := yy_AssignmentList y;
  yy_ModuleBody := yy_ModuleBody y;
  yy_ValueReference := yy_ValueReference y;
  yy_TypeReference := yy_TypeReference y;
  yy_Constraint := yy_Constraint y;
  yy_ConstraintSpec := yy_ConstraintSpec y;
  yy_ElementSetSpec := yy_ElementSetSpec y;
  yy_Unions := yy_Unions y;
  yy_Intersections := yy_Intersections y;
  yy_IntersectionElements := yy_IntersectionElements y;
  yy_Exclusions := yy_Exclusions y;
  yy_Elements := yy_Elements y;
  yy_SubtypeConstraint := yy_SubtypeConstraint y;
  yy_RangeEndpoint := yy_RangeEndpoint y;
  yy_NamedType := yy_NamedType y;
  yy_ComponentType := yy_ComponentType y;
  yy_ComponentTypeLists := yy_ComponentTypeLists y;
  yy_ComponentTypeList := yy_ComponentTypeList y;
  yy_Tag := yy_Tag y;
  yy_Class := yy_Class y;
  yy_NamedBitList := yy_NamedBitList y;
  yy_NamedBit := yy_NamedBit y;
  yy_Imports := yy_Imports y;
  yy_SymbolsFromModule := yy_SymbolsFromModule y;
  yy_SymbolList := yy_SymbolList y;
  yy_Symbol := yy_Symbol y;
  yy_GlobalModuleReference := yy_GlobalModuleReference y;
  yy_AlternativeTypeList := yy_AlternativeTypeList y;
  yy_ChoiceType := yy_ChoiceType y;
  yy_ExtensionAdditionAlternative := yy_ExtensionAdditionAlternative y;
  yy_ExtensionAdditionAlternativesList := yy_ExtensionAdditionAlternativesList y;
  yy_ExtensionAdditions := yy_ExtensionAdditions y;
  yy_NamedNumberList := yy_NamedNumberList y;
  yy_NamedNumber := yy_NamedNumber y;
  yy_EnumeratedType := yy_EnumeratedType y;
  yy_Enumeration := yy_Enumeration y;
  yy_EnumerationItem := yy_EnumerationItem y
|}.

(** yyVAL.numberRepr = x *)
Definition set_numberRepr {P R : Type} (y : yySymType P R) (x : string) : yySymType P R := {|
  yy_name := yy_name y;
  yy_numberRepr := x;
  yy_Number := yy_Number y;
  yy_Real := yy_Real y;
  yy_TagDefault := yy_TagDefault y;
  yy_ExtensionDefault := yy_ExtensionDefault y;
  yy_ModuleIdentifier := yy_ModuleIdentifier y;
  yy_DefinitiveObjIdComponent := yy_DefinitiveObjIdComponent y;
  yy_DefinitiveObjIdComponentList := yy_DefinitiveObjIdComponentList y;
  yy_DefinitiveIdentifier := yy_DefinitiveIdentifier y;
  yy_Type := yy_Type y;
  yy_ObjectIdElement := yy_ObjectIdElement y;
  yy_DefinedValue := yy_DefinedValue y;
  yy_ObjectIdentifierValue := yy_ObjectIdentifierValue y;
  yy_Value := yy_Value y;
  yy_Assignment := yy_Assignment y;
  yy_AssignmentList := yy_AssignmentList y;
  yy_ModuleBody := yy_ModuleBody y;
  yy_ValueReference := yy_ValueReference y;
  yy_TypeReference := yy_TypeReference y;
  yy_Constraint := yy_Constraint y;
  yy_ConstraintSpec := yy_ConstraintSpec y;
  yy_ElementSetSpec := yy_ElementSetSpec y;
  yy_Unions := yy_Unions y;
  yy_Intersections := yy_Intersections y;
  yy_IntersectionElements := yy_IntersectionElements y;
  yy_Exclusions := yy_Exclusions y;
  yy_Elements := yy_Elements y;
  yy_SubtypeConstraint := yy_SubtypeConstraint y;
  yy_RangeEndpoint := yy_RangeEndpoint y;
  yy_NamedType := yy_NamedType y;
  yy_ComponentType := yy_ComponentType y;
  yy_ComponentTypeLists := yy_ComponentTypeLists y;
  yy_ComponentTypeList := yy_ComponentTypeList y;
  yy_Tag := yy_Tag y;
  yy_Class := yy_Class y;
  yy_NamedBitList := yy_NamedBitList y;
  yy_NamedBit := yy_NamedBit y;
  yy_Imports := yy_Imports y;
  yy_SymbolsFromModule := yy_SymbolsFromModule y;
  yy_SymbolList := yy_SymbolList y;
  yy_Symbol := yy_Symbol y;
  yy_GlobalModuleReference := yy_GlobalModuleReference y;
  yy_AlternativeTypeList := yy_AlternativeTypeList y;
  yy_ChoiceType := yy_ChoiceType y;
  yy_ExtensionAdditionAlternative := yy_ExtensionAdditionAlternative y;
  yy_ExtensionAdditionAlternativesList := yy_ExtensionAdditionAlternativesList y;
  yy_ExtensionAdditions := yy_ExtensionAdditions y;
  yy_NamedNumberList := yy_NamedNumberList y;
  yy_NamedNumber := yy_NamedNumber y;
  yy_EnumeratedType := yy_EnumeratedType y;
  yy_Enumeration := yy_Enumeration y;
  yy_EnumerationItem := yy_EnumerationItem y
|}.

(** yyVAL.Number = x *)
Definition set_Number {P R : Type} (y : yySymType P R) (x : Z) : yySymType P R := {|
  yy_name := yy_name y;
  yy_numberRepr := yy_numberRepr y;
  yy_Number := x;
  yy_Real := yy_Real y;
  yy_TagDefault := yy_TagDefault y;
  yy_ExtensionDefault := yy_ExtensionDefault y;
  yy_ModuleIdentifier := yy_ModuleIdentifier y;
  yy_DefinitiveObjIdComponent := yy_DefinitiveObjIdComponent y;
  yy_DefinitiveObjIdComponentList := yy_DefinitiveObjIdComponentList y;
  yy_DefinitiveIdentifier := yy_DefinitiveIdentifier y;
  yy_Type := yy_Type y;
  yy_ObjectIdElement := yy_ObjectIdElement y;
  yy_DefinedValue := yy_DefinedValue y;
  yy_ObjectIdentifierValue := yy_ObjectIdentifierValue y;
  yy_Value := yy_Value y;
  yy_Assignment := yy_Assignment y;
  yy_AssignmentList := yy_AssignmentList y;
  yy_ModuleBody := yy_ModuleBody y;
  yy_ValueReference := yy_ValueReference y;
  yy_TypeReference := yy_TypeReference y;
  yy_Constraint := yy_Constraint y;
  yy_ConstraintSpec := yy_ConstraintSpec y;
  yy_ElementSetSpec := yy_ElementSetSpec y;
  yy_Unions := yy_Unions y;
  yy_Intersections := yy_Intersections y;
  yy_IntersectionElements := yy_IntersectionElements y;
  yy_Exclusions := yy_Exclusions y;
  yy_Elements := yy_Elements y;
  yy_SubtypeConstraint := yy_SubtypeConstraint y;
  yy_RangeEndpoint := yy_RangeEndpoint y;
  yy_NamedType := yy_NamedType y;
  yy_ComponentType := yy_ComponentType y;
  yy_ComponentTypeLists := yy_ComponentTypeLists y;
  yy_ComponentTypeList := yy_ComponentTypeList y;
  yy_Tag := yy_Tag y;
  yy_Class := yy_Class y;
  yy_NamedBitList := yy_NamedBitList y;
  yy_NamedBit := yy_NamedBit y;
  yy_Imports := yy_Imports y;
  yy_SymbolsFromModule := yy_SymbolsFromModule y;
  yy_SymbolList := yy_SymbolList y;
  yy_Symbol := yy_Symbol y;
  yy_GlobalModuleReference := yy_GlobalModuleReference y;
  yy_AlternativeTypeList := yy_AlternativeTypeList y;
  yy_ChoiceType := yy_ChoiceType y;
  yy_ExtensionAdditionAlternative := yy_ExtensionAdditionAlternative y;
  yy_ExtensionAdditionAlternativesList := yy_ExtensionAdditionAlternativesList y;
  yy_ExtensionAdditions := yy_ExtensionAdditions y;
  yy_NamedNumberList := yy_NamedNumberList y;
  yy_NamedNumber := yy_NamedNumber y;
  yy_EnumeratedType := yy_EnumeratedType y;
  yy_Enumeration := yy_Enumeration y;
  yy_EnumerationItem := yy_EnumerationItem y
|}.

(** yyVAL.Real = x *)
Definition set_Real {P R : Type} (y : yySymType P R) (x : spec_float) : yySymType P R := {|
  yy_name := yy_name y;
  yy_numberRepr := yy_numberRepr y;
  yy_Number := yy_Number y;
  yy_Real := x;
  yy_TagDefault := yy_TagDefault y;
  yy_ExtensionDefault := yy_ExtensionDefault y;
  yy_ModuleIdentifier := yy_ModuleIdentifier y;
  yy_DefinitiveObjIdComponent := yy_DefinitiveObjIdComponent y;
  yy_DefinitiveObjIdComponentList := yy_DefinitiveObjIdComponentList y;
  yy_DefinitiveIdentifier := yy_DefinitiveIdentifier y;
  yy_Type := yy_Type y;
  yy_ObjectIdElement := yy_ObjectIdElement y;
  yy_DefinedValue := yy_DefinedValue y;
  yy_ObjectIdentifierValue := yy_ObjectIdentifierValue y;
  yy_Value := yy_Value y;
  yy_Assignment := yy_Assignment y;
  yy_AssignmentList := yy_AssignmentList y;
  yy_ModuleBody := yy_ModuleBody y;
  yy_ValueReference := yy_ValueReference y;
  yy_TypeReference := yy_TypeReference y;
  yy_Constraint := yy_Constraint y;
  yy_ConstraintSpec := yy_ConstraintSpec y;
  yy_ElementSetSpec := yy_ElementSetSpec y;
  yy_Unions := yy_Unions y;
  yy_Intersections := yy_Intersections y;
  yy_IntersectionElements := yy_IntersectionElements y;
  yy_Exclusions := yy_Exclusions y;
  yy_Elements := yy_Elements y;
  yy_SubtypeConstraint := yy_SubtypeConstraint y;
  yy_RangeEndpoint := yy_RangeEndpoint y;
  yy_NamedType := yy_NamedType y;
  yy_ComponentType := yy_ComponentType y;
  yy_ComponentTypeLists := yy_ComponentTypeLists y;
  yy_ComponentTypeList := yy_ComponentTypeList y;
  yy_Tag := yy_Tag y;
  yy_Class := yy_Class y;
  yy_NamedBitList := yy_NamedBitList y;
  yy_NamedBit := yy_NamedBit y;
  yy_Imports := yy_Imports y;
  yy_SymbolsFromModule := yy_SymbolsFromModule y;
  yy_SymbolList := yy_SymbolList y;
  yy_Symbol := yy_Symbol y;
  yy_GlobalModuleReference := yy_GlobalModuleReference y;
  yy_AlternativeTypeList := yy_AlternativeTypeList y;
  yy_ChoiceType := yy_ChoiceType y;
  yy_ExtensionAdditionAlternative := yy_ExtensionAdditionAlternative y;
  yy_ExtensionAdditionAlternativesList := yy_ExtensionAdditionAlternativesList y;
  yy_ExtensionAdditions := yy_ExtensionAdditions y;
  yy_NamedNumberList := yy_NamedNumberList y;
  yy_NamedNumber := yy_NamedNumber y;
  yy_EnumeratedType := yy_EnumeratedType y;
  yy_Enumeration := yy_Enumeration y;
  yy_EnumerationItem := yy_EnumerationItem y
|}.

(** yyVAL.TagDefault = x *)
Definition set_TagDefault {P R : Type} (y : yySymType P R) (x : Z) : yySymType P R := {|
  yy_name := yy_name y;
  yy_numberRepr := yy_numberRepr y;
  yy_Number := yy_Number y;
  yy_Real := yy_Real y;
  yy_TagDefault := x;
  yy_ExtensionDefault := yy_ExtensionDefault y;
  yy_ModuleIdentifier := yy_ModuleIdentifier y;
  yy_DefinitiveObjIdComponent := yy_DefinitiveObjIdComponent y;
  yy_DefinitiveObjIdComponentList := yy_DefinitiveObjIdComponentList y;
  yy_DefinitiveIdentifier := yy_DefinitiveIdentifier y;
  yy_Type := yy_Type y;
  yy_ObjectIdElement := yy_ObjectIdElement y;
  yy_DefinedValue := yy_DefinedValue y;
  yy_ObjectIdentifierValue := yy_ObjectIdentifierValue y;
  yy_Value := yy_Value y;
  yy_Assignment := yy_Assignment y;
  yy_AssignmentList := yy_AssignmentList y;
  yy_ModuleBody := yy_ModuleBody y;
  yy_ValueReference := yy_ValueReference y;
  yy_TypeReference := yy_TypeReference y;
  yy_Constraint := yy_Constraint y;
  yy_ConstraintSpec := yy_ConstraintSpec y;
  yy_ElementSetSpec := yy_ElementSetSpec y;
  yy_Unions := yy_Unions y;
  yy_Intersections := yy_Intersections y;
  yy_IntersectionElements := yy_IntersectionElements y;
  yy_Exclusions := yy_Exclusions y;
  yy_Elements := yy_Elements y;
  yy_SubtypeConstraint := yy_SubtypeConstraint y;
  yy_RangeEndpoint := yy_RangeEndpoint y;
  yy_NamedType := yy_NamedType y;
  yy_ComponentType := yy_ComponentType y;
  yy_ComponentTypeLists := yy_ComponentTypeLists y;
  yy_ComponentTypeList := yy_ComponentTypeList y;
  yy_Tag := yy_Tag y;
  yy_Class := yy_Class y;
  yy_NamedBitList := yy_NamedBitList y;
  yy_NamedBit := yy_NamedBit y;
  yy_Imports := yy_Imports y;
  yy_SymbolsFromModule := yy_SymbolsFromModule y;
  yy_SymbolList := yy_SymbolList y;
  yy_Symbol := yy_Symbol y;
  yy_GlobalModuleReference := yy_GlobalModuleReference y;
  yy_AlternativeTypeList := yy_AlternativeTypeList y;
  yy_ChoiceType := yy_ChoiceType y;
  yy_ExtensionAdditionAlternative := yy_ExtensionAdditionAlternative y;
  yy_ExtensionAdditionAlternativesList := yy_ExtensionAdditionAlternativesList y;
  yy_ExtensionAdditions := yy_ExtensionAdditions y;
  yy_NamedNumberList := yy_NamedNumberList y;
  yy_NamedNumber := yy_NamedNumber y;
  yy_EnumeratedType := yy_EnumeratedType y;
  yy_Enumeration := yy_Enumeration y;
  yy_EnumerationItem := yy_EnumerationItem y
|}.

(** yyVAL.ExtensionDefault = x *)
Definition set_ExtensionDefault {P R : Type} (y : yySymType P R) (x : bool) : yySymType P R := {|
  yy_name := yy_name y;
  yy_numberRepr := yy_numberRepr y;
  yy_Number := yy_Number y;
  yy_Real := yy_Real y;
  yy_TagDefault := yy_TagDefault y;
  yy_ExtensionDefault := x;
  yy_ModuleIdentifier := yy_ModuleIdentifier y;
  yy_DefinitiveObjIdComponent := yy_DefinitiveObjIdComponent y;
  yy_DefinitiveObjIdComponentList := yy_DefinitiveObjIdComponentList y;
  yy_DefinitiveIdentifier := yy_DefinitiveIdentifier y;
  yy_Type := yy_Type y;
  yy_ObjectIdElement := yy_ObjectIdElement y;
  yy_DefinedValue := yy_DefinedValue y;
  yy_ObjectIdentifierValue := yy_ObjectIdentifierValue y;
  yy_Value := yy_Value y;
  yy_Assignment := yy_Assignment y;
  yy_AssignmentList := yy_AssignmentList y;
  yy_ModuleBody := yy_ModuleBody y;
  yy_ValueReference := yy_ValueReference y;
  yy_TypeReference := yy_TypeReference y;
  yy_Constraint := yy_Constraint y;
  yy_ConstraintSpec := yy_ConstraintSpec y;
  yy_ElementSetSpec := yy_ElementSetSpec y;
  yy_Unions := yy_Unions y;
  yy_Intersections := yy_Intersections y;
  yy_IntersectionElements := yy_IntersectionElements y;
  yy_Exclusions := yy_Exclusions y;
  yy_Elements := yy_Elements y;
  yy_SubtypeConstraint := yy_SubtypeConstraint y;
  yy_RangeEndpoint := yy_RangeEndpoint y;
  yy_NamedType := yy_NamedType y;
  yy_ComponentType := yy_ComponentType y;
  yy_ComponentTypeLists := yy_ComponentTypeLists y;
  yy_ComponentTypeList := yy_ComponentTypeList y;
  yy_Tag := yy_Tag y;
  yy_Class := yy_Class y;
  yy_NamedBitList := yy_NamedBitList y;
  yy_NamedBit := yy_NamedBit y;
  yy_Imports := yy_Imports y;
  yy_SymbolsFromModule := yy_SymbolsFromModule y;
  yy_SymbolList := yy_SymbolList y;
  yy_Symbol := yy_Symbol y;
  yy_GlobalModuleReference := yy_GlobalModuleReference y;
  yy_AlternativeTypeList := yy_AlternativeTypeList y;
  yy_ChoiceType := yy_ChoiceType y;
  yy_ExtensionAdditionAlternative := yy_ExtensionAdditionAlternative y;
  yy_ExtensionAdditionAlternativesList := yy_ExtensionAdditionAlternativesList y;
  yy_ExtensionAdditions := yy_ExtensionAdditions y;
  yy_NamedNumberList := yy_NamedNumberList y;
  yy_NamedNumber := yy_NamedNumber y;
  yy_EnumeratedType := yy_EnumeratedType y;
  yy_Enumeration := yy_Enumeration y;
  yy_EnumerationItem := yy_EnumerationItem y
|}.

(** yyVAL.ModuleIdentifier = x *)
Definition set_ModuleIdentifier {P R : Type} (y : yySymType P R) (x : ModuleIdentifier) : yySymType P R := {|
  yy_name := yy_name y;
  yy_numberRepr := yy_numberRepr y;
  yy_Number := yy_Number y;
  yy_Real := yy_Real y;
  yy_TagDefault := yy_TagDefault y;
  yy_ExtensionDefault := yy_ExtensionDefault y;
  yy_ModuleIdentifier := x;
  yy_DefinitiveObjIdComponent := yy_DefinitiveObjIdComponent y;
  yy_DefinitiveObjIdComponentList := yy_DefinitiveObjIdComponentList y;
  yy_DefinitiveIdentifier := yy_DefinitiveIdentifier y;
  yy_Type := yy_Type y;
  yy_ObjectIdElement := yy_ObjectIdElement y;
  yy_DefinedValue := yy_DefinedValue y;
  yy_ObjectIdentifierValue := yy_ObjectIdentifierValue y;
  yy_Value := yy_Value y;
  yy_Assignment := yy_Assignment y;
  yy_AssignmentList := yy_AssignmentList y;
  yy_ModuleBody := yy_ModuleBody y;
  yy_ValueReference := yy_ValueReference y;
  yy_TypeReference := yy_TypeReference y;
  yy_Constraint := yy_Constraint y;
  yy_ConstraintSpec := yy_ConstraintSpec y;
  yy_ElementSetSpec := yy_ElementSetSpec y;
  yy_Unions := yy_Unions y;
  yy_Intersections := yy_Intersections y;
  yy_IntersectionElements := yy_IntersectionElements y;
  yy_Exclusions := yy_Exclusions y;
  yy_Elements := yy_Elements y;
  yy_SubtypeConstraint := yy_SubtypeConstraint y;
  yy_RangeEndpoint := yy_RangeEndpoint y;
  yy_NamedType := yy_NamedType y;
  yy_ComponentType := yy_ComponentType y;
  yy_ComponentTypeLists := yy_ComponentTypeLists y;
  yy_ComponentTypeList := yy_ComponentTypeList y;
  yy_Tag := yy_Tag y;
  yy_Class := yy_Class y;
  yy_NamedBitList := yy_NamedBitList y;
  yy_NamedBit := yy_NamedBit y;
  yy_Imports := yy_Imports y;
  yy_SymbolsFromModule := yy_SymbolsFromModule y;
  yy_SymbolList := yy_SymbolList y;
  yy_Symbol := yy_Symbol y;
  yy_GlobalModuleReference := yy_GlobalModuleReference y;
  yy_AlternativeTypeList := yy_AlternativeTypeList y;
  yy_ChoiceType := yy_ChoiceType y;
  yy_ExtensionAdditionAlternative := yy_ExtensionAdditionAlternative y;
  yy_ExtensionAdditionAlternativesList := yy_ExtensionAdditionAlternativesList y;
  yy_ExtensionAdditions := yy_ExtensionAdditions y;
  yy_NamedNumberList := yy_NamedNumberList y;
  yy_NamedNumber := yy_NamedNumber y;
  yy_EnumeratedType := yy_EnumeratedType y;
  yy_Enumeration := yy_Enumeration y;
  yy_EnumerationItem := yy_EnumerationItem y
|}.

(** yyVAL.DefinitiveObjIdComponent = x *)
Definition set_DefinitiveObjIdComponent {P R : Type} (y : yySymType P R) (x : DefinitiveObjIdComponent) : yySymType P R := {|
  yy_name := yy_name y;
  yy_numberRepr := yy_numberRepr y;
  yy_Number := yy_Number y;
  yy_Real := yy_Real y;
  yy_TagDefault := yy_TagDefault y;
  yy_ExtensionDefault := yy_ExtensionDefault y;
  yy_ModuleIdentifier := yy_ModuleIdentifier y;
  yy_DefinitiveObjIdComponent := x;
  yy_DefinitiveObjIdComponentList := yy_DefinitiveObjIdComponentList y;
  yy_DefinitiveIdentifier := yy_DefinitiveIdentifier y;
  yy_Type := yy_Type y;
  yy_ObjectIdElement := yy_ObjectIdElement y;
  yy_DefinedValue := yy_DefinedValue y;
  yy_ObjectIdentifierValue := yy_ObjectIdentifierValue y;
  yy_Value := yy_Value y;
  yy_Assignment := yy_Assignment y;
  yy_AssignmentList := yy_AssignmentList y;
  yy_ModuleBody := yy_ModuleBody y;
  yy_ValueReference := yy_ValueReference y;
  yy_TypeReference := yy_TypeReference y;
  yy_Constraint := yy_Constraint y;
  yy_ConstraintSpec := yy_ConstraintSpec y;
  yy_ElementSetSpec := yy_ElementSetSpec y;
  yy_Unions := yy_Unions y;
  yy_Intersections := yy_Intersections y;
  yy_IntersectionElements := yy_IntersectionElements y;
  yy_Exclusions := yy_Exclusions y;
  yy_Elements := yy_Elements y;
  yy_SubtypeConstraint := yy_SubtypeConstraint y;
  yy_RangeEndpoint := yy_RangeEndpoint y;
  yy_NamedType := yy_NamedType y;
  yy_ComponentType := yy_ComponentType y;
  yy_ComponentTypeLists := yy_ComponentTypeLists y;
  yy_ComponentTypeList := yy_ComponentTypeList y;
  yy_Tag := yy_Tag y;
  yy_Class := yy_Class y;
  yy_NamedBitList := yy_NamedBitList y;
  yy_NamedBit := yy_NamedBit y;
  yy_Imports := yy_Imports y;
  yy_SymbolsFromModule := yy_SymbolsFromModule y;
  yy_SymbolList := yy_SymbolList y;
  yy_Symbol := yy_Symbol y;
  yy_GlobalModuleReference := yy_GlobalModuleReference y;
  yy_AlternativeTypeList := yy_AlternativeTypeList y;
  yy_ChoiceType := yy_ChoiceType y;
  yy_ExtensionAdditionAlternative := yy_ExtensionAdditionAlternative y;
  yy_ExtensionAdditionAlternativesList := yy_ExtensionAdditionAlternativesList y;
  yy_ExtensionAdditions := yy_ExtensionAdditions y;
  yy_NamedNumberList := yy_NamedNumberList y;
  yy_NamedNumber := yy_NamedNumber y;
  yy_EnumeratedType := yy_EnumeratedType y;
  yy_Enumeration := yy_Enumeration y;
  yy_EnumerationItem := yy_EnumerationItem y
|}.

(** yyVAL.DefinitiveObjIdComponentList = x *)
Definition set_DefinitiveObjIdComponentList {P R : Type} (y : yySymType P R) (x : list (DefinitiveObjIdComponent)) : yySymType P R := {|
  yy_name := yy_name y;
  yy_numberRepr := yy_numberRepr y;
  yy_Number := yy_Number y;
  yy_Real := yy_Real y;
  yy_TagDefault := yy_TagDefault y;
  yy_ExtensionDefault := yy_ExtensionDefault y;
  yy_ModuleIdentifier := yy_ModuleIdentifier y;
  yy_DefinitiveObjIdComponent := yy_DefinitiveObjIdComponent y;
  yy_DefinitiveObjIdComponentList := x;
  yy_DefinitiveIdentifier := yy_DefinitiveIdentifier y;
  yy_Type := yy_Type y;
  yy_ObjectIdElement := yy_ObjectIdElement y;
  yy_DefinedValue := yy_DefinedValue y;
  yy_ObjectIdentifierValue := yy_ObjectIdentifierValue y;
  yy_Value := yy_Value y;
  yy_Assignment := yy_Assignment y;
  yy_AssignmentList := yy_AssignmentList y;
  yy_ModuleBody := yy_ModuleBody y;
  yy_ValueReference := yy_ValueReference y;
  yy_TypeReference := yy_TypeReference y;
  yy_Constraint := yy_Constraint y;
  yy_ConstraintSpec := yy_ConstraintSpec y;
  yy_ElementSetSpec := yy_ElementSetSpec y;
  yy_Unions := yy_Unions y;
  yy_Intersections := yy_Intersections y;
  yy_IntersectionElements := yy_IntersectionElements y;
  yy_Exclusions := yy_Exclusions y;
  yy_Elements := yy_Elements y;
  yy_SubtypeConstraint := yy_SubtypeConstraint y;
  yy_RangeEndpoint := yy_RangeEndpoint y;
  yy_NamedType := yy_NamedType y;
  yy_ComponentType := yy_ComponentType y;
  yy_ComponentTypeLists := yy_ComponentTypeLists y;
  yy_ComponentTypeList := yy_ComponentTypeList y;
  yy_Tag := yy_Tag y;
  yy_Class := yy_Class y;
  yy_NamedBitList := yy_NamedBitList y;
  yy_NamedBit := yy_NamedBit y;
  yy_Imports := yy_Imports y;
  yy_SymbolsFromModule := yy_SymbolsFromModule y;
  yy_SymbolList := yy_SymbolList y;
  yy_Symbol := yy_Symbol y;
  yy_GlobalModuleReference := yy_GlobalModuleReference y;
  yy_AlternativeTypeList := yy_AlternativeTypeList y;
  yy_ChoiceType := yy_ChoiceType y;
  yy_ExtensionAdditionAlternative := yy_ExtensionAdditionAlternative y;
  yy_ExtensionAdditionAlternativesList := yy_ExtensionAdditionAlternativesList y;
  yy_ExtensionAdditions := yy_ExtensionAdditions y;
  yy_NamedNumberList := yy_NamedNumberList y;
  yy_NamedNumber := yy_NamedNumber y;
  yy_EnumeratedType := yy_EnumeratedType y;
  yy_Enumeration := yy_Enumeration y;
  yy_EnumerationItem := yy_EnumerationItem y
|}.

(** yyVAL.DefinitiveIdentifier = x *)
Definition set_DefinitiveIdentifier {P R : Type} (y : yySymType P R) (x : list DefinitiveObjIdComponent) : yySymType P R := {|
  yy_name := yy_name y;
  yy_numberRepr := yy_numberRepr y;
  yy_Number := yy_Number y;
  yy_Real := yy_Real y;
  yy_TagDefault := yy_TagDefault y;
  yy_ExtensionDefault := yy_ExtensionDefault y;
  yy_ModuleIdentifier := yy_ModuleIdentifier y;
  yy_DefinitiveObjIdComponent := yy_DefinitiveObjIdComponent y;
  yy_DefinitiveObjIdComponentList := yy_DefinitiveObjIdComponentList y;
  yy_DefinitiveIdentifier := x;
  yy_Type := yy_Type y;
  yy_ObjectIdElement := yy_ObjectIdElement y;
  yy_DefinedValue := yy_DefinedValue y;
  yy_ObjectIdentifierValue := yy_ObjectIdentifierValue y;
  yy_Value := yy_Value y;
  yy_Assignment := yy_Assignment y;
  yy_AssignmentList := yy_AssignmentList y;
  yy_ModuleBody := yy_ModuleBody y;
  yy_ValueReference := yy_ValueReference y;
  yy_TypeReference := yy_TypeReference y;
  yy_Constraint := yy_Constraint y;
  yy_ConstraintSpec := yy_ConstraintSpec y;
  yy_ElementSetSpec := yy_ElementSetSpec y;
  yy_Unions := yy_Unions y;
  yy_Intersections := yy_Intersections y;
  yy_IntersectionElements := yy_IntersectionElements y;
  yy_Exclusions := yy_Exclusions y;
  yy_Elements := yy_Elements y;
  yy_SubtypeConstraint := yy_SubtypeConstraint y;
  yy_RangeEndpoint := yy_RangeEndpoint y;
  yy_NamedType := yy_NamedType y;
  yy_ComponentType := yy_ComponentType y;
  yy_ComponentTypeLists := yy_ComponentTypeLists y;
  yy_ComponentTypeList := yy_ComponentTypeList y;
  yy_Tag := yy_Tag y;
  yy_Class := yy_Class y;
  yy_NamedBitList := yy_NamedBitList y;
  yy_NamedBit := yy_NamedBit y;
  yy_Imports := yy_Imports y;
  yy_SymbolsFromModule := yy_SymbolsFromModule y;
  yy_SymbolList := yy_SymbolList y;
  yy_Symbol := yy_Symbol y;
  yy_GlobalModuleReference := yy_GlobalModuleReference y;
  yy_AlternativeTypeList := yy_AlternativeTypeList y;
  yy_ChoiceType := yy_ChoiceType y;
  yy_ExtensionAdditionAlternative := yy_ExtensionAdditionAlternative y;
  yy_ExtensionAdditionAlternativesList := yy_ExtensionAdditionAlternativesList y;
  yy_ExtensionAdditions := yy_ExtensionAdditions y;
  yy_NamedNumberList := yy_NamedNumberList y;
  yy_NamedNumber := yy_NamedNumber y;
  yy_EnumeratedType := yy_EnumeratedType y;
  yy_Enumeration := yy_Enumeration y;
  yy_EnumerationItem := yy_EnumerationItem y
|}.

(** yyVAL.Type = x *)
Definition set_Type {P R : Type} (y : yySymType P R) (x : atype P R) : yySymType P R := {|
  yy_name := yy_name y;
  yy_numberRepr := yy_numberRepr y;
  yy_Number := yy_Number y;
  yy_Real := yy_Real y;
  yy_TagDefault := yy_TagDefault y;
  yy_ExtensionDefault := yy_ExtensionDefault y;
  yy_ModuleIdentifier := yy_ModuleIdentifier y;
  yy_DefinitiveObjIdComponent := yy_DefinitiveObjIdComponent y;
  yy_DefinitiveObjIdComponentList := yy_DefinitiveObjIdComponentList y;
  yy_DefinitiveIdentifier := yy_DefinitiveIdentifier y;
  yy_Type := x;
  yy_ObjectIdElement := yy_ObjectIdElement y;
  yy_DefinedValue := yy_DefinedValue y;
  yy_ObjectIdentifierValue := yy_ObjectIdentifierValue y;
  yy_Value := yy_Value y;
  yy_Assignment := yy_Assignment y;
  yy_AssignmentList := yy_AssignmentList y;
  yy_ModuleBody := yy_ModuleBody y;
  yy_ValueReference := yy_ValueReference y;
  yy_TypeReference := yy_TypeReference y;
  yy_Constraint := yy_Constraint y;
  yy_ConstraintSpec := yy_ConstraintSpec y;
  yy_ElementSetSpec := yy_ElementSetSpec y;
  yy_Unions := yy_Unions y;
  yy_Intersections := yy_Intersections y;
  yy_IntersectionElements := yy_IntersectionElements y;
  yy_Exclusions := yy_Exclusions y;
  yy_Elements := yy_Elements y;
  yy_SubtypeConstraint := yy_SubtypeConstraint y;
  yy_RangeEndpoint := yy_RangeEndpoint y;
  yy_NamedType := yy_NamedType y;
  yy_ComponentType := yy_ComponentType y;
  yy_ComponentTypeLists := yy_ComponentTypeLists y;
  yy_ComponentTypeList := yy_ComponentTypeList y;
  yy_Tag := yy_Tag y;
  yy_Class := yy_Class y;
  yy_NamedBitList := yy_NamedBitList y;
  yy_NamedBit := yy_NamedBit y;
  yy_Imports := yy_Imports y;
  yy_SymbolsFromModule := yy_SymbolsFromModule y;
  yy_SymbolList := yy_SymbolList y;
  yy_Symbol := yy_Symbol y;
  yy_GlobalModuleReference := yy_GlobalModuleReference y;
  yy_AlternativeTypeList := yy_AlternativeTypeList y;
  yy_ChoiceType := yy_ChoiceType y;
  yy_ExtensionAdditionAlternative := yy_ExtensionAdditionAlternative y;
  yy_ExtensionAdditionAlternativesList := yy_ExtensionAdditionAlternativesList y;
  yy_ExtensionAdditions := yy_ExtensionAdditions y;
  yy_NamedNumberList := yy_NamedNumberList y;
  yy_NamedNumber := yy_NamedNumber y;
  yy_EnumeratedType := yy_EnumeratedType y;
  yy_Enumeration := yy_Enumeration y;
  yy_EnumerationItem := yy_EnumerationItem y
|}.

(** yyVAL.ObjectIdElement = x *)
Definition set_ObjectIdElement {P R : Type} (y : yySymType P R) (x : ObjectIdElement R) : yySymType P R := {|
  yy_name := yy_name y;
  yy_numberRepr := yy_numberRepr y;
  yy_Number := yy_Number y;
  yy_Real := yy_Real y;
  yy_TagDefault := yy_TagDefault y;
  yy_ExtensionDefault := yy_ExtensionDefault y;
  yy_ModuleIdentifier := yy_ModuleIdentifier y;
  yy_DefinitiveObjIdComponent := yy_DefinitiveObjIdComponent y;
  yy_DefinitiveObjIdComponentList := yy_DefinitiveObjIdComponentList y;
  yy_DefinitiveIdentifier := yy_DefinitiveIdentifier y;
  yy_Type := yy_Type y;
  yy_ObjectIdElement := x;
  yy_DefinedValue := yy_DefinedValue y;
  yy_ObjectIdentifierValue := yy_ObjectIdentifierValue y;
  yy_Value := yy_Value y;
  yy_Assignment := yy_Assignment y;
  yy_AssignmentList := yy_AssignmentList y;
  yy_ModuleBody := yy_ModuleBody y;
  yy_ValueReference := yy_ValueReference y;
  yy_TypeReference := yy_TypeReference y;
  yy_Constraint := yy_Constraint y;
  yy_ConstraintSpec := yy_ConstraintSpec y;
  yy_ElementSetSpec := yy_ElementSetSpec y;
  yy_Unions := yy_Unions y;
  yy_Intersections := yy_Intersections y;
  yy_IntersectionElements := yy_IntersectionElements y;
  yy_Exclusions := yy_Exclusions y;
  yy_Elements := yy_Elements y;
  yy_SubtypeConstraint := yy_SubtypeConstraint y;
  yy_RangeEndpoint := yy_RangeEndpoint y;
  yy_NamedType := yy_NamedType y;
  yy_ComponentType := yy_ComponentType y;
  yy_ComponentTypeLists := yy_ComponentTypeLists y;
  yy_ComponentTypeList := yy_ComponentTypeList y;
  yy_Tag := yy_Tag y;
  yy_Class := yy_Class y;
  yy_NamedBitList := yy_NamedBitList y;
  yy_NamedBit := yy_NamedBit y;
  yy_Imports := yy_Imports y;
  yy_SymbolsFromModule := yy_SymbolsFromModule y;
  yy_SymbolList := yy_SymbolList y;
  yy_Symbol := yy_Symbol y;
  yy_GlobalModuleReference := yy_GlobalModuleReference y;
  yy_AlternativeTypeList := yy_AlternativeTypeList y;
  yy_ChoiceType := yy_ChoiceType y;
  yy_ExtensionAdditionAlternative := yy_ExtensionAdditionAlternative y;
  yy_ExtensionAdditionAlternativesList := yy_ExtensionAdditionAlternativesList y;
  yy_ExtensionAdditions := yy_ExtensionAdditions y;
  yy_NamedNumberList := yy_NamedNumberList y;
  yy_NamedNumber := yy_NamedNumber y;
  yy_EnumeratedType := yy_EnumeratedType y;
  yy_Enumeration := yy_Enumeration y;
  yy_EnumerationItem := yy_EnumerationItem y
|}.

(** yyVAL.DefinedValue = x *)
Definition set_DefinedValue {P R : Type} (y : yySymType P R) (x : DefinedValue) : yySymType P R := {|
  yy_name := yy_name y;
  yy_numberRepr := yy_numberRepr y;
  yy_Number := yy_Number y;
  yy_Real := yy_Real y;
  yy_TagDefault := yy_TagDefault y;
  yy_ExtensionDefault := yy_ExtensionDefault y;
  yy_ModuleIdentifier := yy_ModuleIdentifier y;
  yy_DefinitiveObjIdComponent := yy_DefinitiveObjIdComponent y;
  yy_DefinitiveObjIdComponentList := yy_DefinitiveObjIdComponentList y;
  yy_DefinitiveIdentifier := yy_DefinitiveIdentifier y;
  yy_Type := yy_Type y;
  yy_ObjectIdElement := yy_ObjectIdElement y;
  yy_DefinedValue := x;
  yy_ObjectIdentifierValue := yy_ObjectIdentifierValue y;
  yy_Value := yy_Value y;
  yy_Assignment := yy_Assignment y;
  yy_AssignmentList := yy_AssignmentList y;
  yy_ModuleBody := yy_ModuleBody y;
  yy_ValueReference := yy_ValueReference y;
  yy_TypeReference := yy_TypeReference y;
  yy_Constraint := yy_Constraint y;
  yy_ConstraintSpec := yy_ConstraintSpec y;
  yy_ElementSetSpec := yy_ElementSetSpec y;
  yy_Unions := yy_Unions y;
  yy_Intersections := yy_Intersections y;
  yy_IntersectionElements := yy_IntersectionElements y;
  yy_Exclusions := yy_Exclusions y;
  yy_Elements := yy_Elements y;
  yy_SubtypeConstraint := yy_SubtypeConstraint y;
  yy_RangeEndpoint := yy_RangeEndpoint y;
  yy_NamedType := yy_NamedType y;
  yy_ComponentType := yy_ComponentType y;
  yy_ComponentTypeLists := yy_ComponentTypeLists y;
  yy_ComponentTypeList := yy_ComponentTypeList y;
  yy_Tag := yy_Tag y;
  yy_Class := yy_Class y;
  yy_NamedBitList := yy_NamedBitList y;
  yy_NamedBit := yy_NamedBit y;
  yy_Imports := yy_Imports y;
  yy_SymbolsFromModule := yy_SymbolsFromModule y;
  yy_SymbolList := yy_SymbolList y;
  yy_Symbol := yy_Symbol y;
  yy_GlobalModuleReference := yy_GlobalModuleReference y;
  yy_AlternativeTypeList := yy_AlternativeTypeList y;
  yy_ChoiceType := yy_ChoiceType y;
  yy_ExtensionAdditionAlternative := yy_ExtensionAdditionAlternative y;
  yy_ExtensionAdditionAlternativesList := yy_ExtensionAdditionAlternativesList y;
  yy_ExtensionAdditions := yy_ExtensionAdditions y;
  yy_NamedNumberList := yy_NamedNumberList y;
  yy_NamedNumber := yy_NamedNumber y;
  yy_EnumeratedType := yy_EnumeratedType y;
  yy_Enumeration := yy_Enumeration y;
  yy_EnumerationItem := yy_EnumerationItem y
|}.

(** yyVAL.ObjectIdentifierValue = x *)
Definition set_ObjectIdentifierValue {P R : Type} (y : yySymType P R) (x : list (ObjectIdElement R)) : yySymType P R := {|
  yy_name := yy_name y;
  yy_numberRepr := yy_numberRepr y;
  yy_Number := yy_Number y;
  yy_Real := yy_Real y;
  yy_TagDefault := yy_TagDefault y;
  yy_ExtensionDefault := yy_ExtensionDefault y;
  yy_ModuleIdentifier := yy_ModuleIdentifier y;
  yy_DefinitiveObjIdComponent := yy_DefinitiveObjIdComponent y;
  yy_DefinitiveObjIdComponentList := yy_DefinitiveObjIdComponentList y;
  yy_DefinitiveIdentifier := yy_DefinitiveIdentifier y;
  yy_Type := yy_Type y;
  yy_ObjectIdElement := yy_ObjectIdElement y;
  yy_DefinedValue := yy_DefinedValue y;
  yy_ObjectIdentifierValue := x;
  yy_Value := yy_Value y;
  yy_Assignment := yy_Assignment y;
  yy_AssignmentList := yy_AssignmentList y;
  yy_ModuleBody := yy_ModuleBody y;
  yy_ValueReference := yy_ValueReference y;
  yy_TypeReference := yy_TypeReference y;
  yy_Constraint := yy_Constraint y;
  yy_ConstraintSpec := yy_ConstraintSpec y;
  yy_ElementSetSpec := yy_ElementSetSpec y;
  yy_Unions := yy_Unions y;
  yy_Intersections := yy_Intersections y;
  yy_IntersectionElements := yy_IntersectionElements y;
  yy_Exclusions := yy_Exclusions y;
  yy_Elements := yy_Elements y;
  yy_SubtypeConstraint := yy_SubtypeConstraint y;
  yy_RangeEndpoint := yy_RangeEndpoint y;
  yy_NamedType := yy_NamedType y;
  yy_ComponentType := yy_ComponentType y;
  yy_ComponentTypeLists := yy_ComponentTypeLists y;
  yy_ComponentTypeList := yy_ComponentTypeList y;
  yy_Tag := yy_Tag y;
  yy_Class := yy_Class y;
  yy_NamedBitList := yy_NamedBitList y;
  yy_NamedBit := yy_NamedBit y;
  yy_Imports := yy_Imports y;
  yy_SymbolsFromModule := yy_SymbolsFromModule y;
  yy_SymbolList := yy_SymbolList y;
  yy_Symbol := yy_Symbol y;
  yy_GlobalModuleReference := yy_GlobalModuleReference y;
  yy_AlternativeTypeList := yy_AlternativeTypeList y;
  yy_ChoiceType := yy_ChoiceType y;
  yy_ExtensionAdditionAlternative := yy_ExtensionAdditionAlternative y;
  yy_ExtensionAdditionAlternativesList := yy_ExtensionAdditionAlternativesList y;
  yy_ExtensionAdditions := yy_ExtensionAdditions y;
  yy_NamedNumberList := yy_NamedNumberList y;
  yy_NamedNumber := yy_NamedNumber y;
  yy_EnumeratedType := yy_EnumeratedType y;
  yy_Enumeration := yy_Enumeration y;
  yy_EnumerationItem := yy_EnumerationItem y
|}.

(** yyVAL.Value = x *)
Definition set_Value {P R : Type} (y : yySymType P R) (x : value R) : yySymType P R := {|
  yy_name := yy_name y;
  yy_numberRepr := yy_numberRepr y;
  yy_Number := yy_Number y;
  yy_Real := yy_Real y;
  yy_TagDefault := yy_TagDefault y;
  yy_ExtensionDefault := yy_ExtensionDefault y;
  yy_ModuleIdentifier := yy_ModuleIdentifier y;
  yy_DefinitiveObjIdComponent := yy_DefinitiveObjIdComponent y;
  yy_DefinitiveObjIdComponentList := yy_DefinitiveObjIdComponentList y;
  yy_DefinitiveIdentifier := yy_DefinitiveIdentifier y;
  yy_Type := yy_Type y;
  yy_ObjectIdElement := yy_ObjectIdElement y;
  yy_DefinedValue := yy_DefinedValue y;
  yy_ObjectIdentifierValue := yy_ObjectIdentifierValue y;
  yy_Value := x;
  yy_Assignment := yy_Assignment y;
  yy_AssignmentList := yy_AssignmentList y;
  yy_ModuleBody := yy_ModuleBody y;
  yy_ValueReference := yy_ValueReference y;
  yy_TypeReference := yy_TypeReference y;
  yy_Constraint := yy_Constraint y;
  yy_ConstraintSpec := yy_ConstraintSpec y;
  yy_ElementSetSpec := yy_ElementSetSpec y;
  yy_Unions := yy_Unions y;
  yy_Intersections := yy_Intersections y;
  yy_IntersectionElements := yy_IntersectionElements y;
  yy_Exclusions := yy_Exclusions y;
  yy_Elements := yy_Elements y;
  yy_SubtypeConstraint := yy_SubtypeConstraint y;
  yy_RangeEndpoint := yy_RangeEndpoint y;
  yy_NamedType := yy_NamedType y;
  yy_ComponentType := yy_ComponentType y;
  yy_ComponentTypeLists := yy_ComponentTypeLists y;
  yy_ComponentTypeList := yy_ComponentTypeList y;
  yy_Tag := yy_Tag y;
  yy_Class := yy_Class y;
  yy_NamedBitList := yy_NamedBitList y;
  yy_NamedBit := yy_NamedBit y;
  yy_Imports := yy_Imports y;
  yy_SymbolsFromModule := yy_SymbolsFromModule y;
  yy_SymbolList := yy_SymbolList y;
  yy_Symbol := yy_Symbol y;
  yy_GlobalModuleReference := yy_GlobalModuleReference y;
  yy_AlternativeTypeList := yy_AlternativeTypeList y;
  yy_ChoiceType := yy_ChoiceType y;
  yy_ExtensionAdditionAlternative := yy_ExtensionAdditionAlternative y;
  yy_ExtensionAdditionAlternativesList := yy_ExtensionAdditionAlternativesList y;
  yy_ExtensionAdditions := yy_ExtensionAdditions y;
  yy_NamedNumberList := yy_NamedNumberList y;
  yy_NamedNumber := yy_NamedNumber y;
  yy_EnumeratedType := yy_EnumeratedType y;
  yy_Enumeration := yy_Enumeration y;
  yy_EnumerationItem := yy_EnumerationItem y
|}.

(** yyVAL.Assignment = x *)
Definition set_Assignment {P R : Type} (y : yySymType P R) (x : assignment P R) : yySymType P R := {|
  yy_name := yy_name y;
  yy_numberRepr := yy_numberRepr y;
  yy_Number := yy_Number y;
  yy_Real := yy_Real y;
  yy_TagDefault := yy_TagDefault y;
  yy_ExtensionDefault := yy_ExtensionDefault y;
  yy_ModuleIdentifier := yy_ModuleIdentifier y;
  yy_DefinitiveObjIdComponent := yy_DefinitiveObjIdComponent y;
  yy_DefinitiveObjIdComponentList := yy_DefinitiveObjIdComponentList y;
  yy_DefinitiveIdentifier := yy_DefinitiveIdentifier y;
  yy_Type := yy_Type y;
  yy_ObjectIdElement := yy_ObjectIdElement y;
  yy_DefinedValue := yy_DefinedValue y;
  yy_ObjectIdentifierValue := yy_ObjectIdentifierValue y;
  yy_Value := yy_Value y;
  yy_Assignment := x;
  yy_AssignmentList := yy_AssignmentList y;
  yy_ModuleBody := yy_ModuleBody y;
  yy_ValueReference := yy_ValueReference y;
  yy_TypeReference := yy_TypeReference y;
  yy_Constraint := yy_Constraint y;
  yy_ConstraintSpec := yy_ConstraintSpec y;
  yy_ElementSetSpec := yy_ElementSetSpec y;
  yy_Unions := yy_Unions y;
  yy_Intersections := yy_Intersections y;
  yy_IntersectionElements := yy_IntersectionElements y;
  yy_Exclusions := yy_Exclusions y;
  yy_Elements := yy_Elements y;
  yy_SubtypeConstraint := yy_SubtypeConstraint y;
  yy_RangeEndpoint := yy_RangeEndpoint y;
  yy_NamedType := yy_NamedType y;
  yy_ComponentType := yy_ComponentType y;
  yy_ComponentTypeLists := yy_ComponentTypeLists y;
  yy_ComponentTypeList := yy_ComponentTypeList y;
  yy_Tag := yy_Tag y;
  yy_Class := yy_Class y;
  yy_NamedBitList := yy_NamedBitList y;
  yy_NamedBit := yy_NamedBit y;
  yy_Imports := yy_Imports y;
  yy_SymbolsFromModule := yy_SymbolsFromModule y;
  yy_SymbolList := yy_SymbolList y;
  yy_Symbol := yy_Symbol y;
  yy_GlobalModuleReference := yy_GlobalModuleReference y;
  yy_AlternativeTypeList := yy_AlternativeTypeList y;
  yy_ChoiceType := yy_ChoiceType y;
  yy_ExtensionAdditionAlternative := yy_ExtensionAdditionAlternative y;
  yy_ExtensionAdditionAlternativesList := yy_ExtensionAdditionAlternativesList y;
  yy_ExtensionAdditions := yy_ExtensionAdditions y;
  yy_NamedNumberList := yy_NamedNumberList y;
  yy_NamedNumber := yy_NamedNumber y;
  yy_EnumeratedType := yy_EnumeratedType y;
  yy_Enumeration := yy_Enumeration y;
  yy_EnumerationItem := yy_EnumerationItem y
|}.

(** yyVAL.AssignmentList = x *)
Definition set_AssignmentList {P R : Type} (y : yySymType P R) (x : list (assignment P R)) : yySymType P R := {|
  yy_name := yy_name y;
  yy_numberRepr := yy_numberRepr y;
  yy_Number := yy_Number y;
  yy_Real := yy_Real y;
  yy_TagDefault := yy_TagDefault y;
  yy_ExtensionDefault := yy_ExtensionDefault y;
  yy_ModuleIdentifier := yy_ModuleIdentifier y;
  yy_DefinitiveObjIdComponent := yy_DefinitiveObjIdComponent y;
  yy_DefinitiveObjIdComponentList := yy_DefinitiveObjIdComponentList y;
  yy_DefinitiveIdentifier := yy_DefinitiveIdentifier y;
  yy_Type := yy_Type y;
  yy_ObjectIdElement := yy_ObjectIdElement y;
  yy_DefinedValue := yy_DefinedValue y;
  yy_ObjectIdentifierValue := yy_ObjectIdentifierValue y;
  yy_Value := yy_Value y;
  yy_Assignment := yy_Assignment y;
  yy_AssignmentList := x;
  yy_ModuleBody := yy_ModuleBody y;
  yy_ValueReference := yy_ValueReference y;
  yy_TypeReference := yy_TypeReference y;
  yy_Constraint := yy_Constraint y;
  yy_ConstraintSpec := yy_ConstraintSpec y;
  yy_ElementSetSpec := yy_ElementSetSpec y;
  yy_Unions := yy_Unions y;
  yy_Intersections := yy_Intersections y;
  yy_IntersectionElements := yy_IntersectionElements y;
  yy_Exclusions := yy_Exclusions y;
  yy_Elements := yy_Elements y;
  yy_SubtypeConstraint := yy_SubtypeConstraint y;
  yy_RangeEndpoint := yy_RangeEndpoint y;
  yy_NamedType := yy_NamedType y;
  yy_ComponentType := yy_ComponentType y;
  yy_ComponentTypeLists := yy_ComponentTypeLists y;
  yy_ComponentTypeList := yy_ComponentTypeList y;
  yy_Tag := yy_Tag y;
  yy_Class := yy_Class y;
  yy_NamedBitList := yy_NamedBitList y;
  yy_NamedBit := yy_NamedBit y;
  yy_Imports := yy_Imports y;
  yy_SymbolsFromModule := yy_SymbolsFromModule y;
  yy_SymbolList := yy_SymbolList y;
  yy_Symbol := yy_Symbol y;
  yy_GlobalModuleReference := yy_GlobalModuleReference y;
  yy_AlternativeTypeList := yy_AlternativeTypeList y;
  yy_ChoiceType := yy_ChoiceType y;
  yy_ExtensionAdditionAlternative := yy_ExtensionAdditionAlternative y;
  yy_ExtensionAdditionAlternativesList := yy_ExtensionAdditionAlternativesList y;
  yy_ExtensionAdditions := yy_ExtensionAdditions y;
  yy_NamedNumberList := yy_NamedNumberList y;
  yy_NamedNumber := yy_NamedNumber y;
  yy_EnumeratedType := yy_EnumeratedType y;
  yy_Enumeration := yy_Enumeration y;
  yy_EnumerationItem := yy_EnumerationItem y
|}.

(** yyVAL.ModuleBody = x *)
Definition set_ModuleBody {P R : Type} (y : yySymType P R) (x : ModuleBody P R) : yySymType P R := {|
  yy_name := yy_name y;
  yy_numberRepr := yy_numberRepr y;
  yy_Number := yy_Number y;
  yy_Real := yy_Real y;
  yy_TagDefault := yy_TagDefault y;
  yy_ExtensionDefault := yy_ExtensionDefault y;
  yy_ModuleIdentifier := yy_ModuleIdentifier y;
  yy_DefinitiveObjIdComponent := yy_DefinitiveObjIdComponent y;
  yy_DefinitiveObjIdComponentList := yy_DefinitiveObjIdComponentList y;
  yy_DefinitiveIdentifier := yy_DefinitiveIdentifier y;
  yy_Type := yy_Type y;
  yy_ObjectIdElement := yy_ObjectIdElement y;
  yy_DefinedValue := yy_DefinedValue y;
  yy_ObjectIdentifierValue := yy_ObjectIdentifierValue y;
  yy_Value := yy_Value y;
  yy_Assignment := yy_Assignment y;
  yy_AssignmentList := yy_AssignmentList y;
  yy_ModuleBody := x;
  yy_ValueReference := yy_ValueReference y;
  yy_TypeReference := yy_TypeReference y;
  yy_Constraint := yy_Constraint y;
  yy_ConstraintSpec := yy_ConstraintSpec y;
  yy_ElementSetSpec := yy_ElementSetSpec y;
  yy_Unions := yy_Unions y;
  yy_Intersections := yy_Intersections y;
  yy_IntersectionElements := yy_IntersectionElements y;
  yy_Exclusions := yy_Exclusions y;
  yy_Elements := yy_Elements y;
  yy_SubtypeConstraint := yy_SubtypeConstraint y;
  yy_RangeEndpoint := yy_RangeEndpoint y;
  yy_NamedType := yy_NamedType y;
  yy_ComponentType := yy_ComponentType y;
  yy_ComponentTypeLists := yy_ComponentTypeLists y;
  yy_ComponentTypeList := yy_ComponentTypeList y;
  yy_Tag := yy_Tag y;
  yy_Class := yy_Class y;
  yy_NamedBitList := yy_NamedBitList y;
  yy_NamedBit := yy_NamedBit y;
  yy_Imports := yy_Imports y;
  yy_SymbolsFromModule := yy_SymbolsFromModule y;
  yy_SymbolList := yy_SymbolList y;
  yy_Symbol := yy_Symbol y;
  yy_GlobalModuleReference := yy_GlobalModuleReference y;
  yy_AlternativeTypeList := yy_AlternativeTypeList y;
  yy_ChoiceType := yy_ChoiceType y;
  yy_ExtensionAdditionAlternative := yy_ExtensionAdditionAlternative y;
  yy_ExtensionAdditionAlternativesList := yy_ExtensionAdditionAlternativesList y;
  yy_ExtensionAdditions := yy_ExtensionAdditions y;
  yy_NamedNumberList := yy_NamedNumberList y;
  yy_NamedNumber := yy_NamedNumber y;
  yy_EnumeratedType := yy_EnumeratedType y;
  yy_Enumeration := yy_Enumeration y;
  yy_EnumerationItem := yy_EnumerationItem y
|}.

(** yyVAL.ValueReference = x *)
Definition set_ValueReference {P R : Type} (y : yySymType P R) (x : string) : yySymType P R := {|
  yy_name := yy_name y;
  yy_numberRepr := yy_numberRepr y;
  yy_Number := yy_Number y;
  yy_Real := yy_Real y;
  yy_TagDefault := yy_TagDefault y;
  yy_ExtensionDefault := yy_ExtensionDefault y;
  yy_ModuleIdentifier := yy_ModuleIdentifier y;
  yy_DefinitiveObjIdComponent := yy_DefinitiveObjIdComponent y;
  yy_DefinitiveObjIdComponentList := yy_DefinitiveObjIdComponentList y;
  yy_DefinitiveIdentifier := yy_DefinitiveIdentifier y;
  yy_Type := yy_Type y;
  yy_ObjectIdElement := yy_ObjectIdElement y;
  yy_DefinedValue := yy_DefinedValue y;
  yy_ObjectIdentifierValue := yy_ObjectIdentifierValue y;
  yy_Value := yy_Value y;
  yy_Assignment := yy_Assignment y;
  yy_AssignmentList := yy_AssignmentList y;
  yy_ModuleBody := yy_ModuleBody y;
  yy_ValueReference := x;
  yy_TypeReference := yy_TypeReference y;
  yy_Constraint := yy_Constraint y;
  yy_ConstraintSpec := yy_ConstraintSpec y;
  yy_ElementSetSpec := yy_ElementSetSpec y;
  yy_Unions := yy_Unions y;
  yy_Intersections := yy_Intersections y;
  yy_IntersectionElements := yy_IntersectionElements y;
  yy_Exclusions := yy_Exclusions y;
  yy_Elements := yy_Elements y;
  yy_SubtypeConstraint := yy_SubtypeConstraint y;
  yy_RangeEndpoint := yy_RangeEndpoint y;
  yy_NamedType := yy_NamedType y;
  yy_ComponentType := yy_ComponentType y;
  yy_ComponentTypeLists := yy_ComponentTypeLists y;
  yy_ComponentTypeList := yy_ComponentTypeList y;
  yy_Tag := yy_Tag y;
  yy_Class := yy_Class y;
  yy_NamedBitList := yy_NamedBitList y;
  yy_NamedBit := yy_NamedBit y;
  yy_Imports := yy_Imports y;
  yy_SymbolsFromModule := yy_SymbolsFromModule y;
  yy_SymbolList := yy_SymbolList y;
  yy_Symbol := yy_Symbol y;
  yy_GlobalModuleReference := yy_GlobalModuleReference y;
  yy_AlternativeTypeList := yy_AlternativeTypeList y;
  yy_ChoiceType := yy_ChoiceType y;
  yy_ExtensionAdditionAlternative := yy_ExtensionAdditionAlternative y;
  yy_ExtensionAdditionAlternativesList := yy_ExtensionAdditionAlternativesList y;
  yy_ExtensionAdditions := yy_ExtensionAdditions y;
  yy_NamedNumberList := yy_NamedNumberList y;
  yy_NamedNumber := yy_NamedNumber y;
  yy_EnumeratedType := yy_EnumeratedType y;
  yy_Enumeration := yy_Enumeration y;
  yy_EnumerationItem := yy_EnumerationItem y
|}.

(** yyVAL.TypeReference = x *)
Definition set_TypeReference {P R : Type} (y : yySymType P R) (x : string) : yySymType P R := {|
  yy_name := yy_name y;
  yy_numberRepr := yy_numberRepr y;
  yy_Number := yy_Number y;
  yy_Real := yy_Real y;
  yy_TagDefault := yy_TagDefault y;
  yy_ExtensionDefault := yy_ExtensionDefault y;
  yy_ModuleIdentifier := yy_ModuleIdentifier y;
  yy_DefinitiveObjIdComponent := yy_DefinitiveObjIdComponent y;
  yy_DefinitiveObjIdComponentList := yy_DefinitiveObjIdComponentList y;
  yy_DefinitiveIdentifier := yy_DefinitiveIdentifier y;
  yy_Type := yy_Type y;
  yy_ObjectIdElement := yy_ObjectIdElement y;
  yy_DefinedValue := yy_DefinedValue y;
  yy_ObjectIdentifierValue := yy_ObjectIdentifierValue y;
  yy_Value := yy_Value y;
  yy_Assignment := yy_Assignment y;
  yy_AssignmentList := yy_AssignmentList y;
  yy_ModuleBody := yy_ModuleBody y;
  yy_ValueReference := yy_ValueReference y;
  yy_TypeReference := x;
  yy_Constraint := yy_Constraint y;
  yy_ConstraintSpec := yy_ConstraintSpec y;
  yy_ElementSetSpec := yy_ElementSetSpec y;
  yy_Unions := yy_Unions y;
  yy_Intersections := yy_Intersections y;
  yy_IntersectionElements := yy_IntersectionElements y;
  yy_Exclusions := yy_Exclusions y;
  yy_Elements := yy_Elements y;
  yy_SubtypeConstraint := yy_SubtypeConstraint y;
  yy_RangeEndpoint := yy_RangeEndpoint y;
  yy_NamedType := yy_NamedType y;
  yy_ComponentType := yy_ComponentType y;
  yy_ComponentTypeLists := yy_ComponentTypeLists y;
  yy_ComponentTypeList := yy_ComponentTypeList y;
  yy_Tag := yy_Tag y;
  yy_Class := yy_Class y;
  yy_NamedBitList := yy_NamedBitList y;
  yy_NamedBit := yy_NamedBit y;
  yy_Imports := yy_Imports y;
  yy_SymbolsFromModule := yy_SymbolsFromModule y;
  yy_SymbolList := yy_SymbolList y;
  yy_Symbol := yy_Symbol y;
  yy_GlobalModuleReference := yy_GlobalModuleReference y;
  yy_AlternativeTypeList := yy_AlternativeTypeList y;
  yy_ChoiceType := yy_ChoiceType y;
  yy_ExtensionAdditionAlternative := yy_ExtensionAdditionAlternative y;
  yy_ExtensionAdditionAlternativesList := yy_ExtensionAdditionAlternativesList y;
  yy_ExtensionAdditions := yy_ExtensionAdditions y;
  yy_NamedNumberList := yy_NamedNumberList y;
  yy_NamedNumber := yy_NamedNumber y;
  yy_EnumeratedType := yy_EnumeratedType y;
  yy_Enumeration := yy_Enumeration y;
  yy_EnumerationItem := yy_EnumerationItem y
|}.

(** yyVAL.Constraint = x *)
Definition set_Constraint {P R : Type} (y : yySymType P R) (x : ConstraintSpec P R) : yySymType P R := {|
  yy_name := yy_name y;
  yy_numberRepr := yy_numberRepr y;
  yy_Number := yy_Number y;
  yy_Real := yy_Real y;
  yy_TagDefault := yy_TagDefault y;
  yy_ExtensionDefault := yy_ExtensionDefault y;
  yy_ModuleIdentifier := yy_ModuleIdentifier y;
  yy_DefinitiveObjIdComponent := yy_DefinitiveObjIdComponent y;
  yy_DefinitiveObjIdComponentList := yy_DefinitiveObjIdComponentList y;
  yy_DefinitiveIdentifier := yy_DefinitiveIdentifier y;
  yy_Type := yy_Type y;
  yy_ObjectIdElement := yy_ObjectIdElement y;
  yy_DefinedValue := yy_DefinedValue y;
  yy_ObjectIdentifierValue := yy_ObjectIdentifierValue y;
  yy_Value := yy_Value y;
  yy_Assignment := yy_Assignment y;
  yy_AssignmentList := yy_AssignmentList y;
  yy_ModuleBody := yy_ModuleBody y;
  yy_ValueReference := yy_ValueReference y;
  yy_TypeReference := yy_TypeReference y;
  yy_Constraint := x;
  yy_ConstraintSpec := yy_ConstraintSpec y;
  yy_ElementSetSpec := yy_ElementSetSpec y;
  yy_Unions := yy_Unions y;
  yy_Intersections := yy_Intersections y;
  yy_IntersectionElements := yy_IntersectionElements y;
  yy_Exclusions := yy_Exclusions y;
  yy_Elements := yy_Elements y;
  yy_SubtypeConstraint := yy_SubtypeConstraint y;
  yy_RangeEndpoint := yy_RangeEndpoint y;
  yy_NamedType := yy_NamedType y;
  yy_ComponentType := yy_ComponentType y;
  yy_ComponentTypeLists := yy_ComponentTypeLists y;
  yy_ComponentTypeList := yy_ComponentTypeList y;
  yy_Tag := yy_Tag y;
  yy_Class := yy_Class y;
  yy_NamedBitList := yy_NamedBitList y;
  yy_NamedBit := yy_NamedBit y;
  yy_Imports := yy_Imports y;
  yy_SymbolsFromModule := yy_SymbolsFromModule y;
  yy_SymbolList := yy_SymbolList y;
  yy_Symbol := yy_Symbol y;
  yy_GlobalModuleReference := yy_GlobalModuleReference y;
  yy_AlternativeTypeList := yy_AlternativeTypeList y;
  yy_ChoiceType := yy_ChoiceType y;
  yy_ExtensionAdditionAlternative := yy_ExtensionAdditionAlternative y;
  yy_ExtensionAdditionAlternativesList := yy_ExtensionAdditionAlternativesList y;
  yy_ExtensionAdditions := yy_ExtensionAdditions y;
  yy_NamedNumberList := yy_NamedNumberList y;
  yy_NamedNumber := yy_NamedNumber y;
  yy_EnumeratedType := yy_EnumeratedType y;
  yy_Enumeration := yy_Enumeration y;
  yy_EnumerationItem := yy_EnumerationItem y
|}.

(** yyVAL.ConstraintSpec = x *)
Definition set_ConstraintSpec {P R : Type} (y : yySymType P R) (x : ConstraintSpec P R) : yySymType P R := {|
  yy_name := yy_name y;
  yy_numberRepr := yy_numberRepr y;
  yy_Number := yy_Number y;
  yy_Real := yy_Real y;
  yy_TagDefault := yy_TagDefault y;
  yy_ExtensionDefault := yy_ExtensionDefault y;
  yy_ModuleIdentifier := yy_ModuleIdentifier y;
  yy_DefinitiveObjIdComponent := yy_DefinitiveObjIdComponent y;
  yy_DefinitiveObjIdComponentList := yy_DefinitiveObjIdComponentList y;
  yy_DefinitiveIdentifier := yy_DefinitiveIdentifier y;
  yy_Type := yy_Type y;
  yy_ObjectIdElement := yy_ObjectIdElement y;
  yy_DefinedValue := yy_DefinedValue y;
  yy_ObjectIdentifierValue := yy_ObjectIdentifierValue y;
  yy_Value := yy_Value y;
  yy_Assignment := yy_Assignment y;
  yy_AssignmentList := yy_AssignmentList y;
  yy_ModuleBody := yy_ModuleBody y;
  yy_ValueReference := yy_ValueReference y;
  yy_TypeReference := yy_TypeReference y;
  yy_Constraint := yy_Constraint y;
  yy_ConstraintSpec := x;
  yy_ElementSetSpec := yy_ElementSetSpec y;
  yy_Unions := yy_Unions y;
  yy_Intersections := yy_Intersections y;
  yy_IntersectionElements := yy_IntersectionElements y;
  yy_Exclusions := yy_Exclusions y;
  yy_Elements := yy_Elements y;
  yy_SubtypeConstraint := yy_SubtypeConstraint y;
  yy_RangeEndpoint := yy_RangeEndpoint y;
  yy_NamedType := yy_NamedType y;
  yy_ComponentType := yy_ComponentType y;
  yy_ComponentTypeLists := yy_ComponentTypeLists y;
  yy_ComponentTypeList := yy_ComponentTypeList y;
  yy_Tag := yy_Tag y;
  yy_Class := yy_Class y;
  yy_NamedBitList := yy_NamedBitList y;
  yy_NamedBit := yy_NamedBit y;
  yy_Imports := yy_Imports y;
  yy_SymbolsFromModule := yy_SymbolsFromModule y;
  yy_SymbolList := yy_SymbolList y;
  yy_Symbol := yy_Symbol y;
  yy_GlobalModuleReference := yy_GlobalModuleReference y;
  yy_AlternativeTypeList := yy_AlternativeTypeList y;
  yy_ChoiceType := yy_ChoiceType y;
  yy_ExtensionAdditionAlternative := yy_ExtensionAdditionAlternative y;
  yy_ExtensionAdditionAlternativesList := yy_ExtensionAdditionAlternativesList y;
  yy_ExtensionAdditions := yy_ExtensionAdditions y;
  yy_NamedNumberList := yy_NamedNumberList y;
  yy_NamedNumber := yy_NamedNumber y;
  yy_EnumeratedType := yy_EnumeratedType y;
  yy_Enumeration := yy_Enumeration y;
  yy_EnumerationItem := yy_EnumerationItem y
|}.

(** yyVAL.ElementSetSpec = x *)
Definition set_ElementSetSpec {P R : Type} (y : yySymType P R) (x : Elements P R) : yySymType P R := {|
  yy_name := yy_name y;
  yy_numberRepr := yy_numberRepr y;
  yy_Number := yy_Number y;
  yy_Real := yy_Real y;
  yy_TagDefault := yy_TagDefault y;
  yy_ExtensionDefault := yy_ExtensionDefault y;
  yy_ModuleIdentifier := yy_ModuleIdentifier y;
  yy_DefinitiveObjIdComponent := yy_DefinitiveObjIdComponent y;
  yy_DefinitiveObjIdComponentList := yy_DefinitiveObjIdComponentList y;
  yy_DefinitiveIdentifier := yy_DefinitiveIdentifier y;
  yy_Type := yy_Type y;
  yy_ObjectIdElement := yy_ObjectIdElement y;
  yy_DefinedValue := yy_DefinedValue y;
  yy_ObjectIdentifierValue := yy_ObjectIdentifierValue y;
  yy_Value := yy_Value y;
  yy_Assignment := yy_Assignment y;
  yy_AssignmentList := yy_AssignmentList y;
  yy_ModuleBody := yy_ModuleBody y;
  yy_ValueReference := yy_ValueReference y;
  yy_TypeReference := yy_TypeReference y;
  yy_Constraint := yy_Constraint y;
  yy_ConstraintSpec := yy_ConstraintSpec y;
  yy_ElementSetSpec := x;
  yy_Unions := yy_Unions y;
  yy_Intersections := yy_Intersections y;
  yy_IntersectionElements := yy_IntersectionElements y;
  yy_Exclusions := yy_Exclusions y;
  yy_Elements := yy_Elements y;
  yy_SubtypeConstraint := yy_SubtypeConstraint y;
  yy_RangeEndpoint := yy_RangeEndpoint y;
  yy_NamedType := yy_NamedType y;
  yy_ComponentType := yy_ComponentType y;
  yy_ComponentTypeLists := yy_ComponentTypeLists y;
  yy_ComponentTypeList := yy_ComponentTypeList y;
  yy_Tag := yy_Tag y;
  yy_Class := yy_Class y;
  yy_NamedBitList := yy_NamedBitList y;
  yy_NamedBit := yy_NamedBit y;
  yy_Imports := yy_Imports y;
  yy_SymbolsFromModule := yy_SymbolsFromModule y;
  yy_SymbolList := yy_SymbolList y;
  yy_Symbol := yy_Symbol y;
  yy_GlobalModuleReference := yy_GlobalModuleReference y;
  yy_AlternativeTypeList := yy_AlternativeTypeList y;
  yy_ChoiceType := yy_ChoiceType y;
  yy_ExtensionAdditionAlternative := yy_ExtensionAdditionAlternative y;
  yy_ExtensionAdditionAlternativesList := yy_ExtensionAdditionAlternativesList y;
  yy_ExtensionAdditions := yy_ExtensionAdditions y;
  yy_NamedNumberList := yy_NamedNumberList y;
  yy_NamedNumber := yy_NamedNumber y;
  yy_EnumeratedType := yy_EnumeratedType y;
  yy_Enumeration := yy_Enumeration y;
  yy_EnumerationItem := yy_EnumerationItem y
|}.

(** yyVAL.Unions = x *)
Definition set_Unions {P R : Type} (y : yySymType P R) (x : list (list (IntersectionElements P R))) : yySymType P R := {|
  yy_name := yy_name y;
  yy_numberRepr := yy_numberRepr y;
  yy_Number := yy_Number y;
  yy_Real := yy_Real y;
  yy_TagDefault := yy_TagDefault y;
  yy_ExtensionDefault := yy_ExtensionDefault y;
  yy_ModuleIdentifier := yy_ModuleIdentifier y;
  yy_DefinitiveObjIdComponent := yy_DefinitiveObjIdComponent y;
  yy_DefinitiveObjIdComponentList := yy_DefinitiveObjIdComponentList y;
  yy_DefinitiveIdentifier := yy_DefinitiveIdentifier y;
  yy_Type := yy_Type y;
  yy_ObjectIdElement := yy_ObjectIdElement y;
  yy_DefinedValue := yy_DefinedValue y;
  yy_ObjectIdentifierValue := yy_ObjectIdentifierValue y;
  yy_Value := yy_Value y;
  yy_Assignment := yy_Assignment y;
  yy_AssignmentList := yy_AssignmentList y;
  yy_ModuleBody := yy_ModuleBody y;
  yy_ValueReference := yy_ValueReference y;
  yy_TypeReference := yy_TypeReference y;
  yy_Constraint := yy_Constraint y;
  yy_ConstraintSpec := yy_ConstraintSpec y;
  yy_ElementSetSpec := yy_ElementSetSpec y;
  yy_Unions := x;
  yy_Intersections := yy_Intersections y;
  yy_IntersectionElements := yy_IntersectionElements y;
  yy_Exclusions := yy_Exclusions y;
  yy_Elements := yy_Elements y;
  yy_SubtypeConstraint := yy_SubtypeConstraint y;
  yy_RangeEndpoint := yy_RangeEndpoint y;
  yy_NamedType := yy_NamedType y;
  yy_ComponentType := yy_ComponentType y;
  yy_ComponentTypeLists := yy_ComponentTypeLists y;
  yy_ComponentTypeList := yy_ComponentTypeList y;
  yy_Tag := yy_Tag y;
  yy_Class := yy_Class y;
  yy_NamedBitList := yy_NamedBitList y;
  yy_NamedBit := yy_NamedBit y;
  yy_Imports := yy_Imports y;
  yy_SymbolsFromModule := yy_SymbolsFromModule y;
  yy_SymbolList := yy_SymbolList y;
  yy_Symbol := yy_Symbol y;
  yy_GlobalModuleReference := yy_GlobalModuleReference y;
  yy_AlternativeTypeList := yy_AlternativeTypeList y;
  yy_ChoiceType := yy_ChoiceType y;
  yy_ExtensionAdditionAlternative := yy_ExtensionAdditionAlternative y;
  yy_ExtensionAdditionAlternativesList := yy_ExtensionAdditionAlternativesList y;
  yy_ExtensionAdditions := yy_ExtensionAdditions y;
  yy_NamedNumberList := yy_NamedNumberList y;
  yy_NamedNumber := yy_NamedNumber y;
  yy_EnumeratedType := yy_EnumeratedType y;
  yy_Enumeration := yy_Enumeration y;
  yy_EnumerationItem := yy_EnumerationItem y
|}.

(** yyVAL.Intersections = x *)
Definition set_Intersections {P R : Type} (y : yySymType P R) (x : list (IntersectionElements P R)) : yySymType P R := {|
  yy_name := yy_name y;
  yy_numberRepr := yy_numberRepr y;
  yy_Number := yy_Number y;
  yy_Real := yy_Real y;
  yy_TagDefault := yy_TagDefault y;
  yy_ExtensionDefault := yy_ExtensionDefault y;
  yy_ModuleIdentifier := yy_ModuleIdentifier y;
  yy_DefinitiveObjIdComponent := yy_DefinitiveObjIdComponent y;
  yy_DefinitiveObjIdComponentList := yy_DefinitiveObjIdComponentList y;
  yy_DefinitiveIdentifier := yy_DefinitiveIdentifier y;
  yy_Type := yy_Type y;
  yy_ObjectIdElement := yy_ObjectIdElement y;
  yy_DefinedValue := yy_DefinedValue y;
  yy_ObjectIdentifierValue := yy_ObjectIdentifierValue y;
  yy_Value := yy_Value y;
  yy_Assignment := yy_Assignment y;
  yy_AssignmentList := yy_AssignmentList y;
  yy_ModuleBody := yy_ModuleBody y;
  yy_ValueReference := yy_ValueReference y;
  yy_TypeReference := yy_TypeReference y;
  yy_Constraint := yy_Constraint y;
  yy_ConstraintSpec := yy_ConstraintSpec y;
  yy_ElementSetSpec := yy_ElementSetSpec y;
  yy_Unions := yy_Unions y;
  yy_Intersections := x;
  yy_IntersectionElements := yy_IntersectionElements y;
  yy_Exclusions := yy_Exclusions y;
  yy_Elements := yy_Elements y;
  yy_SubtypeConstraint := yy_SubtypeConstraint y;
  yy_RangeEndpoint := yy_RangeEndpoint y;
  yy_NamedType := yy_NamedType y;
  yy_ComponentType := yy_ComponentType y;
  yy_ComponentTypeLists := yy_ComponentTypeLists y;
  yy_ComponentTypeList := yy_ComponentTypeList y;
  yy_Tag := yy_Tag y;
  yy_Class := yy_Class y;
  yy_NamedBitList := yy_NamedBitList y;
  yy_NamedBit := yy_NamedBit y;
  yy_Imports := yy_Imports y;
  yy_SymbolsFromModule := yy_SymbolsFromModule y;
  yy_SymbolList := yy_SymbolList y;
  yy_Symbol := yy_Symbol y;
  yy_GlobalModuleReference := yy_GlobalModuleReference y;
  yy_AlternativeTypeList := yy_AlternativeTypeList y;
  yy_ChoiceType := yy_ChoiceType y;
  yy_ExtensionAdditionAlternative := yy_ExtensionAdditionAlternative y;
  yy_ExtensionAdditionAlternativesList := yy_ExtensionAdditionAlternativesList y;
  yy_ExtensionAdditions := yy_ExtensionAdditions y;
  yy_NamedNumberList := yy_NamedNumberList y;
  yy_NamedNumber := yy_NamedNumber y;
  yy_EnumeratedType := yy_EnumeratedType y;
  yy_Enumeration := yy_Enumeration y;
  yy_EnumerationItem := yy_EnumerationItem y
|}.

(** yyVAL.IntersectionElements = x *)
Definition set_IntersectionElements {P R : Type} (y : yySymType P R) (x : IntersectionElements P R) : yySymType P R := {|
  yy_name := yy_name y;
  yy_numberRepr := yy_numberRepr y;
  yy_Number := yy_Number y;
  yy_Real := yy_Real y;
  yy_TagDefault := yy_TagDefault y;
  yy_ExtensionDefault := yy_ExtensionDefault y;
  yy_ModuleIdentifier := yy_ModuleIdentifier y;
  yy_DefinitiveObjIdComponent := yy_DefinitiveObjIdComponent y;
  yy_DefinitiveObjIdComponentList := yy_DefinitiveObjIdComponentList y;
  yy_DefinitiveIdentifier := yy_DefinitiveIdentifier y;
  yy_Type := yy_Type y;
  yy_ObjectIdElement := yy_ObjectIdElement y;
  yy_DefinedValue := yy_DefinedValue y;
  yy_ObjectIdentifierValue := yy_ObjectIdentifierValue y;
  yy_Value := yy_Value y;
  yy_Assignment := yy_Assignment y;
  yy_AssignmentList := yy_AssignmentList y;
  yy_ModuleBody := yy_ModuleBody y;
  yy_ValueReference := yy_ValueReference y;
  yy_TypeReference := yy_TypeReference y;
  yy_Constraint := yy_Constraint y;
  yy_ConstraintSpec := yy_ConstraintSpec y;
  yy_ElementSetSpec := yy_ElementSetSpec y;
  yy_Unions := yy_Unions y;
  yy_Intersections := yy_Intersections y;
  yy_IntersectionElements := x;
  yy_Exclusions := yy_Exclusions y;
  yy_Elements := yy_Elements y;
  yy_SubtypeConstraint := yy_SubtypeConstraint y;
  yy_RangeEndpoint := yy_RangeEndpoint y;
  yy_NamedType := yy_NamedType y;
  yy_ComponentType := yy_ComponentType y;
  yy_ComponentTypeLists := yy_ComponentTypeLists y;
  yy_ComponentTypeList := yy_ComponentTypeList y;
  yy_Tag := yy_Tag y;
  yy_Class := yy_Class y;
  yy_NamedBitList := yy_NamedBitList y;
  yy_NamedBit := yy_NamedBit y;
  yy_Imports := yy_Imports y;
  yy_SymbolsFromModule := yy_SymbolsFromModule y;
  yy_SymbolList := yy_SymbolList y;
  yy_Symbol := yy_Symbol y;
  yy_GlobalModuleReference := yy_GlobalModuleReference y;
  yy_AlternativeTypeList := yy_AlternativeTypeList y;
  yy_ChoiceType := yy_ChoiceType y;
  yy_ExtensionAdditionAlternative := yy_ExtensionAdditionAlternative y;
  yy_ExtensionAdditionAlternativesList := yy_ExtensionAdditionAlternativesList y;
  yy_ExtensionAdditions := yy_ExtensionAdditions y;
  yy_NamedNumberList := yy_NamedNumberList y;
  yy_NamedNumber := yy_NamedNumber y;
  yy_EnumeratedType := yy_EnumeratedType y;
  yy_Enumeration := yy_Enumeration y;
  yy_EnumerationItem := yy_EnumerationItem y
|}.

(** yyVAL.Exclusions = x *)
Definition set_Exclusions {P R : Type} (y : yySymType P R) (x : Elements P R) : yySymType P R := {|
  yy_name := yy_name y;
  yy_numberRepr := yy_numberRepr y;
  yy_Number := yy_Number y;
  yy_Real := yy_Real y;
  yy_TagDefault := yy_TagDefault y;
  yy_ExtensionDefault := yy_ExtensionDefault y;
  yy_ModuleIdentifier := yy_ModuleIdentifier y;
  yy_DefinitiveObjIdComponent := yy_DefinitiveObjIdComponent y;
  yy_DefinitiveObjIdComponentList := yy_DefinitiveObjIdComponentList y;
  yy_DefinitiveIdentifier := yy_DefinitiveIdentifier y;
  yy_Type := yy_Type y;
  yy_ObjectIdElement := yy_ObjectIdElement y;
  yy_DefinedValue := yy_DefinedValue y;
  yy_ObjectIdentifierValue := yy_ObjectIdentifierValue y;
  yy_Value := yy_Value y;
  yy_Assignment := yy_Assignment y;
  yy_AssignmentList := yy_AssignmentList y;
  yy_ModuleBody := yy_ModuleBody y;
  yy_ValueReference := yy_ValueReference y;
  yy_TypeReference := yy_TypeReference y;
  yy_Constraint := yy_Constraint y;
  yy_ConstraintSpec := yy_ConstraintSpec y;
  yy_ElementSetSpec := yy_ElementSetSpec y;
  yy_Unions := yy_Unions y;
  yy_Intersections := yy_Intersections y;
  yy_IntersectionElements := yy_IntersectionElements y;
  yy_Exclusions := x;
  yy_Elements := yy_Elements y;
  yy_SubtypeConstraint := yy_SubtypeConstraint y;
  yy_RangeEndpoint := yy_RangeEndpoint y;
  yy_NamedType := yy_NamedType y;
  yy_ComponentType := yy_ComponentType y;
  yy_ComponentTypeLists := yy_ComponentTypeLists y;
  yy_ComponentTypeList := yy_ComponentTypeList y;
  yy_Tag := yy_Tag y;
  yy_Class := yy_Class y;
  yy_NamedBitList := yy_NamedBitList y;
  yy_NamedBit := yy_NamedBit y;
  yy_Imports := yy_Imports y;
  yy_SymbolsFromModule := yy_SymbolsFromModule y;
  yy_SymbolList := yy_SymbolList y;
  yy_Symbol := yy_Symbol y;
  yy_GlobalModuleReference := yy_GlobalModuleReference y;
  yy_AlternativeTypeList := yy_AlternativeTypeList y;
  yy_ChoiceType := yy_ChoiceType y;
  yy_ExtensionAdditionAlternative := yy_ExtensionAdditionAlternative y;
  yy_ExtensionAdditionAlternativesList := yy_ExtensionAdditionAlternativesList y;
  yy_ExtensionAdditions := yy_ExtensionAdditions y;
  yy_NamedNumberList := yy_NamedNumberList y;
  yy_NamedNumber := yy_NamedNumber y;
  yy_EnumeratedType := yy_EnumeratedType y;
  yy_Enumeration := yy_Enumeration y;
  yy_EnumerationItem := yy_EnumerationItem y
|}.

(** yyVAL.Elements = x *)
Definition set_Elements {P R : Type} (y : yySymType P R) (x : Elements P R) : yySymType P R := {|
  yy_name := yy_name y;
  yy_numberRepr := yy_numberRepr y;
  yy_Number := yy_Number y;
  yy_Real := yy_Real y;
  yy_TagDefault := yy_TagDefault y;
  yy_ExtensionDefault := yy_ExtensionDefault y;
  yy_ModuleIdentifier := yy_ModuleIdentifier y;
  yy_DefinitiveObjIdComponent := yy_DefinitiveObjIdComponent y;
  yy_DefinitiveObjIdComponentList := yy_DefinitiveObjIdComponentList y;
  yy_DefinitiveIdentifier := yy_DefinitiveIdentifier y;
  yy_Type := yy_Type y;
  yy_ObjectIdElement := yy_ObjectIdElement y;
  yy_DefinedValue := yy_DefinedValue y;
  yy_ObjectIdentifierValue := yy_ObjectIdentifierValue y;
  yy_Value := yy_Value y;
  yy_Assignment := yy_Assignment y;
  yy_AssignmentList := yy_AssignmentList y;
  yy_ModuleBody := yy_ModuleBody y;
  yy_ValueReference := yy_ValueReference y;
  yy_TypeReference := yy_TypeReference y;
  yy_Constraint := yy_Constraint y;
  yy_ConstraintSpec := yy_ConstraintSpec y;
  yy_ElementSetSpec := yy_ElementSetSpec y;
  yy_Unions := yy_Unions y;
  yy_Intersections := yy_Intersections y;
  yy_IntersectionElements := yy_IntersectionElements y;
  yy_Exclusions := yy_Exclusions y;
  yy_Elements := x;
  yy_SubtypeConstraint := yy_SubtypeConstraint y;
  yy_RangeEndpoint := yy_RangeEndpoint y;
  yy_NamedType := yy_NamedType y;
  yy_ComponentType := yy_ComponentType y;
  yy_ComponentTypeLists := yy_ComponentTypeLists y;
  yy_ComponentTypeList := yy_ComponentTypeList y;
  yy_Tag := yy_Tag y;
  yy_Class := yy_Class y;
  yy_NamedBitList := yy_NamedBitList y;
  yy_NamedBit := yy_NamedBit y;
  yy_Imports := yy_Imports y;
  yy_SymbolsFromModule := yy_SymbolsFromModule y;
  yy_SymbolList := yy_SymbolList y;
  yy_Symbol := yy_Symbol y;
  yy_GlobalModuleReference := yy_GlobalModuleReference y;
  yy_AlternativeTypeList := yy_AlternativeTypeList y;
  yy_ChoiceType := yy_ChoiceType y;
  yy_ExtensionAdditionAlternative := yy_ExtensionAdditionAlternative y;
  yy_ExtensionAdditionAlternativesList := yy_ExtensionAdditionAlternativesList y;
  yy_ExtensionAdditions := yy_ExtensionAdditions y;
  yy_NamedNumberList := yy_NamedNumberList y;
  yy_NamedNumber := yy_NamedNumber y;
  yy_EnumeratedType := yy_EnumeratedType y;
  yy_Enumeration := yy_Enumeration y;
  yy_EnumerationItem := yy_EnumerationItem y
|}.

(** yyVAL.SubtypeConstraint = x *)
Definition set_SubtypeConstraint {P R : Type} (y : yySymType P R) (x : list (Elements P R)) : yySymType P R := {|
  yy_name := yy_name y;
  yy_numberRepr := yy_numberRepr y;
  yy_Number := yy_Number y;
  yy_Real := yy_Real y;
  yy_TagDefault := yy_TagDefault y;
  yy_ExtensionDefault := yy_ExtensionDefault y;
  yy_ModuleIdentifier := yy_ModuleIdentifier y;
  yy_DefinitiveObjIdComponent := yy_DefinitiveObjIdComponent y;
  yy_DefinitiveObjIdComponentList := yy_DefinitiveObjIdComponentList y;
  yy_DefinitiveIdentifier := yy_DefinitiveIdentifier y;
  yy_Type := yy_Type y;
  yy_ObjectIdElement := yy_ObjectIdElement y;
  yy_DefinedValue := yy_DefinedValue y;
  yy_ObjectIdentifierValue := yy_ObjectIdentifierValue y;
  yy_Value := yy_Value y;
  yy_Assignment := yy_Assignment y;
  yy_AssignmentList := yy_AssignmentList y;
  yy_ModuleBody := yy_ModuleBody y;
  yy_ValueReference := yy_ValueReference y;
  yy_TypeReference := yy_TypeReference y;
  yy_Constraint := yy_Constraint y;
  yy_ConstraintSpec := yy_ConstraintSpec y;
  yy_ElementSetSpec := yy_ElementSetSpec y;
  yy_Unions := yy_Unions y;
  yy_Intersections := yy_Intersections y;
  yy_IntersectionElements := yy_IntersectionElements y;
  yy_Exclusions := yy_Exclusions y;
  yy_Elements := yy_Elements y;
  yy_SubtypeConstraint := x;
  yy_RangeEndpoint := yy_RangeEndpoint y;
  yy_NamedType := yy_NamedType y;
  yy_ComponentType := yy_ComponentType y;
  yy_ComponentTypeLists := yy_ComponentTypeLists y;
  yy_ComponentTypeList := yy_ComponentTypeList y;
  yy_Tag := yy_Tag y;
  yy_Class := yy_Class y;
  yy_NamedBitList := yy_NamedBitList y;
  yy_NamedBit := yy_NamedBit y;
  yy_Imports := yy_Imports y;
  yy_SymbolsFromModule := yy_SymbolsFromModule y;
  yy_SymbolList := yy_SymbolList y;
  yy_Symbol := yy_Symbol y;
  yy_GlobalModuleReference := yy_GlobalModuleReference y;
  yy_AlternativeTypeList := yy_AlternativeTypeList y;
  yy_ChoiceType := yy_ChoiceType y;
  yy_ExtensionAdditionAlternative := yy_ExtensionAdditionAlternative y;
  yy_ExtensionAdditionAlternativesList := yy_ExtensionAdditionAlternativesList y;
  yy_ExtensionAdditions := yy_ExtensionAdditions y;
  yy_NamedNumberList := yy_NamedNumberList y;
  yy_NamedNumber := yy_NamedNumber y;
  yy_EnumeratedType := yy_EnumeratedType y;
  yy_Enumeration := yy_Enumeration y;
  yy_EnumerationItem := yy_EnumerationItem y
|}.

(** yyVAL.RangeEndpoint = x *)
Definition set_RangeEndpoint {P R : Type} (y : yySymType P R) (x : RangeEndpoint R) : yySymType P R := {|
  yy_name := yy_name y;
  yy_numberRepr := yy_numberRepr y;
  yy_Number := yy_Number y;
  yy_Real := yy_Real y;
  yy_TagDefault := yy_TagDefault y;
  yy_ExtensionDefault := yy_ExtensionDefault y;
  yy_ModuleIdentifier := yy_ModuleIdentifier y;
  yy_DefinitiveObjIdComponent := yy_DefinitiveObjIdComponent y;
  yy_DefinitiveObjIdComponentList := yy_DefinitiveObjIdComponentList y;
  yy_DefinitiveIdentifier := yy_DefinitiveIdentifier y;
  yy_Type := yy_Type y;
  yy_ObjectIdElement := yy_ObjectIdElement y;
  yy_DefinedValue := yy_DefinedValue y;
  yy_ObjectIdentifierValue := yy_ObjectIdentifierValue y;
  yy_Value := yy_Value y;
  yy_Assignment := yy_Assignment y;
  yy_AssignmentList := yy_AssignmentList y;
  yy_ModuleBody := yy_ModuleBody y;
  yy_ValueReference := yy_ValueReference y;
  yy_TypeReference := yy_TypeReference y;
  yy_Constraint := yy_Constraint y;
  yy_ConstraintSpec := yy_ConstraintSpec y;
  yy_ElementSetSpec := yy_ElementSetSpec y;
  yy_Unions := yy_Unions y;
  yy_Intersections := yy_Intersections y;
  yy_IntersectionElements := yy_IntersectionElements y;
  yy_Exclusions := yy_Exclusions y;
  yy_Elements := yy_Elements y;
  yy_SubtypeConstraint := yy_SubtypeConstraint y;
  yy_RangeEndpoint := x;
  yy_NamedType := yy_NamedType y;
  yy_ComponentType := yy_ComponentType y;
  yy_ComponentTypeLists := yy_ComponentTypeLists y;
  yy_ComponentTypeList := yy_ComponentTypeList y;
  yy_Tag := yy_Tag y;
  yy_Class := yy_Class y;
  yy_NamedBitList := yy_NamedBitList y;
  yy_NamedBit := yy_NamedBit y;
  yy_Imports := yy_Imports y;
  yy_SymbolsFromModule := yy_SymbolsFromModule y;
  yy_SymbolList := yy_SymbolList y;
  yy_Symbol := yy_Symbol y;
  yy_GlobalModuleReference := yy_GlobalModuleReference y;
  yy_AlternativeTypeList := yy_AlternativeTypeList y;
  yy_ChoiceType := yy_ChoiceType y;
  yy_ExtensionAdditionAlternative := yy_ExtensionAdditionAlternative y;
  yy_ExtensionAdditionAlternativesList := yy_ExtensionAdditionAlternativesList y;
  yy_ExtensionAdditions := yy_ExtensionAdditions y;
  yy_NamedNumberList := yy_NamedNumberList y;
  yy_NamedNumber := yy_NamedNumber y;
  yy_EnumeratedType := yy_EnumeratedType y;
  yy_Enumeration := yy_Enumeration y;
  yy_EnumerationItem := yy_EnumerationItem y
|}.

(** yyVAL.NamedType = x *)
Definition set_NamedType {P R : Type} (y : yySymType P R) (x : NamedType P R) : yySymType P R := {|
  yy_name := yy_name y;
  yy_numberRepr := yy_numberRepr y;
  yy_Number := yy_Number y;
  yy_Real := yy_Real y;
  yy_TagDefault := yy_TagDefault y;
  yy_ExtensionDefault := yy_ExtensionDefault y;
  yy_ModuleIdentifier := yy_ModuleIdentifier y;
  yy_DefinitiveObjIdComponent := yy_DefinitiveObjIdComponent y;
  yy_DefinitiveObjIdComponentList := yy_DefinitiveObjIdComponentList y;
  yy_DefinitiveIdentifier := yy_DefinitiveIdentifier y;
  yy_Type := yy_Type y;
  yy_ObjectIdElement := yy_ObjectIdElement y;
  yy_DefinedValue := yy_DefinedValue y;
  yy_ObjectIdentifierValue := yy_ObjectIdentifierValue y;
  yy_Value := yy_Value y;
  yy_Assignment := yy_Assignment y;
  yy_AssignmentList := yy_AssignmentList y;
  yy_ModuleBody := yy_ModuleBody y;
  yy_ValueReference := yy_ValueReference y;
  yy_TypeReference := yy_TypeReference y;
  yy_Constraint := yy_Constraint y;
  yy_ConstraintSpec := yy_ConstraintSpec y;
  yy_ElementSetSpec := yy_ElementSetSpec y;
  yy_Unions := yy_Unions y;
  yy_Intersections := yy_Intersections y;
  yy_IntersectionElements := yy_IntersectionElements y;
  yy_Exclusions := yy_Exclusions y;
  yy_Elements := yy_Elements y;
  yy_SubtypeConstraint := yy_SubtypeConstraint y;
  yy_RangeEndpoint := yy_RangeEndpoint y;
  yy_NamedType := x;
  yy_ComponentType := yy_ComponentType y;
  yy_ComponentTypeLists := yy_ComponentTypeLists y;
  yy_ComponentTypeList := yy_ComponentTypeList y;
  yy_Tag := yy_Tag y;
  yy_Class := yy_Class y;
  yy_NamedBitList := yy_NamedBitList y;
  yy_NamedBit := yy_NamedBit y;
  yy_Imports := yy_Imports y;
  yy_SymbolsFromModule := yy_SymbolsFromModule y;
  yy_SymbolList := yy_SymbolList y;
  yy_Symbol := yy_Symbol y;
  yy_GlobalModuleReference := yy_GlobalModuleReference y;
  yy_AlternativeTypeList := yy_AlternativeTypeList y;
  yy_ChoiceType := yy_ChoiceType y;
  yy_ExtensionAdditionAlternative := yy_ExtensionAdditionAlternative y;
  yy_ExtensionAdditionAlternativesList := yy_ExtensionAdditionAlternativesList y;
  yy_ExtensionAdditions := yy_ExtensionAdditions y;
  yy_NamedNumberList := yy_NamedNumberList y;
  yy_NamedNumber := yy_NamedNumber y;
  yy_EnumeratedType := yy_EnumeratedType y;
  yy_Enumeration := yy_Enumeration y;
  yy_EnumerationItem := yy_EnumerationItem y
|}.

(** yyVAL.ComponentType = x *)
Definition set_ComponentType {P R : Type} (y : yySymType P R) (x : component P R) : yySymType P R := {|
  yy_name := yy_name y;
  yy_numberRepr := yy_numberRepr y;
  yy_Number := yy_Number y;
  yy_Real := yy_Real y;
  yy_TagDefault := yy_TagDefault y;
  yy_ExtensionDefault := yy_ExtensionDefault y;
  yy_ModuleIdentifier := yy_ModuleIdentifier y;
  yy_DefinitiveObjIdComponent := yy_DefinitiveObjIdComponent y;
  yy_DefinitiveObjIdComponentList := yy_DefinitiveObjIdComponentList y;
  yy_DefinitiveIdentifier := yy_DefinitiveIdentifier y;
  yy_Type := yy_Type y;
  yy_ObjectIdElement := yy_ObjectIdElement y;
  yy_DefinedValue := yy_DefinedValue y;
  yy_ObjectIdentifierValue := yy_ObjectIdentifierValue y;
  yy_Value := yy_Value y;
  yy_Assignment := yy_Assignment y;
  yy_AssignmentList := yy_AssignmentList y;
  yy_ModuleBody := yy_ModuleBody y;
  yy_ValueReference := yy_ValueReference y;
  yy_TypeReference := yy_TypeReference y;
  yy_Constraint := yy_Constraint y;
  yy_ConstraintSpec := yy_ConstraintSpec y;
  yy_ElementSetSpec := yy_ElementSetSpec y;
  yy_Unions := yy_Unions y;
  yy_Intersections := yy_Intersections y;
  yy_IntersectionElements := yy_IntersectionElements y;
  yy_Exclusions := yy_Exclusions y;
  yy_Elements := yy_Elements y;
  yy_SubtypeConstraint := yy_SubtypeConstraint y;
  yy_RangeEndpoint := yy_RangeEndpoint y;
  yy_NamedType := yy_NamedType y;
  yy_ComponentType := x;
  yy_ComponentTypeLists := yy_ComponentTypeLists y;
  yy_ComponentTypeList := yy_ComponentTypeList y;
  yy_Tag := yy_Tag y;
  yy_Class := yy_Class y;
  yy_NamedBitList := yy_NamedBitList y;
  yy_NamedBit := yy_NamedBit y;
  yy_Imports := yy_Imports y;
  yy_SymbolsFromModule := yy_SymbolsFromModule y;
  yy_SymbolList := yy_SymbolList y;
  yy_Symbol := yy_Symbol y;
  yy_GlobalModuleReference := yy_GlobalModuleReference y;
  yy_AlternativeTypeList := yy_AlternativeTypeList y;
  yy_ChoiceType := yy_ChoiceType y;
  yy_ExtensionAdditionAlternative := yy_ExtensionAdditionAlternative y;
  yy_ExtensionAdditionAlternativesList := yy_ExtensionAdditionAlternativesList y;
  yy_ExtensionAdditions := yy_ExtensionAdditions y;
  yy_NamedNumberList := yy_NamedNumberList y;
  yy_NamedNumber := yy_NamedNumber y;
  yy_EnumeratedType := yy_EnumeratedType y;
  yy_Enumeration := yy_Enumeration y;
  yy_EnumerationItem := yy_EnumerationItem y
|}.

(** yyVAL.ComponentTypeLists = x *)
Definition set_ComponentTypeLists {P R : Type} (y : yySymType P R) (x : ComponentTypeLists P R) : yySymType P R := {|
  yy_name := yy_name y;
  yy_numberRepr := yy_numberRepr y;
  yy_Number := yy_Number y;
  yy_Real := yy_Real y;
  yy_TagDefault := yy_TagDefault y;
  yy_ExtensionDefault := yy_ExtensionDefault y;
  yy_ModuleIdentifier := yy_ModuleIdentifier y;
  yy_DefinitiveObjIdComponent := yy_DefinitiveObjIdComponent y;
  yy_DefinitiveObjIdComponentList := yy_DefinitiveObjIdComponentList y;
  yy_DefinitiveIdentifier := yy_DefinitiveIdentifier y;
  yy_Type := yy_Type y;
  yy_ObjectIdElement := yy_ObjectIdElement y;
  yy_DefinedValue := yy_DefinedValue y;
  yy_ObjectIdentifierValue := yy_ObjectIdentifierValue y;
  yy_Value := yy_Value y;
  yy_Assignment := yy_Assignment y;
  yy_AssignmentList := yy_AssignmentList y;
  yy_ModuleBody := yy_ModuleBody y;
  yy_ValueReference := yy_ValueReference y;
  yy_TypeReference := yy_TypeReference y;
  yy_Constraint := yy_Constraint y;
  yy_ConstraintSpec := yy_ConstraintSpec y;
  yy_ElementSetSpec := yy_ElementSetSpec y;
  yy_Unions := yy_Unions y;
  yy_Intersections := yy_Intersections y;
  yy_IntersectionElements := yy_IntersectionElements y;
  yy_Exclusions := yy_Exclusions y;
  yy_Elements := yy_Elements y;
  yy_SubtypeConstraint := yy_SubtypeConstraint y;
  yy_RangeEndpoint := yy_RangeEndpoint y;
  yy_NamedType := yy_NamedType y;
  yy_ComponentType := yy_ComponentType y;
  yy_ComponentTypeLists := x;
  yy_ComponentTypeList := yy_ComponentTypeList y;
  yy_Tag := yy_Tag y;
  yy_Class := yy_Class y;
  yy_NamedBitList := yy_NamedBitList y;
  yy_NamedBit := yy_NamedBit y;
  yy_Imports := yy_Imports y;
  yy_SymbolsFromModule := yy_SymbolsFromModule y;
  yy_SymbolList := yy_SymbolList y;
  yy_Symbol := yy_Symbol y;
  yy_GlobalModuleReference := yy_GlobalModuleReference y;
  yy_AlternativeTypeList := yy_AlternativeTypeList y;
  yy_ChoiceType := yy_ChoiceType y;
  yy_ExtensionAdditionAlternative := yy_ExtensionAdditionAlternative y;
  yy_ExtensionAdditionAlternativesList := yy_ExtensionAdditionAlternativesList y;
  yy_ExtensionAdditions := yy_ExtensionAdditions y;
  yy_NamedNumberList := yy_NamedNumberList y;
  yy_NamedNumber := yy_NamedNumber y;
  yy_EnumeratedType := yy_EnumeratedType y;
  yy_Enumeration := yy_Enumeration y;
  yy_EnumerationItem := yy_EnumerationItem y
|}.

(** yyVAL.ComponentTypeList = x *)
Definition set_ComponentTypeList {P R : Type} (y : yySymType P R) (x : list (component P R)) : yySymType P R := {|
  yy_name := yy_name y;
  yy_numberRepr := yy_numberRepr y;
  yy_Number := yy_Number y;
  yy_Real := yy_Real y;
  yy_TagDefault := yy_TagDefault y;
  yy_ExtensionDefault := yy_ExtensionDefault y;
  yy_ModuleIdentifier := yy_ModuleIdentifier y;
  yy_DefinitiveObjIdComponent := yy_DefinitiveObjIdComponent y;
  yy_DefinitiveObjIdComponentList := yy_DefinitiveObjIdComponentList y;
  yy_DefinitiveIdentifier := yy_DefinitiveIdentifier y;
  yy_Type := yy_Type y;
  yy_ObjectIdElement := yy_ObjectIdElement y;
  yy_DefinedValue := yy_DefinedValue y;
  yy_ObjectIdentifierValue := yy_ObjectIdentifierValue y;
  yy_Value := yy_Value y;
  yy_Assignment := yy_Assignment y;
  yy_AssignmentList := yy_AssignmentList y;
  yy_ModuleBody := yy_ModuleBody y;
  yy_ValueReference := yy_ValueReference y;
  yy_TypeReference := yy_TypeReference y;
  yy_Constraint := yy_Constraint y;
  yy_ConstraintSpec := yy_ConstraintSpec y;
  yy_ElementSetSpec := yy_ElementSetSpec y;
  yy_Unions := yy_Unions y;
  yy_Intersections := yy_Intersections y;
  yy_IntersectionElements := yy_IntersectionElements y;
  yy_Exclusions := yy_Exclusions y;
  yy_Elements := yy_Elements y;
  yy_SubtypeConstraint := yy_SubtypeConstraint y;
  yy_RangeEndpoint := yy_RangeEndpoint y;
  yy_NamedType := yy_NamedType y;
  yy_ComponentType := yy_ComponentType y;
  yy_ComponentTypeLists := yy_ComponentTypeLists y;
  yy_ComponentTypeList := x;
  yy_Tag := yy_Tag y;
  yy_Class := yy_Class y;
  yy_NamedBitList := yy_NamedBitList y;
  yy_NamedBit := yy_NamedBit y;
  yy_Imports := yy_Imports y;
  yy_SymbolsFromModule := yy_SymbolsFromModule y;
  yy_SymbolList := yy_SymbolList y;
  yy_Symbol := yy_Symbol y;
  yy_GlobalModuleReference := yy_GlobalModuleReference y;
  yy_AlternativeTypeList := yy_AlternativeTypeList y;
  yy_ChoiceType := yy_ChoiceType y;
  yy_ExtensionAdditionAlternative := yy_ExtensionAdditionAlternative y;
  yy_ExtensionAdditionAlternativesList := yy_ExtensionAdditionAlternativesList y;
  yy_ExtensionAdditions := yy_ExtensionAdditions y;
  yy_NamedNumberList := yy_NamedNumberList y;
  yy_NamedNumber := yy_NamedNumber y;
  yy_EnumeratedType := yy_EnumeratedType y;
  yy_Enumeration := yy_Enumeration y;
  yy_EnumerationItem := yy_EnumerationItem y
|}.

(** yyVAL.Tag = x *)
Definition set_Tag {P R : Type} (y : yySymType P R) (x : Tag R) : yySymType P R := {|
  yy_name := yy_name y;
  yy_numberRepr := yy_numberRepr y;
  yy_Number := yy_Number y;
  yy_Real := yy_Real y;
  yy_TagDefault := yy_TagDefault y;
  yy_ExtensionDefault := yy_ExtensionDefault y;
  yy_ModuleIdentifier := yy_ModuleIdentifier y;
  yy_DefinitiveObjIdComponent := yy_DefinitiveObjIdComponent y;
  yy_DefinitiveObjIdComponentList := yy_DefinitiveObjIdComponentList y;
  yy_DefinitiveIdentifier := yy_DefinitiveIdentifier y;
  yy_Type := yy_Type y;
  yy_ObjectIdElement := yy_ObjectIdElement y;
  yy_DefinedValue := yy_DefinedValue y;
  yy_ObjectIdentifierValue := yy_ObjectIdentifierValue y;
  yy_Value := yy_Value y;
  yy_Assignment := yy_Assignment y;
  yy_AssignmentList := yy_AssignmentList y;
  yy_ModuleBody := yy_ModuleBody y;
  yy_ValueReference := yy_ValueReference y;
  yy_TypeReference := yy_TypeReference y;
  yy_Constraint := yy_Constraint y;
  yy_ConstraintSpec := yy_ConstraintSpec y;
  yy_ElementSetSpec := yy_ElementSetSpec y;
  yy_Unions := yy_Unions y;
  yy_Intersections := yy_Intersections y;
  yy_IntersectionElements := yy_IntersectionElements y;
  yy_Exclusions := yy_Exclusions y;
  yy_Elements := yy_Elements y;
  yy_SubtypeConstraint := yy_SubtypeConstraint y;
  yy_RangeEndpoint := yy_RangeEndpoint y;
  yy_NamedType := yy_NamedType y;
  yy_ComponentType := yy_ComponentType y;
  yy_ComponentTypeLists := yy_ComponentTypeLists y;
  yy_ComponentTypeList := yy_ComponentTypeList y;
  yy_Tag := x;
  yy_Class := yy_Class y;
  yy_NamedBitList := yy_NamedBitList y;
  yy_NamedBit := yy_NamedBit y;
  yy_Imports := yy_Imports y;
  yy_SymbolsFromModule := yy_SymbolsFromModule y;
  yy_SymbolList := yy_SymbolList y;
  yy_Symbol := yy_Symbol y;
  yy_GlobalModuleReference := yy_GlobalModuleReference y;
  yy_AlternativeTypeList := yy_AlternativeTypeList y;
  yy_ChoiceType := yy_ChoiceType y;
  yy_ExtensionAdditionAlternative := yy_ExtensionAdditionAlternative y;
  yy_ExtensionAdditionAlternativesList := yy_ExtensionAdditionAlternativesList y;
  yy_ExtensionAdditions := yy_ExtensionAdditions y;
  yy_NamedNumberList := yy_NamedNumberList y;
  yy_NamedNumber := yy_NamedNumber y;
  yy_EnumeratedType := yy_EnumeratedType y;
  yy_Enumeration := yy_Enumeration y;
  yy_EnumerationItem := yy_EnumerationItem y
|}.

(** yyVAL.Class = x *)
Definition set_Class {P R : Type} (y : yySymType P R) (x : Z) : yySymType P R := {|
  yy_name := yy_name y;
  yy_numberRepr := yy_numberRepr y;
  yy_Number := yy_Number y;
  yy_Real := yy_Real y;
  yy_TagDefault := yy_TagDefault y;
  yy_ExtensionDefault := yy_ExtensionDefault y;
  yy_ModuleIdentifier := yy_ModuleIdentifier y;
  yy_DefinitiveObjIdComponent := yy_DefinitiveObjIdComponent y;
  yy_DefinitiveObjIdComponentList := yy_DefinitiveObjIdComponentList y;
  yy_DefinitiveIdentifier := yy_DefinitiveIdentifier y;
  yy_Type := yy_Type y;
  yy_ObjectIdElement := yy_ObjectIdElement y;
  yy_DefinedValue := yy_DefinedValue y;
  yy_ObjectIdentifierValue := yy_ObjectIdentifierValue y;
  yy_Value := yy_Value y;
  yy_Assignment := yy_Assignment y;
  yy_AssignmentList := yy_AssignmentList y;
  yy_ModuleBody := yy_ModuleBody y;
  yy_ValueReference := yy_ValueReference y;
  yy_TypeReference := yy_TypeReference y;
  yy_Constraint := yy_Constraint y;
  yy_ConstraintSpec := yy_ConstraintSpec y;
  yy_ElementSetSpec := yy_ElementSetSpec y;
  yy_Unions := yy_Unions y;
  yy_Intersections := yy_Intersections y;
  yy_IntersectionElements := yy_IntersectionElements y;
  yy_Exclusions := yy_Exclusions y;
  yy_Elements := yy_Elements y;
  yy_SubtypeConstraint := yy_SubtypeConstraint y;
  yy_RangeEndpoint := yy_RangeEndpoint y;
  yy_NamedType := yy_NamedType y;
  yy_ComponentType := yy_ComponentType y;
  yy_ComponentTypeLists := yy_ComponentTypeLists y;
  yy_ComponentTypeList := yy_ComponentTypeList y;
  yy_Tag := yy_Tag y;
  yy_Class := x;
  yy_NamedBitList := yy_NamedBitList y;
  yy_NamedBit := yy_NamedBit y;
  yy_Imports := yy_Imports y;
  yy_SymbolsFromModule := yy_SymbolsFromModule y;
  yy_SymbolList := yy_SymbolList y;
  yy_Symbol := yy_Symbol y;
  yy_GlobalModuleReference := yy_GlobalModuleReference y;
  yy_AlternativeTypeList := yy_AlternativeTypeList y;
  yy_ChoiceType := yy_ChoiceType y;
  yy_ExtensionAdditionAlternative := yy_ExtensionAdditionAlternative y;
  yy_ExtensionAdditionAlternativesList := yy_ExtensionAdditionAlternativesList y;
  yy_ExtensionAdditions := yy_ExtensionAdditions y;
  yy_NamedNumberList := yy_NamedNumberList y;
  yy_NamedNumber := yy_NamedNumber y;
  yy_EnumeratedType := yy_EnumeratedType y;
  yy_Enumeration := yy_Enumeration y;
  yy_EnumerationItem := yy_EnumerationItem y
|}.

(** yyVAL.NamedBitList = x *)
Definition set_NamedBitList {P R : Type} (y : yySymType P R) (x : list (NamedBit R)) : yySymType P R := {|
  yy_name := yy_name y;
  yy_numberRepr := yy_numberRepr y;
  yy_Number := yy_Number y;
  yy_Real := yy_Real y;
  yy_TagDefault := yy_TagDefault y;
  yy_ExtensionDefault := yy_ExtensionDefault y;
  yy_ModuleIdentifier := yy_ModuleIdentifier y;
  yy_DefinitiveObjIdComponent := yy_DefinitiveObjIdComponent y;
  yy_DefinitiveObjIdComponentList := yy_DefinitiveObjIdComponentList y;
  yy_DefinitiveIdentifier := yy_DefinitiveIdentifier y;
  yy_Type := yy_Type y;
  yy_ObjectIdElement := yy_ObjectIdElement y;
  yy_DefinedValue := yy_DefinedValue y;
  yy_ObjectIdentifierValue := yy_ObjectIdentifierValue y;
  yy_Value := yy_Value y;
  yy_Assignment := yy_Assignment y;
  yy_AssignmentList := yy_AssignmentList y;
  yy_ModuleBody := yy_ModuleBody y;
  yy_ValueReference := yy_ValueReference y;
  yy_TypeReference := yy_TypeReference y;
  yy_Constraint := yy_Constraint y;
  yy_ConstraintSpec := yy_ConstraintSpec y;
  yy_ElementSetSpec := yy_ElementSetSpec y;
  yy_Unions := yy_Unions y;
  yy_Intersections := yy_Intersections y;
  yy_IntersectionElements := yy_IntersectionElements y;
  yy_Exclusions := yy_Exclusions y;
  yy_Elements := yy_Elements y;
  yy_SubtypeConstraint := yy_SubtypeConstraint y;
  yy_RangeEndpoint := yy_RangeEndpoint y;
  yy_NamedType := yy_NamedType y;
  yy_ComponentType := yy_ComponentType y;
  yy_ComponentTypeLists := yy_ComponentTypeLists y;
  yy_ComponentTypeList := yy_ComponentTypeList y;
  yy_Tag := yy_Tag y;
  yy_Class := yy_Class y;
  yy_NamedBitList := x;
  yy_NamedBit := yy_NamedBit y;
  yy_Imports := yy_Imports y;
  yy_SymbolsFromModule := yy_SymbolsFromModule y;
  yy_SymbolList := yy_SymbolList y;
  yy_Symbol := yy_Symbol y;
  yy_GlobalModuleReference := yy_GlobalModuleReference y;
  yy_AlternativeTypeList := yy_AlternativeTypeList y;
  yy_ChoiceType := yy_ChoiceType y;
  yy_ExtensionAdditionAlternative := yy_ExtensionAdditionAlternative y;
  yy_ExtensionAdditionAlternativesList := yy_ExtensionAdditionAlternativesList y;
  yy_ExtensionAdditions := yy_ExtensionAdditions y;
  yy_NamedNumberList := yy_NamedNumberList y;
  yy_NamedNumber := yy_NamedNumber y;
  yy_EnumeratedType := yy_EnumeratedType y;
  yy_Enumeration := yy_Enumeration y;
  yy_EnumerationItem := yy_EnumerationItem y
|}.

(** yyVAL.NamedBit = x *)
Definition set_NamedBit {P R : Type} (y : yySymType P R) (x : NamedBit R) : yySymType P R := {|
  yy_name := yy_name y;
  yy_numberRepr := yy_numberRepr y;
  yy_Number := yy_Number y;
  yy_Real := yy_Real y;
  yy_TagDefault := yy_TagDefault y;
  yy_ExtensionDefault := yy_ExtensionDefault y;
  yy_ModuleIdentifier := yy_ModuleIdentifier y;
  yy_DefinitiveObjIdComponent := yy_DefinitiveObjIdComponent y;
  yy_DefinitiveObjIdComponentList := yy_DefinitiveObjIdComponentList y;
  yy_DefinitiveIdentifier := yy_DefinitiveIdentifier y;
  yy_Type := yy_Type y;
  yy_ObjectIdElement := yy_ObjectIdElement y;
  yy_DefinedValue := yy_DefinedValue y;
  yy_ObjectIdentifierValue := yy_ObjectIdentifierValue y;
  yy_Value := yy_Value y;
  yy_Assignment := yy_Assignment y;
  yy_AssignmentList := yy_AssignmentList y;
  yy_ModuleBody := yy_ModuleBody y;
  yy_ValueReference := yy_ValueReference y;
  yy_TypeReference := yy_TypeReference y;
  yy_Constraint := yy_Constraint y;
  yy_ConstraintSpec := yy_ConstraintSpec y;
  yy_ElementSetSpec := yy_ElementSetSpec y;
  yy_Unions := yy_Unions y;
  yy_Intersections := yy_Intersections y;
  yy_IntersectionElements := yy_IntersectionElements y;
  yy_Exclusions := yy_Exclusions y;
  yy_Elements := yy_Elements y;
  yy_SubtypeConstraint := yy_SubtypeConstraint y;
  yy_RangeEndpoint := yy_RangeEndpoint y;
  yy_NamedType := yy_NamedType y;
  yy_ComponentType := yy_ComponentType y;
  yy_ComponentTypeLists := yy_ComponentTypeLists y;
  yy_ComponentTypeList := yy_ComponentTypeList y;
  yy_Tag := yy_Tag y;
  yy_Class := yy_Class y;
  yy_NamedBitList := yy_NamedBitList y;
  yy_NamedBit := x;
  yy_Imports := yy_Imports y;
  yy_SymbolsFromModule := yy_SymbolsFromModule y;
  yy_SymbolList := yy_SymbolList y;
  yy_Symbol := yy_Symbol y;
  yy_GlobalModuleReference := yy_GlobalModuleReference y;
  yy_AlternativeTypeList := yy_AlternativeTypeList y;
  yy_ChoiceType := yy_ChoiceType y;
  yy_ExtensionAdditionAlternative := yy_ExtensionAdditionAlternative y;
  yy_ExtensionAdditionAlternativesList := yy_ExtensionAdditionAlternativesList y;
  yy_ExtensionAdditions := yy_ExtensionAdditions y;
  yy_NamedNumberList := yy_NamedNumberList y;
  yy_NamedNumber := yy_NamedNumber y;
  yy_EnumeratedType := yy_EnumeratedType y;
  yy_Enumeration := yy_Enumeration y;
  yy_EnumerationItem := yy_EnumerationItem y
|}.

(** yyVAL.Imports = x *)
Definition set_Imports {P R : Type} (y : yySymType P R) (x : list (SymbolsFromModule R)) : yySymType P R := {|
  yy_name := yy_name y;
  yy_numberRepr := yy_numberRepr y;
  yy_Number := yy_Number y;
  yy_Real := yy_Real y;
  yy_TagDefault := yy_TagDefault y;
  yy_ExtensionDefault := yy_ExtensionDefault y;
  yy_ModuleIdentifier := yy_ModuleIdentifier y;
  yy_DefinitiveObjIdComponent := yy_DefinitiveObjIdComponent y;
  yy_DefinitiveObjIdComponentList := yy_DefinitiveObjIdComponentList y;
  yy_DefinitiveIdentifier := yy_DefinitiveIdentifier y;
  yy_Type := yy_Type y;
  yy_ObjectIdElement := yy_ObjectIdElement y;
  yy_DefinedValue := yy_DefinedValue y;
  yy_ObjectIdentifierValue := yy_ObjectIdentifierValue y;
  yy_Value := yy_Value y;
  yy_Assignment := yy_Assignment y;
  yy_AssignmentList := yy_AssignmentList y;
  yy_ModuleBody := yy_ModuleBody y;
  yy_ValueReference := yy_ValueReference y;
  yy_TypeReference := yy_TypeReference y;
  yy_Constraint := yy_Constraint y;
  yy_ConstraintSpec := yy_ConstraintSpec y;
  yy_ElementSetSpec := yy_ElementSetSpec y;
  yy_Unions := yy_Unions y;
  yy_Intersections := yy_Intersections y;
  yy_IntersectionElements := yy_IntersectionElements y;
  yy_Exclusions := yy_Exclusions y;
  yy_Elements := yy_Elements y;
  yy_SubtypeConstraint := yy_SubtypeConstraint y;
  yy_RangeEndpoint := yy_RangeEndpoint y;
  yy_NamedType := yy_NamedType y;
  yy_ComponentType := yy_ComponentType y;
  yy_ComponentTypeLists := yy_ComponentTypeLists y;
  yy_ComponentTypeList := yy_ComponentTypeList y;
  yy_Tag := yy_Tag y;
  yy_Class := yy_Class y;
  yy_NamedBitList := yy_NamedBitList y;
  yy_NamedBit := yy_NamedBit y;
  yy_Imports := x;
  yy_SymbolsFromModule := yy_SymbolsFromModule y;
  yy_SymbolList := yy_SymbolList y;
  yy_Symbol := yy_Symbol y;
  yy_GlobalModuleReference := yy_GlobalModuleReference y;
  yy_AlternativeTypeList := yy_AlternativeTypeList y;
  yy_ChoiceType := yy_ChoiceType y;
  yy_ExtensionAdditionAlternative := yy_ExtensionAdditionAlternative y;
  yy_ExtensionAdditionAlternativesList := yy_ExtensionAdditionAlternativesList y;
  yy_ExtensionAdditions := yy_ExtensionAdditions y;
  yy_NamedNumberList := yy_NamedNumberList y;
  yy_NamedNumber := yy_NamedNumber y;
  yy_EnumeratedType := yy_EnumeratedType y;
  yy_Enumeration := yy_Enumeration y;
  yy_EnumerationItem := yy_EnumerationItem y
|}.

(** yyVAL.SymbolsFromModule = x *)
Definition set_SymbolsFromModule {P R : Type} (y : yySymType P R) (x : SymbolsFromModule R) : yySymType P R := {|
  yy_name := yy_name y;
  yy_numberRepr := yy_numberRepr y;
  yy_Number := yy_Number y;
  yy_Real := yy_Real y;
  yy_TagDefault := yy_TagDefault y;
  yy_ExtensionDefault := yy_ExtensionDefault y;
  yy_ModuleIdentifier := yy_ModuleIdentifier y;
  yy_DefinitiveObjIdComponent := yy_DefinitiveObjIdComponent y;
  yy_DefinitiveObjIdComponentList := yy_DefinitiveObjIdComponentList y;
  yy_DefinitiveIdentifier := yy_DefinitiveIdentifier y;
  yy_Type := yy_Type y;
  yy_ObjectIdElement := yy_ObjectIdElement y;
  yy_DefinedValue := yy_DefinedValue y;
  yy_ObjectIdentifierValue := yy_ObjectIdentifierValue y;
  yy_Value := yy_Value y;
  yy_Assignment := yy_Assignment y;
  yy_AssignmentList := yy_AssignmentList y;
  yy_ModuleBody := yy_ModuleBody y;
  yy_ValueReference := yy_ValueReference y;
  yy_TypeReference := yy_TypeReference y;
  yy_Constraint := yy_Constraint y;
  yy_ConstraintSpec := yy_ConstraintSpec y;
  yy_ElementSetSpec := yy_ElementSetSpec y;
  yy_Unions := yy_Unions y;
  yy_Intersections := yy_Intersections y;
  yy_IntersectionElements := yy_IntersectionElements y;
  yy_Exclusions := yy_Exclusions y;
  yy_Elements := yy_Elements y;
  yy_SubtypeConstraint := yy_SubtypeConstraint y;
  yy_RangeEndpoint := yy_RangeEndpoint y;
  yy_NamedType := yy_NamedType y;
  yy_ComponentType := yy_ComponentType y;
  yy_ComponentTypeLists := yy_ComponentTypeLists y;
  yy_ComponentTypeList := yy_ComponentTypeList y;
  yy_Tag := yy_Tag y;
  yy_Class := yy_Class y;
  yy_NamedBitList := yy_NamedBitList y;
  yy_NamedBit := yy_NamedBit y;
  yy_Imports := yy_Imports y;
  yy_SymbolsFromModule := x;
  yy_SymbolList := yy_SymbolList y;
  yy_Symbol := yy_Symbol y;
  yy_GlobalModuleReference := yy_GlobalModuleReference y;
  yy_AlternativeTypeList := yy_AlternativeTypeList y;
  yy_ChoiceType := yy_ChoiceType y;
  yy_ExtensionAdditionAlternative := yy_ExtensionAdditionAlternative y;
  yy_ExtensionAdditionAlternativesList := yy_ExtensionAdditionAlternativesList y;
  yy_ExtensionAdditions := yy_ExtensionAdditions y;
  yy_NamedNumberList := yy_NamedNumberList y;
  yy_NamedNumber := yy_NamedNumber y;
  yy_EnumeratedType := yy_EnumeratedType y;
  yy_Enumeration := yy_Enumeration y;
  yy_EnumerationItem := yy_EnumerationItem y
|}.

(** yyVAL.SymbolList = x *)
Definition set_SymbolList {P R : Type} (y : yySymType P R) (x : list (Symbol)) : yySymType P R := {|
  yy_name := yy_name y;
  yy_numberRepr := yy_numberRepr y;
  yy_Number := yy_Number y;
  yy_Real := yy_Real y;
  yy_TagDefault := yy_TagDefault y;
  yy_ExtensionDefault := yy_ExtensionDefault y;
  yy_ModuleIdentifier := yy_ModuleIdentifier y;
  yy_DefinitiveObjIdComponent := yy_DefinitiveObjIdComponent y;
  yy_DefinitiveObjIdComponentList := yy_DefinitiveObjIdComponentList y;
  yy_DefinitiveIdentifier := yy_DefinitiveIdentifier y;
  yy_Type := yy_Type y;
  yy_ObjectIdElement := yy_ObjectIdElement y;
  yy_DefinedValue := yy_DefinedValue y;
  yy_ObjectIdentifierValue := yy_ObjectIdentifierValue y;
  yy_Value := yy_Value y;
  yy_Assignment := yy_Assignment y;
  yy_AssignmentList := yy_AssignmentList y;
  yy_ModuleBody := yy_ModuleBody y;
  yy_ValueReference := yy_ValueReference y;
  yy_TypeReference := yy_TypeReference y;
  yy_Constraint := yy_Constraint y;
  yy_ConstraintSpec := yy_ConstraintSpec y;
  yy_ElementSetSpec := yy_ElementSetSpec y;
  yy_Unions := yy_Unions y;
  yy_Intersections := yy_Intersections y;
  yy_IntersectionElements := yy_IntersectionElements y;
  yy_Exclusions := yy_Exclusions y;
  yy_Elements := yy_Elements y;
  yy_SubtypeConstraint := yy_SubtypeConstraint y;
  yy_RangeEndpoint := yy_RangeEndpoint y;
  yy_NamedType := yy_NamedType y;
  yy_ComponentType := yy_ComponentType y;
  yy_ComponentTypeLists := yy_ComponentTypeLists y;
  yy_ComponentTypeList := yy_ComponentTypeList y;
  yy_Tag := yy_Tag y;
  yy_Class := yy_Class y;
  yy_NamedBitList := yy_NamedBitList y;
  yy_NamedBit := yy_NamedBit y;
  yy_Imports := yy_Imports y;
  yy_SymbolsFromModule := yy_SymbolsFromModule y;
  yy_SymbolList := x;
  yy_Symbol := yy_Symbol y;
  yy_GlobalModuleReference := yy_GlobalModuleReference y;
  yy_AlternativeTypeList := yy_AlternativeTypeList y;
  yy_ChoiceType := yy_ChoiceType y;
  yy_ExtensionAdditionAlternative := yy_ExtensionAdditionAlternative y;
  yy_ExtensionAdditionAlternativesList := yy_ExtensionAdditionAlternativesList y;
  yy_ExtensionAdditions := yy_ExtensionAdditions y;
  yy_NamedNumberList := yy_NamedNumberList y;
  yy_NamedNumber := yy_NamedNumber y;
  yy_EnumeratedType := yy_EnumeratedType y;
  yy_Enumeration := yy_Enumeration y;
  yy_EnumerationItem := yy_EnumerationItem y
|}.

(** yyVAL.Symbol = x *)
Definition set_Symbol {P R : Type} (y : yySymType P R) (x : Symbol) : yySymType P R := {|
  yy_name := yy_name y;
  yy_numberRepr := yy_numberRepr y;
  yy_Number := yy_Number y;
  yy_Real := yy_Real y;
  yy_TagDefault := yy_TagDefault y;
  yy_ExtensionDefault := yy_ExtensionDefault y;
  yy_ModuleIdentifier := yy_ModuleIdentifier y;
  yy_DefinitiveObjIdComponent := yy_DefinitiveObjIdComponent y;
  yy_DefinitiveObjIdComponentList := yy_DefinitiveObjIdComponentList y;
  yy_DefinitiveIdentifier := yy_DefinitiveIdentifier y;
  yy_Type := yy_Type y;
  yy_ObjectIdElement := yy_ObjectIdElement y;
  yy_DefinedValue := yy_DefinedValue y;
  yy_ObjectIdentifierValue := yy_ObjectIdentifierValue y;
  yy_Value := yy_Value y;
  yy_Assignment := yy_Assignment y;
  yy_AssignmentList := yy_AssignmentList y;
  yy_ModuleBody := yy_ModuleBody y;
  yy_ValueReference := yy_ValueReference y;
  yy_TypeReference := yy_TypeReference y;
  yy_Constraint := yy_Constraint y;
  yy_ConstraintSpec := yy_ConstraintSpec y;
  yy_ElementSetSpec := yy_ElementSetSpec y;
  yy_Unions := yy_Unions y;
  yy_Intersections := yy_Intersections y;
  yy_IntersectionElements := yy_IntersectionElements y;
  yy_Exclusions := yy_Exclusions y;
  yy_Elements := yy_Elements y;
  yy_SubtypeConstraint := yy_SubtypeConstraint y;
  yy_RangeEndpoint := yy_RangeEndpoint y;
  yy_NamedType := yy_NamedType y;
  yy_ComponentType := yy_ComponentType y;
  yy_ComponentTypeLists := yy_ComponentTypeLists y;
  yy_ComponentTypeList := yy_ComponentTypeList y;
  yy_Tag := yy_Tag y;
  yy_Class := yy_Class y;
  yy_NamedBitList := yy_NamedBitList y;
  yy_NamedBit := yy_NamedBit y;
  yy_Imports := yy_Imports y;
  yy_SymbolsFromModule := yy_SymbolsFromModule y;
  yy_SymbolList := yy_SymbolList y;
  yy_Symbol := x;
  yy_GlobalModuleReference := yy_GlobalModuleReference y;
  yy_AlternativeTypeList := yy_AlternativeTypeList y;
  yy_ChoiceType := yy_ChoiceType y;
  yy_ExtensionAdditionAlternative := yy_ExtensionAdditionAlternative y;
  yy_ExtensionAdditionAlternativesList := yy_ExtensionAdditionAlternativesList y;
  yy_ExtensionAdditions := yy_ExtensionAdditions y;
  yy_NamedNumberList := yy_NamedNumberList y;
  yy_NamedNumber := yy_NamedNumber y;
  yy_EnumeratedType := yy_EnumeratedType y;
  yy_Enumeration := yy_Enumeration y;
  yy_EnumerationItem := yy_EnumerationItem y
|}.

(** yyVAL.GlobalModuleReference = x *)
Definition set_GlobalModuleReference {P R : Type} (y : yySymType P R) (x : GlobalModuleReference R) : yySymType P R := {|
  yy_name := yy_name y;
  yy_numberRepr := yy_numberRepr y;
  yy_Number := yy_Number y;
  yy_Real := yy_Real y;
  yy_TagDefault := yy_TagDefault y;
  yy_ExtensionDefault := yy_ExtensionDefault y;
  yy_ModuleIdentifier := yy_ModuleIdentifier y;
  yy_DefinitiveObjIdComponent := yy_DefinitiveObjIdComponent y;
  yy_DefinitiveObjIdComponentList := yy_DefinitiveObjIdComponentList y;
  yy_DefinitiveIdentifier := yy_DefinitiveIdentifier y;
  yy_Type := yy_Type y;
  yy_ObjectIdElement := yy_ObjectIdElement y;
  yy_DefinedValue := yy_DefinedValue y;
  yy_ObjectIdentifierValue := yy_ObjectIdentifierValue y;
  yy_Value := yy_Value y;
  yy_Assignment := yy_Assignment y;
  yy_AssignmentList := yy_AssignmentList y;
  yy_ModuleBody := yy_ModuleBody y;
  yy_ValueReference := yy_ValueReference y;
  yy_TypeReference := yy_TypeReference y;
  yy_Constraint := yy_Constraint y;
  yy_ConstraintSpec := yy_ConstraintSpec y;
  yy_ElementSetSpec := yy_ElementSetSpec y;
  yy_Unions := yy_Unions y;
  yy_Intersections := yy_Intersections y;
  yy_IntersectionElements := yy_IntersectionElements y;
  yy_Exclusions := yy_Exclusions y;
  yy_Elements := yy_Elements y;
  yy_SubtypeConstraint := yy_SubtypeConstraint y;
  yy_RangeEndpoint := yy_RangeEndpoint y;
  yy_NamedType := yy_NamedType y;
  yy_ComponentType := yy_ComponentType y;
  yy_ComponentTypeLists := yy_ComponentTypeLists y;
  yy_ComponentTypeList := yy_ComponentTypeList y;
  yy_Tag := yy_Tag y;
  yy_Class := yy_Class y;
  yy_NamedBitList := yy_NamedBitList y;
  yy_NamedBit := yy_NamedBit y;
  yy_Imports := yy_Imports y;
  yy_SymbolsFromModule := yy_SymbolsFromModule y;
  yy_SymbolList := yy_SymbolList y;
  yy_Symbol := yy_Symbol y;
  yy_GlobalModuleReference := x;
  yy_AlternativeTypeList := yy_AlternativeTypeList y;
  yy_ChoiceType := yy_ChoiceType y;
  yy_ExtensionAdditionAlternative := yy_ExtensionAdditionAlternative y;
  yy_ExtensionAdditionAlternativesList := yy_ExtensionAdditionAlternativesList y;
  yy_ExtensionAdditions := yy_ExtensionAdditions y;
  yy_NamedNumberList := yy_NamedNumberList y;
  yy_NamedNumber := yy_NamedNumber y;
  yy_EnumeratedType := yy_EnumeratedType y;
  yy_Enumeration := yy_Enumeration y;
  yy_EnumerationItem := yy_EnumerationItem y
|}.

(** yyVAL.AlternativeTypeList = x *)
Definition set_AlternativeTypeList {P R : Type} (y : yySymType P R) (x : list (NamedType P R)) : yySymType P R := {|
  yy_name := yy_name y;
  yy_numberRepr := yy_numberRepr y;
  yy_Number := yy_Number y;
  yy_Real := yy_Real y;
  yy_TagDefault := yy_TagDefault y;
  yy_ExtensionDefault := yy_ExtensionDefault y;
  yy_ModuleIdentifier := yy_ModuleIdentifier y;
  yy_DefinitiveObjIdComponent := yy_DefinitiveObjIdComponent y;
  yy_DefinitiveObjIdComponentList := yy_DefinitiveObjIdComponentList y;
  yy_DefinitiveIdentifier := yy_DefinitiveIdentifier y;
  yy_Type := yy_Type y;
  yy_ObjectIdElement := yy_ObjectIdElement y;
  yy_DefinedValue := yy_DefinedValue y;
  yy_ObjectIdentifierValue := yy_ObjectIdentifierValue y;
  yy_Value := yy_Value y;
  yy_Assignment := yy_Assignment y;
  yy_AssignmentList := yy_AssignmentList y;
  yy_ModuleBody := yy_ModuleBody y;
  yy_ValueReference := yy_ValueReference y;
  yy_TypeReference := yy_TypeReference y;
  yy_Constraint := yy_Constraint y;
  yy_ConstraintSpec := yy_ConstraintSpec y;
  yy_ElementSetSpec := yy_ElementSetSpec y;
  yy_Unions := yy_Unions y;
  yy_Intersections := yy_Intersections y;
  yy_IntersectionElements := yy_IntersectionElements y;
  yy_Exclusions := yy_Exclusions y;
  yy_Elements := yy_Elements y;
  yy_SubtypeConstraint := yy_SubtypeConstraint y;
  yy_RangeEndpoint := yy_RangeEndpoint y;
  yy_NamedType := yy_NamedType y;
  yy_ComponentType := yy_ComponentType y;
  yy_ComponentTypeLists := yy_ComponentTypeLists y;
  yy_ComponentTypeList := yy_ComponentTypeList y;
  yy_Tag := yy_Tag y;
  yy_Class := yy_Class y;
  yy_NamedBitList := yy_NamedBitList y;
  yy_NamedBit := yy_NamedBit y;
  yy_Imports := yy_Imports y;
  yy_SymbolsFromModule := yy_SymbolsFromModule y;
  yy_SymbolList := yy_SymbolList y;
  yy_Symbol := yy_Symbol y;
  yy_GlobalModuleReference := yy_GlobalModuleReference y;
  yy_AlternativeTypeList := x;
  yy_ChoiceType := yy_ChoiceType y;
  yy_ExtensionAdditionAlternative := yy_ExtensionAdditionAlternative y;
  yy_ExtensionAdditionAlternativesList := yy_ExtensionAdditionAlternativesList y;
  yy_ExtensionAdditions := yy_ExtensionAdditions y;
  yy_NamedNumberList := yy_NamedNumberList y;
  yy_NamedNumber := yy_NamedNumber y;
  yy_EnumeratedType := yy_EnumeratedType y;
  yy_Enumeration := yy_Enumeration y;
  yy_EnumerationItem := yy_EnumerationItem y
|}.

(** yyVAL.ChoiceType = x *)
Definition set_ChoiceType {P R : Type} (y : yySymType P R) (x : ChoiceType P R) : yySymType P R := {|
  yy_name := yy_name y;
  yy_numberRepr := yy_numberRepr y;
  yy_Number := yy_Number y;
  yy_Real := yy_Real y;
  yy_TagDefault := yy_TagDefault y;
  yy_ExtensionDefault := yy_ExtensionDefault y;
  yy_ModuleIdentifier := yy_ModuleIdentifier y;
  yy_DefinitiveObjIdComponent := yy_DefinitiveObjIdComponent y;
  yy_DefinitiveObjIdComponentList := yy_DefinitiveObjIdComponentList y;
  yy_DefinitiveIdentifier := yy_DefinitiveIdentifier y;
  yy_Type := yy_Type y;
  yy_ObjectIdElement := yy_ObjectIdElement y;
  yy_DefinedValue := yy_DefinedValue y;
  yy_ObjectIdentifierValue := yy_ObjectIdentifierValue y;
  yy_Value := yy_Value y;
  yy_Assignment := yy_Assignment y;
  yy_AssignmentList := yy_AssignmentList y;
  yy_ModuleBody := yy_ModuleBody y;
  yy_ValueReference := yy_ValueReference y;
  yy_TypeReference := yy_TypeReference y;
  yy_Constraint := yy_Constraint y;
  yy_ConstraintSpec := yy_ConstraintSpec y;
  yy_ElementSetSpec := yy_ElementSetSpec y;
  yy_Unions := yy_Unions y;
  yy_Intersections := yy_Intersections y;
  yy_IntersectionElements := yy_IntersectionElements y;
  yy_Exclusions := yy_Exclusions y;
  yy_Elements := yy_Elements y;
  yy_SubtypeConstraint := yy_SubtypeConstraint y;
  yy_RangeEndpoint := yy_RangeEndpoint y;
  yy_NamedType := yy_NamedType y;
  yy_ComponentType := yy_ComponentType y;
  yy_ComponentTypeLists := yy_ComponentTypeLists y;
  yy_ComponentTypeList := yy_ComponentTypeList y;
  yy_Tag := yy_Tag y;
  yy_Class := yy_Class y;
  yy_NamedBitList := yy_NamedBitList y;
  yy_NamedBit := yy_NamedBit y;
  yy_Imports := yy_Imports y;
  yy_SymbolsFromModule := yy_SymbolsFromModule y;
  yy_SymbolList := yy_SymbolList y;
  yy_Symbol := yy_Symbol y;
  yy_GlobalModuleReference := yy_GlobalModuleReference y;
  yy_AlternativeTypeList := yy_AlternativeTypeList y;
  yy_ChoiceType := x;
  yy_ExtensionAdditionAlternative := yy_ExtensionAdditionAlternative y;
  yy_ExtensionAdditionAlternativesList := yy_ExtensionAdditionAlternativesList y;
  yy_ExtensionAdditions := yy_ExtensionAdditions y;
  yy_NamedNumberList := yy_NamedNumberList y;
  yy_NamedNumber := yy_NamedNumber y;
  yy_EnumeratedType := yy_EnumeratedType y;
  yy_Enumeration := yy_Enumeration y;
  yy_EnumerationItem := yy_EnumerationItem y
|}.

(** yyVAL.ExtensionAdditionAlternative = x *)
Definition set_ExtensionAdditionAlternative {P R : Type} (y : yySymType P R) (x : option (NamedType P R)) : yySymType P R := {|
  yy_name := yy_name y;
  yy_numberRepr := yy_numberRepr y;
  yy_Number := yy_Number y;
  yy_Real := yy_Real y;
  yy_TagDefault := yy_TagDefault y;
  yy_ExtensionDefault := yy_ExtensionDefault y;
  yy_ModuleIdentifier := yy_ModuleIdentifier y;
  yy_DefinitiveObjIdComponent := yy_DefinitiveObjIdComponent y;
  yy_DefinitiveObjIdComponentList := yy_DefinitiveObjIdComponentList y;
  yy_DefinitiveIdentifier := yy_DefinitiveIdentifier y;
  yy_Type := yy_Type y;
  yy_ObjectIdElement := yy_ObjectIdElement y;
  yy_DefinedValue := yy_DefinedValue y;
  yy_ObjectIdentifierValue := yy_ObjectIdentifierValue y;
  yy_Value := yy_Value y;
  yy_Assignment := yy_Assignment y;
  yy_AssignmentList := yy_AssignmentList y;
  yy_ModuleBody := yy_ModuleBody y;
  yy_ValueReference := yy_ValueReference y;
  yy_TypeReference := yy_TypeReference y;
  yy_Constraint := yy_Constraint y;
  yy_ConstraintSpec := yy_ConstraintSpec y;
  yy_ElementSetSpec := yy_ElementSetSpec y;
  yy_Unions := yy_Unions y;
  yy_Intersections := yy_Intersections y;
  yy_IntersectionElements := yy_IntersectionElements y;
  yy_Exclusions := yy_Exclusions y;
  yy_Elements := yy_Elements y;
  yy_SubtypeConstraint := yy_SubtypeConstraint y;
  yy_RangeEndpoint := yy_RangeEndpoint y;
  yy_NamedType := yy_NamedType y;
  yy_ComponentType := yy_ComponentType y;
  yy_ComponentTypeLists := yy_ComponentTypeLists y;
  yy_ComponentTypeList := yy_ComponentTypeList y;
  yy_Tag := yy_Tag y;
  yy_Class := yy_Class y;
  yy_NamedBitList := yy_NamedBitList y;
  yy_NamedBit := yy_NamedBit y;
  yy_Imports := yy_Imports y;
  yy_SymbolsFromModule := yy_SymbolsFromModule y;
  yy_SymbolList := yy_SymbolList y;
  yy_Symbol := yy_Symbol y;
  yy_GlobalModuleReference := yy_GlobalModuleReference y;
  yy_AlternativeTypeList := yy_AlternativeTypeList y;
  yy_ChoiceType := yy_ChoiceType y;
  yy_ExtensionAdditionAlternative := x;
  yy_ExtensionAdditionAlternativesList := yy_ExtensionAdditionAlternativesList y;
  yy_ExtensionAdditions := yy_ExtensionAdditions y;
  yy_NamedNumberList := yy_NamedNumberList y;
  yy_NamedNumber := yy_NamedNumber y;
  yy_EnumeratedType := yy_EnumeratedType y;
  yy_Enumeration := yy_Enumeration y;
  yy_EnumerationItem := yy_EnumerationItem y
|}.

(** yyVAL.ExtensionAdditionAlternativesList = x *)
Definition set_ExtensionAdditionAlternativesList {P R : Type} (y : yySymType P R) (x : list (option (NamedType P R))) : yySymType P R := {|
  yy_name := yy_name y;
  yy_numberRepr := yy_numberRepr y;
  yy_Number := yy_Number y;
  yy_Real := yy_Real y;
  yy_TagDefault := yy_TagDefault y;
  yy_ExtensionDefault := yy_ExtensionDefault y;
  yy_ModuleIdentifier := yy_ModuleIdentifier y;
  yy_DefinitiveObjIdComponent := yy_DefinitiveObjIdComponent y;
  yy_DefinitiveObjIdComponentList := yy_DefinitiveObjIdComponentList y;
  yy_DefinitiveIdentifier := yy_DefinitiveIdentifier y;
  yy_Type := yy_Type y;
  yy_ObjectIdElement := yy_ObjectIdElement y;
  yy_DefinedValue := yy_DefinedValue y;
  yy_ObjectIdentifierValue := yy_ObjectIdentifierValue y;
  yy_Value := yy_Value y;
  yy_Assignment := yy_Assignment y;
  yy_AssignmentList := yy_AssignmentList y;
  yy_ModuleBody := yy_ModuleBody y;
  yy_ValueReference := yy_ValueReference y;
  yy_TypeReference := yy_TypeReference y;
  yy_Constraint := yy_Constraint y;
  yy_ConstraintSpec := yy_ConstraintSpec y;
  yy_ElementSetSpec := yy_ElementSetSpec y;
  yy_Unions := yy_Unions y;
  yy_Intersections := yy_Intersections y;
  yy_IntersectionElements := yy_IntersectionElements y;
  yy_Exclusions := yy_Exclusions y;
  yy_Elements := yy_Elements y;
  yy_SubtypeConstraint := yy_SubtypeConstraint y;
  yy_RangeEndpoint := yy_RangeEndpoint y;
  yy_NamedType := yy_NamedType y;
  yy_ComponentType := yy_ComponentType y;
  yy_ComponentTypeLists := yy_ComponentTypeLists y;
  yy_ComponentTypeList := yy_ComponentTypeList y;
  yy_Tag := yy_Tag y;
  yy_Class := yy_Class y;
  yy_NamedBitList := yy_NamedBitList y;
  yy_NamedBit := yy_NamedBit y;
  yy_Imports := yy_Imports y;
  yy_SymbolsFromModule := yy_SymbolsFromModule y;
  yy_SymbolList := yy_SymbolList y;
  yy_Symbol := yy_Symbol y;
  yy_GlobalModuleReference := yy_GlobalModuleReference y;
  yy_AlternativeTypeList := yy_AlternativeTypeList y;
  yy_ChoiceType := yy_ChoiceType y;
  yy_ExtensionAdditionAlternative := yy_ExtensionAdditionAlternative y;
  yy_ExtensionAdditionAlternativesList := x;
  yy_ExtensionAdditions := yy_ExtensionAdditions y;
  yy_NamedNumberList := yy_NamedNumberList y;
  yy_NamedNumber := yy_NamedNumber y;
  yy_EnumeratedType := yy_EnumeratedType y;
  yy_Enumeration := yy_Enumeration y;
  yy_EnumerationItem := yy_EnumerationItem y
|}.

(** yyVAL.ExtensionAdditions = x *)
Definition set_ExtensionAdditions {P R : Type} (y : yySymType P R) (x : list (component P R)) : yySymType P R := {|
  yy_name := yy_name y;
  yy_numberRepr := yy_numberRepr y;
  yy_Number := yy_Number y;
  yy_Real := yy_Real y;
  yy_TagDefault := yy_TagDefault y;
  yy_ExtensionDefault := yy_ExtensionDefault y;
  yy_ModuleIdentifier := yy_ModuleIdentifier y;
  yy_DefinitiveObjIdComponent := yy_DefinitiveObjIdComponent y;
  yy_DefinitiveObjIdComponentList := yy_DefinitiveObjIdComponentList y;
  yy_DefinitiveIdentifier := yy_DefinitiveIdentifier y;
  yy_Type := yy_Type y;
  yy_ObjectIdElement := yy_ObjectIdElement y;
  yy_DefinedValue := yy_DefinedValue y;
  yy_ObjectIdentifierValue := yy_ObjectIdentifierValue y;
  yy_Value := yy_Value y;
  yy_Assignment := yy_Assignment y;
  yy_AssignmentList := yy_AssignmentList y;
  yy_ModuleBody := yy_ModuleBody y;
  yy_ValueReference := yy_ValueReference y;
  yy_TypeReference := yy_TypeReference y;
  yy_Constraint := yy_Constraint y;
  yy_ConstraintSpec := yy_ConstraintSpec y;
  yy_ElementSetSpec := yy_ElementSetSpec y;
  yy_Unions := yy_Unions y;
  yy_Intersections := yy_Intersections y;
  yy_IntersectionElements := yy_IntersectionElements y;
  yy_Exclusions := yy_Exclusions y;
  yy_Elements := yy_Elements y;
  yy_SubtypeConstraint := yy_SubtypeConstraint y;
  yy_RangeEndpoint := yy_RangeEndpoint y;
  yy_NamedType := yy_NamedType y;
  yy_ComponentType := yy_ComponentType y;
  yy_ComponentTypeLists := yy_ComponentTypeLists y;
  yy_ComponentTypeList := yy_ComponentTypeList y;
  yy_Tag := yy_Tag y;
  yy_Class := yy_Class y;
  yy_NamedBitList := yy_NamedBitList y;
  yy_NamedBit := yy_NamedBit y;
  yy_Imports := yy_Imports y;
  yy_SymbolsFromModule := yy_SymbolsFromModule y;
  yy_SymbolList := yy_SymbolList y;
  yy_Symbol := yy_Symbol y;
  yy_GlobalModuleReference := yy_GlobalModuleReference y;
  yy_AlternativeTypeList := yy_AlternativeTypeList y;
  yy_ChoiceType := yy_ChoiceType y;
  yy_ExtensionAdditionAlternative := yy_ExtensionAdditionAlternative y;
  yy_ExtensionAdditionAlternativesList := yy_ExtensionAdditionAlternativesList y;
  yy_ExtensionAdditions := x;
  yy_NamedNumberList := yy_NamedNumberList y;
  yy_NamedNumber := yy_NamedNumber y;
  yy_EnumeratedType := yy_EnumeratedType y;
  yy_Enumeration := yy_Enumeration y;
  yy_EnumerationItem := yy_EnumerationItem y
|}.

(** yyVAL.NamedNumberList = x *)
Definition set_NamedNumberList {P R : Type} (y : yySymType P R) (x : list (NamedNumber)) : yySymType P R := {|
  yy_name := yy_name y;
  yy_numberRepr := yy_numberRepr y;
  yy_Number := yy_Number y;
  yy_Real := yy_Real y;
  yy_TagDefault := yy_TagDefault y;
  yy_ExtensionDefault := yy_ExtensionDefault y;
  yy_ModuleIdentifier := yy_ModuleIdentifier y;
  yy_DefinitiveObjIdComponent := yy_DefinitiveObjIdComponent y;
  yy_DefinitiveObjIdComponentList := yy_DefinitiveObjIdComponentList y;
  yy_DefinitiveIdentifier := yy_DefinitiveIdentifier y;
  yy_Type := yy_Type y;
  yy_ObjectIdElement := yy_ObjectIdElement y;
  yy_DefinedValue := yy_DefinedValue y;
  yy_ObjectIdentifierValue := yy_ObjectIdentifierValue y;
  yy_Value := yy_Value y;
  yy_Assignment := yy_Assignment y;
  yy_AssignmentList := yy_AssignmentList y;
  yy_ModuleBody := yy_ModuleBody y;
  yy_ValueReference := yy_ValueReference y;
  yy_TypeReference := yy_TypeReference y;
  yy_Constraint := yy_Constraint y;
  yy_ConstraintSpec := yy_ConstraintSpec y;
  yy_ElementSetSpec := yy_ElementSetSpec y;
  yy_Unions := yy_Unions y;
  yy_Intersections := yy_Intersections y;
  yy_IntersectionElements := yy_IntersectionElements y;
  yy_Exclusions := yy_Exclusions y;
  yy_Elements := yy_Elements y;
  yy_SubtypeConstraint := yy_SubtypeConstraint y;
  yy_RangeEndpoint := yy_RangeEndpoint y;
  yy_NamedType := yy_NamedType y;
  yy_ComponentType := yy_ComponentType y;
  yy_ComponentTypeLists := yy_ComponentTypeLists y;
  yy_ComponentTypeList := yy_ComponentTypeList y;
  yy_Tag := yy_Tag y;
  yy_Class := yy_Class y;
  yy_NamedBitList := yy_NamedBitList y;
  yy_NamedBit := yy_NamedBit y;
  yy_Imports := yy_Imports y;
  yy_SymbolsFromModule := yy_SymbolsFromModule y;
  yy_SymbolList := yy_SymbolList y;
  yy_Symbol := yy_Symbol y;
  yy_GlobalModuleReference := yy_GlobalModuleReference y;
  yy_AlternativeTypeList := yy_AlternativeTypeList y;
  yy_ChoiceType := yy_ChoiceType y;
  yy_ExtensionAdditionAlternative := yy_ExtensionAdditionAlternative y;
  yy_ExtensionAdditionAlternativesList := yy_ExtensionAdditionAlternativesList y;
  yy_ExtensionAdditions := yy_ExtensionAdditions y;
  yy_NamedNumberList := x;
  yy_NamedNumber := yy_NamedNumber y;
  yy_EnumeratedType := yy_EnumeratedType y;
  yy_Enumeration := yy_Enumeration y;
  yy_EnumerationItem := yy_EnumerationItem y
|}.

(** yyVAL.NamedNumber = x *)
Definition set_NamedNumber {P R : Type} (y : yySymType P R) (x : NamedNumber) : yySymType P R := {|
  yy_name := yy_name y;
  yy_numberRepr := yy_numberRepr y;
  yy_Number := yy_Number y;
  yy_Real := yy_Real y;
  yy_TagDefault := yy_TagDefault y;
  yy_ExtensionDefault := yy_ExtensionDefault y;
  yy_ModuleIdentifier := yy_ModuleIdentifier y;
  yy_DefinitiveObjIdComponent := yy_DefinitiveObjIdComponent y;
  yy_DefinitiveObjIdComponentList := yy_DefinitiveObjIdComponentList y;
  yy_DefinitiveIdentifier := yy_DefinitiveIdentifier y;
  yy_Type := yy_Type y;
  yy_ObjectIdElement := yy_ObjectIdElement y;
  yy_DefinedValue := yy_DefinedValue y;
  yy_ObjectIdentifierValue := yy_ObjectIdentifierValue y;
  yy_Value := yy_Value y;
  yy_Assignment := yy_Assignment y;
  yy_AssignmentList := yy_AssignmentList y;
  yy_ModuleBody := yy_ModuleBody y;
  yy_ValueReference := yy_ValueReference y;
  yy_TypeReference := yy_TypeReference y;
  yy_Constraint := yy_Constraint y;
  yy_ConstraintSpec := yy_ConstraintSpec y;
  yy_ElementSetSpec := yy_ElementSetSpec y;
  yy_Unions := yy_Unions y;
  yy_Intersections := yy_Intersections y;
  yy_IntersectionElements := yy_IntersectionElements y;
  yy_Exclusions := yy_Exclusions y;
  yy_Elements := yy_Elements y;
  yy_SubtypeConstraint := yy_SubtypeConstraint y;
  yy_RangeEndpoint := yy_RangeEndpoint y;
  yy_NamedType := yy_NamedType y;
  yy_ComponentType := yy_ComponentType y;
  yy_ComponentTypeLists := yy_ComponentTypeLists y;
  yy_ComponentTypeList := yy_ComponentTypeList y;
  yy_Tag := yy_Tag y;
  yy_Class := yy_Class y;
  yy_NamedBitList := yy_NamedBitList y;
  yy_NamedBit := yy_NamedBit y;
  yy_Imports := yy_Imports y;
  yy_SymbolsFromModule := yy_SymbolsFromModule y;
  yy_SymbolList := yy_SymbolList y;
  yy_Symbol := yy_Symbol y;
  yy_GlobalModuleReference := yy_GlobalModuleReference y;
  yy_AlternativeTypeList := yy_AlternativeTypeList y;
  yy_ChoiceType := yy_ChoiceType y;
  yy_ExtensionAdditionAlternative := yy_ExtensionAdditionAlternative y;
  yy_ExtensionAdditionAlternativesList := yy_ExtensionAdditionAlternativesList y;
  yy_ExtensionAdditions := yy_ExtensionAdditions y;
  yy_NamedNumberList := yy_NamedNumberList y;
  yy_NamedNumber := x;
  yy_EnumeratedType := yy_EnumeratedType y;
  yy_Enumeration := yy_Enumeration y;
  yy_EnumerationItem := yy_EnumerationItem y
|}.

(** yyVAL.EnumeratedType = x *)
Definition set_EnumeratedType {P R : Type} (y : yySymType P R) (x : EnumeratedType) : yySymType P R := {|
  yy_name := yy_name y;
  yy_numberRepr := yy_numberRepr y;
  yy_Number := yy_Number y;
  yy_Real := yy_Real y;
  yy_TagDefault := yy_TagDefault y;
  yy_ExtensionDefault := yy_ExtensionDefault y;
  yy_ModuleIdentifier := yy_ModuleIdentifier y;
  yy_DefinitiveObjIdComponent := yy_DefinitiveObjIdComponent y;
  yy_DefinitiveObjIdComponentList := yy_DefinitiveObjIdComponentList y;
  yy_DefinitiveIdentifier := yy_DefinitiveIdentifier y;
  yy_Type := yy_Type y;
  yy_ObjectIdElement := yy_ObjectIdElement y;
  yy_DefinedValue := yy_DefinedValue y;
  yy_ObjectIdentifierValue := yy_ObjectIdentifierValue y;
  yy_Value := yy_Value y;
  yy_Assignment := yy_Assignment y;
  yy_AssignmentList := yy_AssignmentList y;
  yy_ModuleBody := yy_ModuleBody y;
  yy_ValueReference := yy_ValueReference y;
  yy_TypeReference := yy_TypeReference y;
  yy_Constraint := yy_Constraint y;
  yy_ConstraintSpec := yy_ConstraintSpec y;
  yy_ElementSetSpec := yy_ElementSetSpec y;
  yy_Unions := yy_Unions y;
  yy_Intersections := yy_Intersections y;
  yy_IntersectionElements := yy_IntersectionElements y;
  yy_Exclusions := yy_Exclusions y;
  yy_Elements := yy_Elements y;
  yy_SubtypeConstraint := yy_SubtypeConstraint y;
  yy_RangeEndpoint := yy_RangeEndpoint y;
  yy_NamedType := yy_NamedType y;
  yy_ComponentType := yy_ComponentType y;
  yy_ComponentTypeLists := yy_ComponentTypeLists y;
  yy_ComponentTypeList := yy_ComponentTypeList y;
  yy_Tag := yy_Tag y;
  yy_Class := yy_Class y;
  yy_NamedBitList := yy_NamedBitList y;
  yy_NamedBit := yy_NamedBit y;
  yy_Imports := yy_Imports y;
  yy_SymbolsFromModule := yy_SymbolsFromModule y;
  yy_SymbolList := yy_SymbolList y;
  yy_Symbol := yy_Symbol y;
  yy_GlobalModuleReference := yy_GlobalModuleReference y;
  yy_AlternativeTypeList := yy_AlternativeTypeList y;
  yy_ChoiceType := yy_ChoiceType y;
  yy_ExtensionAdditionAlternative := yy_ExtensionAdditionAlternative y;
  yy_ExtensionAdditionAlternativesList := yy_ExtensionAdditionAlternativesList y;
  yy_ExtensionAdditions := yy_ExtensionAdditions y;
  yy_NamedNumberList := yy_NamedNumberList y;
  yy_NamedNumber := yy_NamedNumber y;
  yy_EnumeratedType := x;
  yy_Enumeration := yy_Enumeration y;
  yy_EnumerationItem := yy_EnumerationItem y
|}.

(** yyVAL.Enumeration = x *)
Definition set_Enumeration {P R : Type} (y : yySymType P R) (x : list (EnumerationItem)) : yySymType P R := {|
  yy_name := yy_name y;
  yy_numberRepr := yy_numberRepr y;
  yy_Number := yy_Number y;
  yy_Real := yy_Real y;
  yy_TagDefault := yy_TagDefault y;
  yy_ExtensionDefault := yy_ExtensionDefault y;
  yy_ModuleIdentifier := yy_ModuleIdentifier y;
  yy_DefinitiveObjIdComponent := yy_DefinitiveObjIdComponent y;
  yy_DefinitiveObjIdComponentList := yy_DefinitiveObjIdComponentList y;
  yy_DefinitiveIdentifier := yy_DefinitiveIdentifier y;
  yy_Type := yy_Type y;
  yy_ObjectIdElement := yy_ObjectIdElement y;
  yy_DefinedValue := yy_DefinedValue y;
  yy_ObjectIdentifierValue := yy_ObjectIdentifierValue y;
  yy_Value := yy_Value y;
  yy_Assignment := yy_Assignment y;
  yy_AssignmentList := yy_AssignmentList y;
  yy_ModuleBody := yy_ModuleBody y;
  yy_ValueReference := yy_ValueReference y;
  yy_TypeReference := yy_TypeReference y;
  yy_Constraint := yy_Constraint y;
  yy_ConstraintSpec := yy_ConstraintSpec y;
  yy_ElementSetSpec := yy_ElementSetSpec y;
  yy_Unions := yy_Unions y;
  yy_Intersections := yy_Intersections y;
  yy_IntersectionElements := yy_IntersectionElements y;
  yy_Exclusions := yy_Exclusions y;
  yy_Elements := yy_Elements y;
  yy_SubtypeConstraint := yy_SubtypeConstraint y;
  yy_RangeEndpoint := yy_RangeEndpoint y;
  yy_NamedType := yy_NamedType y;
  yy_ComponentType := yy_ComponentType y;
  yy_ComponentTypeLists := yy_ComponentTypeLists y;
  yy_ComponentTypeList := yy_ComponentTypeList y;
  yy_Tag := yy_Tag y;
  yy_Class := yy_Class y;
  yy_NamedBitList := yy_NamedBitList y;
  yy_NamedBit := yy_NamedBit y;
  yy_Imports := yy_Imports y;
  yy_SymbolsFromModule := yy_SymbolsFromModule y;
  yy_SymbolList := yy_SymbolList y;
  yy_Symbol := yy_Symbol y;
  yy_GlobalModuleReference := yy_GlobalModuleReference y;
  yy_AlternativeTypeList := yy_AlternativeTypeList y;
  yy_ChoiceType := yy_ChoiceType y;
  yy_ExtensionAdditionAlternative := yy_ExtensionAdditionAlternative y;
  yy_ExtensionAdditionAlternativesList := yy_ExtensionAdditionAlternativesList y;
  yy_ExtensionAdditions := yy_ExtensionAdditions y;
  yy_NamedNumberList := yy_NamedNumberList y;
  yy_NamedNumber := yy_NamedNumber y;
  yy_EnumeratedType := yy_EnumeratedType y;
  yy_Enumeration := x;
  yy_EnumerationItem := yy_EnumerationItem y
|}.

(** yyVAL.EnumerationItem = x *)
Definition set_EnumerationItem {P R : Type} (y : yySymType P R) (x : EnumerationItem) : yySymType P R := {|
  yy_name := yy_name y;
  yy_numberRepr := yy_numberRepr y;
  yy_Number := yy_Number y;
  yy_Real := yy_Real y;
  yy_TagDefault := yy_TagDefault y;
  yy_ExtensionDefault := yy_ExtensionDefault y;
  yy_ModuleIdentifier := yy_ModuleIdentifier y;
  yy_DefinitiveObjIdComponent := yy_DefinitiveObjIdComponent y;
  yy_DefinitiveObjIdComponentList := yy_DefinitiveObjIdComponentList y;
  yy_DefinitiveIdentifier := yy_DefinitiveIdentifier y;
  yy_Type := yy_Type y;
  yy_ObjectIdElement := yy_ObjectIdElement y;
  yy_DefinedValue := yy_DefinedValue y;
  yy_ObjectIdentifierValue := yy_ObjectIdentifierValue y;
  yy_Value := yy_Value y;
  yy_Assignment := yy_Assignment y;
  yy_AssignmentList := yy_AssignmentList y;
  yy_ModuleBody := yy_ModuleBody y;
  yy_ValueReference := yy_ValueReference y;
  yy_TypeReference := yy_TypeReference y;
  yy_Constraint := yy_Constraint y;
  yy_ConstraintSpec := yy_ConstraintSpec y;
  yy_ElementSetSpec := yy_ElementSetSpec y;
  yy_Unions := yy_Unions y;
  yy_Intersections := yy_Intersections y;
  yy_IntersectionElements := yy_IntersectionElements y;
  yy_Exclusions := yy_Exclusions y;
  yy_Elements := yy_Elements y;
  yy_SubtypeConstraint := yy_SubtypeConstraint y;
  yy_RangeEndpoint := yy_RangeEndpoint y;
  yy_NamedType := yy_NamedType y;
  yy_ComponentType := yy_ComponentType y;
  yy_ComponentTypeLists := yy_ComponentTypeLists y;
  yy_ComponentTypeList := yy_ComponentTypeList y;
  yy_Tag := yy_Tag y;
  yy_Class := yy_Class y;
  yy_NamedBitList := yy_NamedBitList y;
  yy_NamedBit := yy_NamedBit y;
  yy_Imports := yy_Imports y;
  yy_SymbolsFromModule := yy_SymbolsFromModule y;
  yy_SymbolList := yy_SymbolList y;
  yy_Symbol := yy_Symbol y;
  yy_GlobalModuleReference := yy_GlobalModuleReference y;
  yy_AlternativeTypeList := yy_AlternativeTypeList y;
  yy_ChoiceType := yy_ChoiceType y;
  yy_ExtensionAdditionAlternative := yy_ExtensionAdditionAlternative y;
  yy_ExtensionAdditionAlternativesList := yy_ExtensionAdditionAlternativesList y;
  yy_ExtensionAdditions := yy_ExtensionAdditions y;
  yy_NamedNumberList := yy_NamedNumberList y;
  yy_NamedNumber := yy_NamedNumber y;
  yy_EnumeratedType := yy_EnumeratedType y;
  yy_Enumeration := yy_Enumeration y;
  yy_EnumerationItem := x
|}.

(** Following the pointers of every field (no Go counterpart, see Ast.v). *)
Definition yy_map {P R P' R' : Type} (f : P -> P') (g : R -> R') (y : yySymType P R)
  : yySymType P' R' := {|
  yy_name := yy_name y;
  yy_numberRepr := yy_numberRepr y;
  yy_Number := yy_Number y;
  yy_Real := yy_Real y;
  yy_TagDefault := yy_TagDefault y;
  yy_ExtensionDefault := yy_ExtensionDefault y;
  yy_ModuleIdentifier := yy_ModuleIdentifier y;
  yy_DefinitiveObjIdComponent := yy_DefinitiveObjIdComponent y;
  yy_DefinitiveObjIdComponentList := yy_DefinitiveObjIdComponentList y;
  yy_DefinitiveIdentifier := yy_DefinitiveIdentifier y;
  yy_Type := tmap f g (yy_Type y);
  yy_ObjectIdElement := oe_map g (yy_ObjectIdElement y);
  yy_DefinedValue := yy_DefinedValue y;
  yy_ObjectIdentifierValue := map (oe_map g) (yy_ObjectIdentifierValue y);
  yy_Value := value_map g (yy_Value y);
  yy_Assignment := amap f g (yy_Assignment y);
  yy_AssignmentList := map (amap f g) (yy_AssignmentList y);
  yy_ModuleBody := mb_map f g (yy_ModuleBody y);
  yy_ValueReference := yy_ValueReference y;
  yy_TypeReference := yy_TypeReference y;
  yy_Constraint := csmap f g (yy_Constraint y);
  yy_ConstraintSpec := csmap f g (yy_ConstraintSpec y);
  yy_ElementSetSpec := emap f g (yy_ElementSetSpec y);
  yy_Unions := map (map (imap f g)) (yy_Unions y);
  yy_Intersections := map (imap f g) (yy_Intersections y);
  yy_IntersectionElements := imap f g (yy_IntersectionElements y);
  yy_Exclusions := emap f g (yy_Exclusions y);
  yy_Elements := emap f g (yy_Elements y);
  yy_SubtypeConstraint := map (emap f g) (yy_SubtypeConstraint y);
  yy_RangeEndpoint := re_map g (yy_RangeEndpoint y);
  yy_NamedType := nmap f g (yy_NamedType y);
  yy_ComponentType := cmap f g (yy_ComponentType y);
  yy_ComponentTypeLists := ctl_map f g (yy_ComponentTypeLists y);
  yy_ComponentTypeList := map (cmap f g) (yy_ComponentTypeList y);
  yy_Tag := tag_map g (yy_Tag y);
  yy_Class := yy_Class y;
  yy_NamedBitList := map (nb_map g) (yy_NamedBitList y);
  yy_NamedBit := nb_map g (yy_NamedBit y);
  yy_Imports := map (sfm_map g) (yy_Imports y);
  yy_SymbolsFromModule := sfm_map g (yy_SymbolsFromModule y);
  yy_SymbolList := yy_SymbolList y;
  yy_Symbol := yy_Symbol y;
  yy_GlobalModuleReference := gmr_map g (yy_GlobalModuleReference y);
  yy_AlternativeTypeList := map (nmap f g) (yy_AlternativeTypeList y);
  yy_ChoiceType := ct_map f g (yy_ChoiceType y);
  yy_ExtensionAdditionAlternative := option_map (nmap f g) (yy_ExtensionAdditionAlternative y);
  yy_ExtensionAdditionAlternativesList := map (option_map (nmap f g)) (yy_ExtensionAdditionAlternativesList y);
  yy_ExtensionAdditions := map (cmap f g) (yy_ExtensionAdditions y);
  yy_NamedNumberList := yy_NamedNumberList y;
  yy_NamedNumber := yy_NamedNumber y;
  yy_EnumeratedType := yy_EnumeratedType y;
  yy_Enumeration := yy_Enumeration y;
  yy_EnumerationItem := yy_EnumerationItem y
|}.

Section Actions.
  Context {P R : Type}.
  (** Taking the address of a field of the stack: [&yyDollar[k].Value] and
      [&yyDollar[k].DefinedValue], given the index [k] and the present content;
      [new_DefinedValue] is the address of a fresh variable with that content. *)
  Context (addr_Value : nat -> value R -> P).
  Context (addr_DefinedValue : nat -> DefinedValue -> R).
  Context (new_DefinedValue : DefinedValue -> R).

  (** What an action does: new yyVAL and, for rule 1, the assignment to
      lexer.result.  [d k] is yyDollar[k], [v] is yyVAL after its default
      assignment. *)
  Definition action : Type :=
    (nat -> yySymType P R) -> yySymType P R -> yySymType P R * option (ModuleDefinition P R).

  (** Rules without an action: yyVAL keeps its default. *)
  Definition act_default : action := fun _ v => (v, None).

  (** y.go:1063-1068: case 1 *)
  Definition act_1 : action := fun d v =>
    (v, Some {| md_ModuleIdentifier := (yy_ModuleIdentifier (d 1%nat)); md_TagDefault := (yy_TagDefault (d 3%nat)); md_ExtensibilityImplied := (yy_ExtensionDefault (d 4%nat)); md_ModuleBody := (yy_ModuleBody (d 7%nat)) |}).

  (** y.go:1069-1074: TypeReference(yyDollar[1].name) *)
  Definition act_2 : action := fun d v =>
    (set_TypeReference v (yy_name (d 1%nat)), None).

  (** y.go:1075-1080: ValueReference(yyDollar[1].name) *)
  Definition act_4 : action := fun d v =>
    (set_ValueReference v (yy_name (d 1%nat)), None).

  (** y.go:1081-1086: ModuleIdentifier{Reference: yyDollar[1].name, DefinitiveIdentifier: yyDollar[2].DefinitiveIdentifier} *)
  Definition act_7 : action := fun d v =>
    (set_ModuleIdentifier v {| mi_Reference := (yy_name (d 1%nat)); mi_DefinitiveIdentifier := (yy_DefinitiveIdentifier (d 2%nat)) |}, None).

  (** y.go:1087-1092: DefinitiveIdentifier(yyDollar[2].DefinitiveObjIdComponentList) *)
  Definition act_8 : action := fun d v =>
    (set_DefinitiveIdentifier v (yy_DefinitiveObjIdComponentList (d 2%nat)), None).

  (** y.go:1093-1098: DefinitiveIdentifier(make([]DefinitiveObjIdComponent, 0)) *)
  Definition act_9 : action := fun d v =>
    (set_DefinitiveIdentifier v [], None).

  (** y.go:1099-1104: append(make([]DefinitiveObjIdComponent, 0), yyDollar[1].DefinitiveObjIdComponent) *)
  Definition act_10 : action := fun d v =>
    (set_DefinitiveObjIdComponentList v ([] ++ [(yy_DefinitiveObjIdComponent (d 1%nat))]), None).

  (** y.go:1105-1110: append(append(make([]DefinitiveObjIdComponent, 0), yyDollar[1].DefinitiveObjIdComponent), yyDollar[2].DefinitiveObjIdComponentList...) *)
  Definition act_11 : action := fun d v =>
    (set_DefinitiveObjIdComponentList v (([] ++ [(yy_DefinitiveObjIdComponent (d 1%nat))]) ++ (yy_DefinitiveObjIdComponentList (d 2%nat))), None).

  (** y.go:1111-1116: DefinitiveObjIdComponent{Name: yyDollar[1].name} *)
  Definition act_12 : action := fun d v =>
    (set_DefinitiveObjIdComponent v {| doc_Name := (yy_name (d 1%nat)); doc_Id := 0 |}, None).

  (** y.go:1117-1122: DefinitiveObjIdComponent{Id: yyDollar[1].Number.IntValue()} *)
  Definition act_13 : action := fun d v =>
    (set_DefinitiveObjIdComponent v {| doc_Name := ""; doc_Id := (yy_Number (d 1%nat)) |}, None).

  (** y.go:1123-1128: yyDollar[1].DefinitiveObjIdComponent *)
  Definition act_14 : action := fun d v =>
    (set_DefinitiveObjIdComponent v (yy_DefinitiveObjIdComponent (d 1%nat)), None).

  (** y.go:1129-1134: yyDollar[1].Number *)
  Definition act_15 : action := fun d v =>
    (set_Number v (yy_Number (d 1%nat)), None).

  (** y.go:1135-1140: DefinitiveObjIdComponent{Name: yyDollar[1].name, Id: yyDollar[3].Number.IntValue()} *)
  Definition act_16 : action := fun d v =>
    (set_DefinitiveObjIdComponent v {| doc_Name := (yy_name (d 1%nat)); doc_Id := (yy_Number (d 3%nat)) |}, None).

  (** y.go:1141-1146: TAGS_EXPLICIT *)
  Definition act_17 : action := fun d v =>
    (set_TagDefault v TAGS_EXPLICIT, None).

  (** y.go:1147-1152: TAGS_IMPLICIT *)
  Definition act_18 : action := fun d v =>
    (set_TagDefault v TAGS_IMPLICIT, None).

  (** y.go:1153-1158: TAGS_AUTOMATIC *)
  Definition act_19 : action := fun d v =>
    (set_TagDefault v TAGS_AUTOMATIC, None).

  (** y.go:1159-1164: TAGS_EXPLICIT *)
  Definition act_20 : action := fun d v =>
    (set_TagDefault v TAGS_EXPLICIT, None).

  (** y.go:1165-1170: true *)
  Definition act_21 : action := fun d v =>
    (set_ExtensionDefault v true, None).

  (** y.go:1171-1176: false *)
  Definition act_22 : action := fun d v =>
    (set_ExtensionDefault v false, None).

  (** y.go:1177-1182: ModuleBody{Imports: yyDollar[2].Imports, AssignmentList: yyDollar[3].AssignmentList} *)
  Definition act_23 : action := fun d v =>
    (set_ModuleBody v {| mb_AssignmentList := (yy_AssignmentList (d 3%nat)); mb_Imports := (yy_Imports (d 2%nat)) |}, None).

  (** y.go:1183-1188: ModuleBody{} *)
  Definition act_24 : action := fun d v =>
    (set_ModuleBody v {| mb_AssignmentList := []; mb_Imports := [] |}, None).

  (** y.go:1189-1194: yyDollar[2].Imports *)
  Definition act_30 : action := fun d v =>
    (set_Imports v (yy_Imports (d 2%nat)), None).

  (** y.go:1195-1200: make([]SymbolsFromModule, 0) *)
  Definition act_31 : action := fun d v =>
    (set_Imports v [], None).

  (** y.go:1201-1206: yyDollar[1].Imports *)
  Definition act_32 : action := fun d v =>
    (set_Imports v (yy_Imports (d 1%nat)), None).

  (** y.go:1207-1212: make([]SymbolsFromModule, 0) *)
  Definition act_33 : action := fun d v =>
    (set_Imports v [], None).

  (** y.go:1213-1218: append(make([]SymbolsFromModule, 0), yyDollar[1].SymbolsFromModule) *)
  Definition act_34 : action := fun d v =>
    (set_Imports v ([] ++ [(yy_SymbolsFromModule (d 1%nat))]), None).

  (** y.go:1219-1224: append(yyDollar[1].Imports, yyDollar[2].SymbolsFromModule) *)
  Definition act_35 : action := fun d v =>
    (set_Imports v ((yy_Imports (d 1%nat)) ++ [(yy_SymbolsFromModule (d 2%nat))]), None).

  (** y.go:1225-1230: SymbolsFromModule{yyDollar[1].SymbolList, yyDollar[3].GlobalModuleReference} *)
  Definition act_36 : action := fun d v =>
    (set_SymbolsFromModule v {| sfm_SymbolList := (yy_SymbolList (d 1%nat)); sfm_Module := (yy_GlobalModuleReference (d 3%nat)) |}, None).

  (** y.go:1231-1236: GlobalModuleReference{yyDollar[1].name, yyDollar[2].Value} *)
  Definition act_37 : action := fun d v =>
    (set_GlobalModuleReference v {| gmr_Reference := (yy_name (d 1%nat)); gmr_AssignedIdentifier := (yy_Value (d 2%nat)) |}, None).

  (** y.go:1237-1242: yyDollar[1].ObjectIdentifierValue *)
  Definition act_38 : action := fun d v =>
    (set_Value v (VObjectIdentifier (yy_ObjectIdentifierValue (d 1%nat))), None).

  (** y.go:1243-1248: yyDollar[1].DefinedValue *)
  Definition act_39 : action := fun d v =>
    (set_Value v (VDefined (yy_DefinedValue (d 1%nat))), None).

  (** y.go:1249-1254: nil *)
  Definition act_40 : action := fun d v =>
    (set_Value v VNil, None).

  (** y.go:1255-1260: append(make([]Symbol, 0), yyDollar[1].Symbol) *)
  Definition act_41 : action := fun d v =>
    (set_SymbolList v ([] ++ [(yy_Symbol (d 1%nat))]), None).

  (** y.go:1261-1266: append(yyDollar[1].SymbolList, yyDollar[3].Symbol) *)
  Definition act_42 : action := fun d v =>
    (set_SymbolList v ((yy_SymbolList (d 1%nat)) ++ [(yy_Symbol (d 3%nat))]), None).

  (** y.go:1267-1272: TypeReference(yyDollar[1].TypeReference) *)
  Definition act_44 : action := fun d v =>
    (set_Symbol v (SymType (yy_TypeReference (d 1%nat))), None).

  (** y.go:1273-1278: ModuleReference(yyDollar[1].name) *)
  Definition act_45 : action := fun d v =>
    (set_Symbol v (SymModule (yy_name (d 1%nat))), None).

  (** y.go:1279-1284: ValueReference(yyDollar[1].ValueReference) *)
  Definition act_46 : action := fun d v =>
    (set_Symbol v (SymValue (yy_ValueReference (d 1%nat))), None).

  (** y.go:1285-1290: AssignmentList{yyDollar[1].Assignment} *)
  Definition act_47 : action := fun d v =>
    (set_AssignmentList v [(yy_Assignment (d 1%nat))], None).

  (** y.go:1291-1296: append(yyDollar[1].AssignmentList, yyDollar[2].Assignment) *)
  Definition act_48 : action := fun d v =>
    (set_AssignmentList v ((yy_AssignmentList (d 1%nat)) ++ [(yy_Assignment (d 2%nat))]), None).

  (** y.go:1297-1302: yyDollar[1].TypeReference *)
  Definition act_51 : action := fun d v =>
    (set_Type v (TReference (yy_TypeReference (d 1%nat))), None).

  (** y.go:1303-1308: DefinedValue{ModuleReference(yyDollar[1].name), yyDollar[3].ValueReference} *)
  Definition act_52 : action := fun d v =>
    (set_DefinedValue v {| dv_ModuleName := (yy_name (d 1%nat)); dv_ValueName := (yy_ValueReference (d 3%nat)) |}, None).

  (** y.go:1309-1314: DefinedValue{ValueName: yyDollar[1].ValueReference} *)
  Definition act_53 : action := fun d v =>
    (set_DefinedValue v {| dv_ModuleName := ""; dv_ValueName := (yy_ValueReference (d 1%nat)) |}, None).

  (** y.go:1315-1320: TypeAssignment{yyDollar[1].TypeReference, yyDollar[3].Type} *)
  Definition act_54 : action := fun d v =>
    (set_Assignment v (AType (yy_TypeReference (d 1%nat)) (yy_Type (d 3%nat))), None).

  (** y.go:1321-1326: ValueAssignment{yyDollar[1].ValueReference, yyDollar[2].Type, yyDollar[4].Value} *)
  Definition act_55 : action := fun d v =>
    (set_Assignment v (AValue (yy_ValueReference (d 1%nat)) (yy_Type (d 2%nat)) (yy_Value (d 4%nat))), None).

  (** y.go:1327-1332: NamedType{Identifier: Identifier(yyDollar[1].name), Type: yyDollar[2].Type} *)
  Definition act_77 : action := fun d v =>
    (set_NamedType v (Named (yy_name (d 1%nat)) (yy_Type (d 2%nat))), None).

  (** y.go:1333-1338: yyDollar[1].ObjectIdentifierValue *)
  Definition act_81 : action := fun d v =>
    (set_Value v (VObjectIdentifier (yy_ObjectIdentifierValue (d 1%nat))), None).

  (** y.go:1339-1344: BooleanType{} *)
  Definition act_83 : action := fun d v =>
    (set_Type v TBoolean, None).

  (** y.go:1345-1350: Boolean(true) *)
  Definition act_84 : action := fun d v =>
    (set_Value v (VBoolean true), None).

  (** y.go:1351-1356: Boolean(false) *)
  Definition act_85 : action := fun d v =>
    (set_Value v (VBoolean false), None).

  (** y.go:1357-1362: IntegerType{} *)
  Definition act_86 : action := fun d v =>
    (set_Type v (TInteger []), None).

  (** y.go:1363-1368: IntegerType{yyDollar[3].NamedNumberList} *)
  Definition act_87 : action := fun d v =>
    (set_Type v (TInteger (yy_NamedNumberList (d 3%nat))), None).

  (** y.go:1369-1374: []NamedNumber{yyDollar[1].NamedNumber} *)
  Definition act_88 : action := fun d v =>
    (set_NamedNumberList v [(yy_NamedNumber (d 1%nat))], None).

  (** y.go:1375-1380: append(yyDollar[1].NamedNumberList, yyDollar[3].NamedNumber) *)
  Definition act_89 : action := fun d v =>
    (set_NamedNumberList v ((yy_NamedNumberList (d 1%nat)) ++ [(yy_NamedNumber (d 3%nat))]), None).

  (** y.go:1381-1386: NamedNumber{Identifier(yyDollar[1].name), yyDollar[3].Number} *)
  Definition act_90 : action := fun d v =>
    (set_NamedNumber v {| nn_Name := (yy_name (d 1%nat)); nn_Value := (NNumber (yy_Number (d 3%nat))) |}, None).

  (** y.go:1387-1392: NamedNumber{Identifier(yyDollar[1].name), yyDollar[3].DefinedValue} *)
  Definition act_91 : action := fun d v =>
    (set_NamedNumber v {| nn_Name := (yy_name (d 1%nat)); nn_Value := (NDefined (yy_DefinedValue (d 3%nat))) |}, None).

  (** y.go:1393-1398: yyDollar[1].Number *)
  Definition act_92 : action := fun d v =>
    (set_Number v (yy_Number (d 1%nat)), None).

  (** y.go:1399-1404: yyDollar[2].Number.UnaryMinus() *)
  Definition act_93 : action := fun d v =>
    (set_Number v (wrap64 (- (yy_Number (d 2%nat)))), None).

  (** y.go:1405-1410: yyDollar[1].Number *)
  Definition act_94 : action := fun d v =>
    (set_Value v (VNumber (yy_Number (d 1%nat))), None).

  (** y.go:1411-1416: IdentifiedIntegerValue{Name: yyDollar[1].name} *)
  Definition act_95 : action := fun d v =>
    (set_Value v (VIdentifiedInteger (yy_name (d 1%nat))), None).

  (** y.go:1417-1422: yyDollar[3].EnumeratedType *)
  Definition act_96 : action := fun d v =>
    (set_Type v (TEnumerated (yy_EnumeratedType (d 3%nat))), None).

  (** y.go:1423-1428: EnumeratedType{RootEnumeration: yyDollar[1].Enumeration} *)
  Definition act_97 : action := fun d v =>
    (set_EnumeratedType v {| et_RootEnumeration := (yy_Enumeration (d 1%nat)); et_AdditionalEnumeration := [] |}, None).

  (** y.go:1429-1434: EnumeratedType{RootEnumeration: yyDollar[1].Enumeration} *)
  Definition act_98 : action := fun d v =>
    (set_EnumeratedType v {| et_RootEnumeration := (yy_Enumeration (d 1%nat)); et_AdditionalEnumeration := [] |}, None).

  (** y.go:1435-1440: EnumeratedType{RootEnumeration: yyDollar[1].Enumeration, AdditionalEnumeration: yyDollar[6].Enumeration} *)
  Definition act_99 : action := fun d v =>
    (set_EnumeratedType v {| et_RootEnumeration := (yy_Enumeration (d 1%nat)); et_AdditionalEnumeration := (yy_Enumeration (d 6%nat)) |}, None).

  (** y.go:1441-1446: []EnumerationItem{yyDollar[1].EnumerationItem} *)
  Definition act_102 : action := fun d v =>
    (set_Enumeration v [(yy_EnumerationItem (d 1%nat))], None).

  (** y.go:1447-1452: append([]EnumerationItem{yyDollar[1].EnumerationItem}, yyDollar[3].Enumeration...) *)
  Definition act_103 : action := fun d v =>
    (set_Enumeration v ([(yy_EnumerationItem (d 1%nat))] ++ (yy_Enumeration (d 3%nat))), None).

  (** y.go:1453-1458: yyDollar[1].NamedNumber *)
  Definition act_104 : action := fun d v =>
    (set_EnumerationItem v (EINumber (yy_NamedNumber (d 1%nat))), None).

  (** y.go:1459-1464: Identifier(yyDollar[1].name) *)
  Definition act_105 : action := fun d v =>
    (set_EnumerationItem v (EIIdentifier (yy_name (d 1%nat))), None).

  (** y.go:1465-1470: RealType{} *)
  Definition act_106 : action := fun d v =>
    (set_Type v TReal, None).

  (** y.go:1471-1476: yyDollar[1].Real *)
  Definition act_109 : action := fun d v =>
    (set_Value v (VReal (yy_Real (d 1%nat))), None).

  (** y.go:1477-1482: yyDollar[2].Real.UnaryMinus() *)
  Definition act_110 : action := fun d v =>
    (set_Value v (VReal (SFopp (yy_Real (d 2%nat)))), None).

  (** y.go:1483-1488: Real(math.Inf(1)) *)
  Definition act_111 : action := fun d v =>
    (set_Value v (VReal (S754_infinity false)), None).

  (** y.go:1489-1494: Real(math.Inf(-1)) *)
  Definition act_112 : action := fun d v =>
    (set_Value v (VReal (S754_infinity true)), None).

  (** y.go:1495-1500: parseRealNumber(yyDollar[1].Number, 0, 0) *)
  Definition act_113 : action := fun d v =>
    (set_Real v (parseRealNumber (yy_Number (d 1%nat)) 0 0), None).

  (** y.go:1501-1506: parseRealNumber(yyDollar[1].Number, yyDollar[3].Number, 0) *)
  Definition act_114 : action := fun d v =>
    (set_Real v (parseRealNumber (yy_Number (d 1%nat)) (yy_Number (d 3%nat)) 0), None).

  (** y.go:1507-1512: parseRealNumber(yyDollar[1].Number, yyDollar[3].Number, yyDollar[5].Number) *)
  Definition act_115 : action := fun d v =>
    (set_Real v (parseRealNumber (yy_Number (d 1%nat)) (yy_Number (d 3%nat)) (yy_Number (d 5%nat))), None).

  (** y.go:1513-1518: parseRealNumber(yyDollar[1].Number, 0, yyDollar[3].Number) *)
  Definition act_116 : action := fun d v =>
    (set_Real v (parseRealNumber (yy_Number (d 1%nat)) 0 (yy_Number (d 3%nat))), None).

  (** y.go:1519-1524: Number(-int(yyDollar[2].Number)) *)
  Definition act_118 : action := fun d v =>
    (set_Number v (wrap64 (- (yy_Number (d 2%nat)))), None).

  (** y.go:1525-1530: BitStringType{} *)
  Definition act_119 : action := fun d v =>
    (set_Type v (TBitString []), None).

  (** y.go:1531-1536: BitStringType{NamedBits: yyDollar[4].NamedBitList} *)
  Definition act_120 : action := fun d v =>
    (set_Type v (TBitString (yy_NamedBitList (d 4%nat))), None).

  (** y.go:1537-1542: append(make([]NamedBit, 0), yyDollar[1].NamedBit) *)
  Definition act_121 : action := fun d v =>
    (set_NamedBitList v ([] ++ [(yy_NamedBit (d 1%nat))]), None).

  (** y.go:1543-1548: append(yyDollar[1].NamedBitList, yyDollar[3].NamedBit) *)
  Definition act_122 : action := fun d v =>
    (set_NamedBitList v ((yy_NamedBitList (d 1%nat)) ++ [(yy_NamedBit (d 3%nat))]), None).

  (** y.go:1549-1554: NamedBit{Name: Identifier(yyDollar[1].name), Index: yyDollar[3].Number} *)
  Definition act_123 : action := fun d v =>
    (set_NamedBit v {| nb_Name := (yy_name (d 1%nat)); nb_Index := (VNumber (yy_Number (d 3%nat))) |}, None).

  (** y.go:1555-1560: NamedBit{Name: Identifier(yyDollar[1].name), Index: yyDollar[3].DefinedValue} *)
  Definition act_124 : action := fun d v =>
    (set_NamedBit v {| nb_Name := (yy_name (d 1%nat)); nb_Index := (VDefined (yy_DefinedValue (d 3%nat))) |}, None).

  (** y.go:1561-1566: OctetStringType{} *)
  Definition act_125 : action := fun d v =>
    (set_Type v TOctetString, None).

  (** y.go:1567-1572: NullType{} *)
  Definition act_126 : action := fun d v =>
    (set_Type v TNull, None).

  (** y.go:1573-1578: SequenceType{} *)
  Definition act_127 : action := fun d v =>
    (set_Type v (TSequence [] []), None).

  (** y.go:1579-1584: SequenceType{} *)
  Definition act_128 : action := fun d v =>
    (set_Type v (TSequence [] []), None).

  (** y.go:1585-1590: case 129 *)
  Definition act_129 : action := fun d v =>
    (set_Type v (TSequence ((ctl_Components (yy_ComponentTypeLists (d 3%nat))) ++ (ctl_TrailingComponents (yy_ComponentTypeLists (d 3%nat)))) (ctl_ExtensionAdditions (yy_ComponentTypeLists (d 3%nat)))), None).

  (** y.go:1591-1596: ComponentTypeLists{Components: yyDollar[1].ComponentTypeList} *)
  Definition act_134 : action := fun d v =>
    (set_ComponentTypeLists v {| ctl_Components := (yy_ComponentTypeList (d 1%nat)); ctl_ExtensionAdditions := []; ctl_TrailingComponents := [] |}, None).

  (** y.go:1597-1602: ComponentTypeLists{Components: yyDollar[1].ComponentTypeList, ExtensionAdditions: yyDollar[4].ExtensionAdditions} *)
  Definition act_135 : action := fun d v =>
    (set_ComponentTypeLists v {| ctl_Components := (yy_ComponentTypeList (d 1%nat)); ctl_ExtensionAdditions := (yy_ExtensionAdditions (d 4%nat)); ctl_TrailingComponents := [] |}, None).

  (** y.go:1603-1608: case 136 *)
  Definition act_136 : action := fun d v =>
    (set_ComponentTypeLists v {| ctl_Components := (yy_ComponentTypeList (d 1%nat)); ctl_ExtensionAdditions := (yy_ExtensionAdditions (d 4%nat)); ctl_TrailingComponents := (yy_ComponentTypeList (d 7%nat)) |}, None).

  (** y.go:1609-1614: yyDollar[2].ExtensionAdditions *)
  Definition act_139 : action := fun d v =>
    (set_ExtensionAdditions v (yy_ExtensionAdditions (d 2%nat)), None).

  (** y.go:1615-1620: nil *)
  Definition act_140 : action := fun d v =>
    (set_ExtensionAdditions v [], None).

  (** y.go:1621-1626: append([]ExtensionAddition{}, yyDollar[1].ExtensionAdditions...) *)
  Definition act_141 : action := fun d v =>
    (set_ExtensionAdditions v ([] ++ (yy_ExtensionAdditions (d 1%nat))), None).

  (** y.go:1627-1632: append(yyDollar[1].ExtensionAdditions, yyDollar[3].ExtensionAdditions...) *)
  Definition act_142 : action := fun d v =>
    (set_ExtensionAdditions v ((yy_ExtensionAdditions (d 1%nat)) ++ (yy_ExtensionAdditions (d 3%nat))), None).

  (** y.go:1633-1638: []ExtensionAddition{yyDollar[1].ComponentType} *)
  Definition act_143 : action := fun d v =>
    (set_ExtensionAdditions v [(yy_ComponentType (d 1%nat))], None).

  (** y.go:1639-1644: nil *)
  Definition act_144 : action := fun d v =>
    (set_ExtensionAdditions v [], None).

  (** y.go:1645-1650: append(make(ComponentTypeList, 0), yyDollar[1].ComponentType) *)
  Definition act_148 : action := fun d v =>
    (set_ComponentTypeList v ([] ++ [(yy_ComponentType (d 1%nat))]), None).

  (** y.go:1651-1656: append(yyDollar[1].ComponentTypeList, yyDollar[3].ComponentType) *)
  Definition act_149 : action := fun d v =>
    (set_ComponentTypeList v ((yy_ComponentTypeList (d 1%nat)) ++ [(yy_ComponentType (d 3%nat))]), None).

  (** y.go:1657-1662: NamedComponentType{NamedType: yyDollar[1].NamedType} *)
  Definition act_150 : action := fun d v =>
    (set_ComponentType v (CNamed (yy_NamedType (d 1%nat)) false None), None).

  (** y.go:1663-1668: NamedComponentType{NamedType: yyDollar[1].NamedType, IsOptional: true} *)
  Definition act_151 : action := fun d v =>
    (set_ComponentType v (CNamed (yy_NamedType (d 1%nat)) true None), None).

  (** y.go:1669-1674: NamedComponentType{NamedType: yyDollar[1].NamedType, Default: &yyDollar[3].Value} *)
  Definition act_152 : action := fun d v =>
    (set_ComponentType v (CNamed (yy_NamedType (d 1%nat)) false (Some (addr_Value 3 (yy_Value (d 3%nat))))), None).

  (** y.go:1675-1680: ComponentsOfComponentType{Type: yyDollar[3].Type} *)
  Definition act_153 : action := fun d v =>
    (set_ComponentType v (CComponentsOf (yy_Type (d 3%nat))), None).

  (** y.go:1681-1686: SetType{} *)
  Definition act_154 : action := fun d v =>
    (set_Type v (TSet [] []), None).

  (** y.go:1687-1692: SetType{} *)
  Definition act_155 : action := fun d v =>
    (set_Type v (TSet [] []), None).

  (** y.go:1693-1698: case 156 *)
  Definition act_156 : action := fun d v =>
    (set_Type v (TSet ((ctl_Components (yy_ComponentTypeLists (d 3%nat))) ++ (ctl_TrailingComponents (yy_ComponentTypeLists (d 3%nat)))) (ctl_ExtensionAdditions (yy_ComponentTypeLists (d 3%nat)))), None).

  (** y.go:1699-1704: SetOfType{yyDollar[3].Type} *)
  Definition act_157 : action := fun d v =>
    (set_Type v (TSetOf (yy_Type (d 3%nat))), None).

  (** y.go:1705-1710: SetOfType{yyDollar[3].NamedType} *)
  Definition act_158 : action := fun d v =>
    (set_Type v (TSetOf (TNamed (yy_NamedType (d 3%nat)))), None).

  (** y.go:1711-1716: AnyType{} *)
  Definition act_159 : action := fun d v =>
    (set_Type v (TAny ""), None).

  (** y.go:1717-1722: AnyType{Identifier(yyDollar[4].name)} *)
  Definition act_160 : action := fun d v =>
    (set_Type v (TAny (yy_name (d 4%nat))), None).

  (** y.go:1723-1728: yyDollar[3].ChoiceType *)
  Definition act_161 : action := fun d v =>
    (set_Type v (let c := (yy_ChoiceType (d 3%nat)) in TChoice (ct_AlternativeTypeList c) (ct_ExtensionTypes c)), None).

  (** y.go:1729-1734: ChoiceType{yyDollar[1].AlternativeTypeList, yyDollar[4].ExtensionAdditionAlternativesList} *)
  Definition act_162 : action := fun d v =>
    (set_ChoiceType v {| ct_AlternativeTypeList := (yy_AlternativeTypeList (d 1%nat)); ct_ExtensionTypes := (yy_ExtensionAdditionAlternativesList (d 4%nat)) |}, None).

  (** y.go:1735-1740: ChoiceType{AlternativeTypeList: yyDollar[1].AlternativeTypeList} *)
  Definition act_163 : action := fun d v =>
    (set_ChoiceType v {| ct_AlternativeTypeList := (yy_AlternativeTypeList (d 1%nat)); ct_ExtensionTypes := [] |}, None).

  (** y.go:1741-1746: ChoiceType{nil, yyDollar[2].ExtensionAdditionAlternativesList} *)
  Definition act_164 : action := fun d v =>
    (set_ChoiceType v {| ct_AlternativeTypeList := []; ct_ExtensionTypes := (yy_ExtensionAdditionAlternativesList (d 2%nat)) |}, None).

  (** y.go:1747-1752: yyDollar[2].ExtensionAdditionAlternativesList *)
  Definition act_166 : action := fun d v =>
    (set_ExtensionAdditionAlternativesList v (yy_ExtensionAdditionAlternativesList (d 2%nat)), None).

  (** y.go:1753-1758: make([]ChoiceExtension, 0) *)
  Definition act_167 : action := fun d v =>
    (set_ExtensionAdditionAlternativesList v [], None).

  (** y.go:1759-1764: append(make([]ChoiceExtension, 0), yyDollar[1].ExtensionAdditionAlternative) *)
  Definition act_168 : action := fun d v =>
    (set_ExtensionAdditionAlternativesList v ([] ++ [(yy_ExtensionAdditionAlternative (d 1%nat))]), None).

  (** y.go:1765-1770: append(yyDollar[1].ExtensionAdditionAlternativesList, yyDollar[3].ExtensionAdditionAlternative) *)
  Definition act_169 : action := fun d v =>
    (set_ExtensionAdditionAlternativesList v ((yy_ExtensionAdditionAlternativesList (d 1%nat)) ++ [(yy_ExtensionAdditionAlternative (d 3%nat))]), None).

  (** y.go:1771-1776: yyDollar[1].NamedType *)
  Definition act_170 : action := fun d v =>
    (set_ExtensionAdditionAlternative v (Some (yy_NamedType (d 1%nat))), None).

  (** y.go:1777-1782: append(make([]NamedType, 0), yyDollar[1].NamedType) *)
  Definition act_172 : action := fun d v =>
    (set_AlternativeTypeList v ([] ++ [(yy_NamedType (d 1%nat))]), None).

  (** y.go:1783-1788: append(yyDollar[1].AlternativeTypeList, yyDollar[3].NamedType) *)
  Definition act_173 : action := fun d v =>
    (set_AlternativeTypeList v ((yy_AlternativeTypeList (d 1%nat)) ++ [(yy_NamedType (d 3%nat))]), None).

  (** y.go:1789-1794: TaggedType{Tag: yyDollar[1].Tag, Type: yyDollar[2].Type} *)
  Definition act_174 : action := fun d v =>
    (set_Type v (TTagged (yy_Tag (d 1%nat)) (yy_Type (d 2%nat)) 0 false), None).

  (** y.go:1795-1800: TaggedType{Tag: yyDollar[1].Tag, Type: yyDollar[3].Type, TagType: TAGS_IMPLICIT, HasTagType: true} *)
  Definition act_175 : action := fun d v =>
    (set_Type v (TTagged (yy_Tag (d 1%nat)) (yy_Type (d 3%nat)) TAGS_IMPLICIT true), None).

  (** y.go:1801-1806: TaggedType{Tag: yyDollar[1].Tag, Type: yyDollar[3].Type, TagType: TAGS_EXPLICIT, HasTagType: true} *)
  Definition act_176 : action := fun d v =>
    (set_Type v (TTagged (yy_Tag (d 1%nat)) (yy_Type (d 3%nat)) TAGS_EXPLICIT true), None).

  (** y.go:1807-1812: Tag{Class: yyDollar[2].Class, ClassNumber: yyDollar[3].Value} *)
  Definition act_177 : action := fun d v =>
    (set_Tag v {| tag_Class := (yy_Class (d 2%nat)); tag_ClassNumber := (yy_Value (d 3%nat)) |}, None).

  (** y.go:1813-1818: yyDollar[1].Number *)
  Definition act_178 : action := fun d v =>
    (set_Value v (VNumber (yy_Number (d 1%nat))), None).

  (** y.go:1819-1824: yyDollar[1].DefinedValue *)
  Definition act_179 : action := fun d v =>
    (set_Value v (VDefined (yy_DefinedValue (d 1%nat))), None).

  (** y.go:1825-1830: CLASS_UNIVERSAL *)
  Definition act_180 : action := fun d v =>
    (set_Class v CLASS_UNIVERSAL, None).

  (** y.go:1831-1836: CLASS_APPLICATION *)
  Definition act_181 : action := fun d v =>
    (set_Class v CLASS_APPLICATION, None).

  (** y.go:1837-1842: CLASS_PRIVATE *)
  Definition act_182 : action := fun d v =>
    (set_Class v CLASS_PRIVATE, None).

  (** y.go:1843-1848: CLASS_CONTEXT_SPECIFIC *)
  Definition act_183 : action := fun d v =>
    (set_Class v CLASS_CONTEXT_SPECIFIC, None).

  (** y.go:1849-1854: SequenceOfType{yyDollar[3].Type} *)
  Definition act_184 : action := fun d v =>
    (set_Type v (TSequenceOf (yy_Type (d 3%nat))), None).

  (** y.go:1855-1860: SequenceOfType{yyDollar[3].NamedType} *)
  Definition act_185 : action := fun d v =>
    (set_Type v (TSequenceOf (TNamed (yy_NamedType (d 3%nat)))), None).

  (** y.go:1861-1866: ObjectIdentifierType{} *)
  Definition act_186 : action := fun d v =>
    (set_Type v TObjectIdentifier, None).

  (** y.go:1867-1872: yyDollar[2].ObjectIdentifierValue *)
  Definition act_187 : action := fun d v =>
    (set_ObjectIdentifierValue v (yy_ObjectIdentifierValue (d 2%nat)), None).

  (** y.go:1873-1878: append(ObjectIdentifierValue{ObjectIdElement{Reference: &yyDollar[2].DefinedValue}}, yyDollar[3].ObjectIdentifierValue...) *)
  Definition act_188 : action := fun d v =>
    (set_ObjectIdentifierValue v ([{| oe_Name := ""; oe_ID := 0; oe_Reference := (Some (addr_DefinedValue 2 (yy_DefinedValue (d 2%nat)))) |}] ++ (yy_ObjectIdentifierValue (d 3%nat))), None).

  (** y.go:1879-1884: ObjectIdentifierValue{yyDollar[1].ObjectIdElement} *)
  Definition act_189 : action := fun d v =>
    (set_ObjectIdentifierValue v [(yy_ObjectIdElement (d 1%nat))], None).

  (** y.go:1885-1890: append(ObjectIdentifierValue{yyDollar[1].ObjectIdElement}, yyDollar[2].ObjectIdentifierValue...) *)
  Definition act_190 : action := fun d v =>
    (set_ObjectIdentifierValue v ([(yy_ObjectIdElement (d 1%nat))] ++ (yy_ObjectIdentifierValue (d 2%nat))), None).

  (** y.go:1891-1896: ObjectIdElement{Name: yyDollar[1].name} *)
  Definition act_191 : action := fun d v =>
    (set_ObjectIdElement v {| oe_Name := (yy_name (d 1%nat)); oe_ID := 0; oe_Reference := None |}, None).

  (** y.go:1897-1903: ObjectIdElement{Reference: &cpy} *)
  Definition act_194 : action := fun d v =>
    (set_ObjectIdElement v {| oe_Name := ""; oe_ID := 0; oe_Reference := (Some (new_DefinedValue (yy_DefinedValue (d 1%nat)))) |}, None).

  (** y.go:1904-1909: ObjectIdElement{ID: yyDollar[1].Number.IntValue()} *)
  Definition act_195 : action := fun d v =>
    (set_ObjectIdElement v {| oe_Name := ""; oe_ID := (yy_Number (d 1%nat)); oe_Reference := None |}, None).

  (** y.go:1910-1916: ObjectIdElement{Reference: &cpy} *)
  Definition act_196 : action := fun d v =>
    (set_ObjectIdElement v {| oe_Name := ""; oe_ID := 0; oe_Reference := (Some (new_DefinedValue (yy_DefinedValue (d 1%nat)))) |}, None).

  (** y.go:1917-1922: ObjectIdElement{Name: yyDollar[1].name, ID: yyDollar[3].ObjectIdElement.ID, Reference: yyDollar[3].ObjectIdElement.Reference} *)
  Definition act_197 : action := fun d v =>
    (set_ObjectIdElement v {| oe_Name := (yy_name (d 1%nat)); oe_ID := (oe_ID (yy_ObjectIdElement (d 3%nat))); oe_Reference := (oe_Reference (yy_ObjectIdElement (d 3%nat))) |}, None).

  (** y.go:1923-1928: RestrictedStringType{LexType: BMPString} *)
  Definition act_201 : action := fun d v =>
    (set_Type v (TRestrictedString T_BMPString), None).

  (** y.go:1929-1934: RestrictedStringType{LexType: GeneralString} *)
  Definition act_202 : action := fun d v =>
    (set_Type v (TRestrictedString T_GeneralString), None).

  (** y.go:1935-1940: RestrictedStringType{LexType: GraphicString} *)
  Definition act_203 : action := fun d v =>
    (set_Type v (TRestrictedString T_GraphicString), None).

  (** y.go:1941-1946: RestrictedStringType{LexType: IA5String} *)
  Definition act_204 : action := fun d v =>
    (set_Type v (TRestrictedString T_IA5String), None).

  (** y.go:1947-1952: RestrictedStringType{LexType: ISO646String} *)
  Definition act_205 : action := fun d v =>
    (set_Type v (TRestrictedString T_ISO646String), None).

  (** y.go:1953-1958: RestrictedStringType{LexType: NumericString} *)
  Definition act_206 : action := fun d v =>
    (set_Type v (TRestrictedString T_NumericString), None).

  (** y.go:1959-1964: RestrictedStringType{LexType: PrintableString} *)
  Definition act_207 : action := fun d v =>
    (set_Type v (TRestrictedString T_PrintableString), None).

  (** y.go:1965-1970: RestrictedStringType{LexType: TeletexString} *)
  Definition act_208 : action := fun d v =>
    (set_Type v (TRestrictedString T_TeletexString), None).

  (** y.go:1971-1976: RestrictedStringType{LexType: T61String} *)
  Definition act_209 : action := fun d v =>
    (set_Type v (TRestrictedString T_T61String), None).

  (** y.go:1977-1982: RestrictedStringType{LexType: UniversalString} *)
  Definition act_210 : action := fun d v =>
    (set_Type v (TRestrictedString T_UniversalString), None).

  (** y.go:1983-1988: RestrictedStringType{LexType: UTF8String} *)
  Definition act_211 : action := fun d v =>
    (set_Type v (TRestrictedString T_UTF8String), None).

  (** y.go:1989-1994: RestrictedStringType{LexType: VideotexString} *)
  Definition act_212 : action := fun d v =>
    (set_Type v (TRestrictedString T_VideotexString), None).

  (** y.go:1995-2000: RestrictedStringType{LexType: VisibleString} *)
  Definition act_213 : action := fun d v =>
    (set_Type v (TRestrictedString T_VisibleString), None).

  (** y.go:2001-2006: CharacterStringType{} *)
  Definition act_214 : action := fun d v =>
    (set_Type v TCharacterString, None).

  (** y.go:2007-2012: TypeReference("GeneralizedTime") *)
  Definition act_215 : action := fun d v =>
    (set_Type v (TReference "GeneralizedTime"), None).

  (** y.go:2013-2018: TypeReference("UTCTime") *)
  Definition act_216 : action := fun d v =>
    (set_Type v (TReference "UTCTime"), None).

  (** y.go:2019-2024: ConstraintedType{yyDollar[1].Type, yyDollar[2].Constraint} *)
  Definition act_217 : action := fun d v =>
    (set_Type v (TConstrained (yy_Type (d 1%nat)) (yy_Constraint (d 2%nat))), None).

  (** y.go:2025-2030: ConstraintedType{SetOfType{yyDollar[4].Type}, yyDollar[2].Constraint} *)
  Definition act_219 : action := fun d v =>
    (set_Type v (TConstrained (TSetOf (yy_Type (d 4%nat))) (yy_Constraint (d 2%nat))), None).

  (** y.go:2031-2036: ConstraintedType{SetOfType{yyDollar[4].Type}, SingleElementConstraint(yyDollar[2].Elements)} *)
  Definition act_220 : action := fun d v =>
    (set_Type v (TConstrained (TSetOf (yy_Type (d 4%nat))) (SingleElementConstraint (yy_Elements (d 2%nat)))), None).

  (** y.go:2037-2042: ConstraintedType{SequenceOfType{yyDollar[4].Type}, yyDollar[2].Constraint} *)
  Definition act_221 : action := fun d v =>
    (set_Type v (TConstrained (TSequenceOf (yy_Type (d 4%nat))) (yy_Constraint (d 2%nat))), None).

  (** y.go:2043-2048: ConstraintedType{SequenceOfType{yyDollar[4].Type}, SingleElementConstraint(yyDollar[2].Elements)} *)
  Definition act_222 : action := fun d v =>
    (set_Type v (TConstrained (TSequenceOf (yy_Type (d 4%nat))) (SingleElementConstraint (yy_Elements (d 2%nat)))), None).

  (** y.go:2049-2054: ConstraintedType{SetOfType{yyDollar[4].NamedType}, yyDollar[2].Constraint} *)
  Definition act_223 : action := fun d v =>
    (set_Type v (TConstrained (TSetOf (TNamed (yy_NamedType (d 4%nat)))) (yy_Constraint (d 2%nat))), None).

  (** y.go:2055-2060: ConstraintedType{SetOfType{yyDollar[4].NamedType}, SingleElementConstraint(yyDollar[2].Elements)} *)
  Definition act_224 : action := fun d v =>
    (set_Type v (TConstrained (TSetOf (TNamed (yy_NamedType (d 4%nat)))) (SingleElementConstraint (yy_Elements (d 2%nat)))), None).

  (** y.go:2061-2066: ConstraintedType{SequenceOfType{yyDollar[4].NamedType}, yyDollar[2].Constraint} *)
  Definition act_225 : action := fun d v =>
    (set_Type v (TConstrained (TSequenceOf (TNamed (yy_NamedType (d 4%nat)))) (yy_Constraint (d 2%nat))), None).

  (** y.go:2067-2072: ConstraintedType{SequenceOfType{yyDollar[4].NamedType}, SingleElementConstraint(yyDollar[2].Elements)} *)
  Definition act_226 : action := fun d v =>
    (set_Type v (TConstrained (TSequenceOf (TNamed (yy_NamedType (d 4%nat)))) (SingleElementConstraint (yy_Elements (d 2%nat)))), None).

  (** y.go:2073-2078: Constraint{ConstraintSpec: yyDollar[2].ConstraintSpec} *)
  Definition act_227 : action := fun d v =>
    (set_Constraint v (yy_ConstraintSpec (d 2%nat)), None).

  (** y.go:2079-2084: yyDollar[1].SubtypeConstraint *)
  Definition act_228 : action := fun d v =>
    (set_ConstraintSpec v (CSSubtype (yy_SubtypeConstraint (d 1%nat))), None).

  (** y.go:2085-2090: yyDollar[1].SubtypeConstraint *)
  Definition act_231 : action := fun d v =>
    (set_SubtypeConstraint v (yy_SubtypeConstraint (d 1%nat)), None).

  (** y.go:2091-2096: append(yyDollar[1].SubtypeConstraint, yyDollar[5].ElementSetSpec) *)
  Definition act_232 : action := fun d v =>
    (set_SubtypeConstraint v ((yy_SubtypeConstraint (d 1%nat)) ++ [(yy_ElementSetSpec (d 5%nat))]), None).

  (** y.go:2097-2102: SubtypeConstraint{yyDollar[1].ElementSetSpec} *)
  Definition act_233 : action := fun d v =>
    (set_SubtypeConstraint v [(yy_ElementSetSpec (d 1%nat))], None).

  (** y.go:2103-2108: yyDollar[1].Unions *)
  Definition act_235 : action := fun d v =>
    (set_ElementSetSpec v (EUnions (yy_Unions (d 1%nat))), None).

  (** y.go:2109-2114: yyDollar[2].Exclusions *)
  Definition act_236 : action := fun d v =>
    (set_ElementSetSpec v (EExclusions (yy_Exclusions (d 2%nat))), None).

  (** y.go:2115-2120: Unions{yyDollar[1].Intersections} *)
  Definition act_237 : action := fun d v =>
    (set_Unions v [(yy_Intersections (d 1%nat))], None).

  (** y.go:2121-2126: append(yyDollar[1].Unions, yyDollar[3].Intersections) *)
  Definition act_238 : action := fun d v =>
    (set_Unions v ((yy_Unions (d 1%nat)) ++ [(yy_Intersections (d 3%nat))]), None).

  (** y.go:2127-2132: Intersections{yyDollar[1].IntersectionElements} *)
  Definition act_240 : action := fun d v =>
    (set_Intersections v [(yy_IntersectionElements (d 1%nat))], None).

  (** y.go:2133-2138: append(yyDollar[1].Intersections, yyDollar[3].IntersectionElements) *)
  Definition act_241 : action := fun d v =>
    (set_Intersections v ((yy_Intersections (d 1%nat)) ++ [(yy_IntersectionElements (d 3%nat))]), None).

  (** y.go:2139-2144: IntersectionElements{Elements: yyDollar[1].Elements} *)
  Definition act_243 : action := fun d v =>
    (set_IntersectionElements v (Intersect (yy_Elements (d 1%nat)) ENil), None).

  (** y.go:2145-2150: IntersectionElements{Elements: yyDollar[1].Elements, Exclusions: yyDollar[2].Exclusions} *)
  Definition act_244 : action := fun d v =>
    (set_IntersectionElements v (Intersect (yy_Elements (d 1%nat)) (yy_Exclusions (d 2%nat))), None).

  (** y.go:2151-2156: Exclusions{yyDollar[2].Elements} *)
  Definition act_246 : action := fun d v =>
    (set_Exclusions v (yy_Elements (d 2%nat)), None).

  (** y.go:2157-2162: yyDollar[1].Elements *)
  Definition act_251 : action := fun d v =>
    (set_Elements v (yy_Elements (d 1%nat)), None).

  (** y.go:2163-2168: yyDollar[2].ElementSetSpec *)
  Definition act_252 : action := fun d v =>
    (set_Elements v (yy_ElementSetSpec (d 2%nat)), None).

  (** y.go:2169-2174: SingleValue{yyDollar[1].Value} *)
  Definition act_258 : action := fun d v =>
    (set_Elements v (ESingleValue (yy_Value (d 1%nat))), None).

  (** y.go:2175-2180: ValueRange{yyDollar[1].RangeEndpoint, yyDollar[3].RangeEndpoint} *)
  Definition act_259 : action := fun d v =>
    (set_Elements v (EValueRange (yy_RangeEndpoint (d 1%nat)) (yy_RangeEndpoint (d 3%nat))), None).

  (** y.go:2181-2186: RangeEndpoint{Value: yyDollar[1].Value} *)
  Definition act_260 : action := fun d v =>
    (set_RangeEndpoint v {| re_Value := (yy_Value (d 1%nat)); re_IsOpen := false |}, None).

  (** y.go:2187-2192: RangeEndpoint{Value: yyDollar[1].Value, IsOpen: true} *)
  Definition act_261 : action := fun d v =>
    (set_RangeEndpoint v {| re_Value := (yy_Value (d 1%nat)); re_IsOpen := true |}, None).

  (** y.go:2193-2198: RangeEndpoint{Value: yyDollar[1].Value} *)
  Definition act_262 : action := fun d v =>
    (set_RangeEndpoint v {| re_Value := (yy_Value (d 1%nat)); re_IsOpen := false |}, None).

  (** y.go:2199-2204: RangeEndpoint{Value: yyDollar[2].Value, IsOpen: true} *)
  Definition act_263 : action := fun d v =>
    (set_RangeEndpoint v {| re_Value := (yy_Value (d 2%nat)); re_IsOpen := true |}, None).

  (** y.go:2205-2210: nil *)
  Definition act_265 : action := fun d v =>
    (set_Value v VNil, None).

  (** y.go:2211-2216: nil *)
  Definition act_267 : action := fun d v =>
    (set_Value v VNil, None).

  (** y.go:2217-2222: SizeConstraint{yyDollar[2].Constraint} *)
  Definition act_268 : action := fun d v =>
    (set_Elements v (ESize (yy_Constraint (d 2%nat))), None).

  (** y.go:2223-2228: TypeConstraint{yyDollar[1].Type} *)
  Definition act_269 : action := fun d v =>
    (set_Elements v (EType (yy_Type (d 1%nat))), None).

  (** y.go:2229-2234: InnerTypeConstraint{} *)
  Definition act_270 : action := fun d v =>
    (set_Elements v EInner, None).

  (** y.go:2235-2240: InnerTypeConstraint{} *)
  Definition act_271 : action := fun d v =>
    (set_Elements v EInner, None).

  (** switch yynt, y.go:1061-2239, as a table indexed by the rule number. *)
  Definition actions : list action :=
    [act_default;
     act_1;
     act_2;
     act_default;
     act_4;
     act_default;
     act_default;
     act_7;
     act_8;
     act_9;
     act_10;
     act_11;
     act_12;
     act_13;
     act_14;
     act_15;
     act_16;
     act_17;
     act_18;
     act_19;
     act_20;
     act_21;
     act_22;
     act_23;
     act_24;
     act_default;
     act_default;
     act_default;
     act_default;
     act_default;
     act_30;
     act_31;
     act_32;
     act_33;
     act_34;
     act_35;
     act_36;
     act_37;
     act_38;
     act_39;
     act_40;
     act_41;
     act_42;
     act_default;
     act_44;
     act_45;
     act_46;
     act_47;
     act_48;
     act_default;
     act_default;
     act_51;
     act_52;
     act_53;
     act_54;
     act_55;
     act_default;
     act_default;
     act_default;
     act_default;
     act_default;
     act_default;
     act_default;
     act_default;
     act_default;
     act_default;
     act_default;
     act_default;
     act_default;
     act_default;
     act_default;
     act_default;
     act_default;
     act_default;
     act_default;
     act_default;
     act_default;
     act_77;
     act_default;
     act_default;
     act_default;
     act_81;
     act_default;
     act_83;
     act_84;
     act_85;
     act_86;
     act_87;
     act_88;
     act_89;
     act_90;
     act_91;
     act_92;
     act_93;
     act_94;
     act_95;
     act_96;
     act_97;
     act_98;
     act_99;
     act_default;
     act_default;
     act_102;
     act_103;
     act_104;
     act_105;
     act_106;
     act_default;
     act_default;
     act_109;
     act_110;
     act_111;
     act_112;
     act_113;
     act_114;
     act_115;
     act_116;
     act_default;
     act_118;
     act_119;
     act_120;
     act_121;
     act_122;
     act_123;
     act_124;
     act_125;
     act_126;
     act_127;
     act_128;
     act_129;
     act_default;
     act_default;
     act_default;
     act_default;
     act_134;
     act_135;
     act_136;
     act_default;
     act_default;
     act_139;
     act_140;
     act_141;
     act_142;
     act_143;
     act_144;
     act_default;
     act_default;
     act_default;
     act_148;
     act_149;
     act_150;
     act_151;
     act_152;
     act_153;
     act_154;
     act_155;
     act_156;
     act_157;
     act_158;
     act_159;
     act_160;
     act_161;
     act_162;
     act_163;
     act_164;
     act_default;
     act_166;
     act_167;
     act_168;
     act_169;
     act_170;
     act_default;
     act_172;
     act_173;
     act_174;
     act_175;
     act_176;
     act_177;
     act_178;
     act_179;
     act_180;
     act_181;
     act_182;
     act_183;
     act_184;
     act_185;
     act_186;
     act_187;
     act_188;
     act_189;
     act_190;
     act_191;
     act_default;
     act_default;
     act_194;
     act_195;
     act_196;
     act_197;
     act_default;
     act_default;
     act_default;
     act_201;
     act_202;
     act_203;
     act_204;
     act_205;
     act_206;
     act_207;
     act_208;
     act_209;
     act_210;
     act_211;
     act_212;
     act_213;
     act_214;
     act_215;
     act_216;
     act_217;
     act_default;
     act_219;
     act_220;
     act_221;
     act_222;
     act_223;
     act_224;
     act_225;
     act_226;
     act_227;
     act_228;
     act_default;
     act_default;
     act_231;
     act_232;
     act_233;
     act_default;
     act_235;
     act_236;
     act_237;
     act_238;
     act_default;
     act_240;
     act_241;
     act_default;
     act_243;
     act_244;
     act_default;
     act_246;
     act_default;
     act_default;
     act_default;
     act_default;
     act_251;
     act_252;
     act_default;
     act_default;
     act_default;
     act_default;
     act_default;
     act_258;
     act_259;
     act_260;
     act_261;
     act_262;
     act_263;
     act_default;
     act_265;
     act_default;
     act_267;
     act_268;
     act_269;
     act_270;
     act_271;
     act_default;
     act_default;
     act_default;
     act_default;
     act_default;
     act_default;
     act_default;
     act_default;
     act_default;
     act_default;
     act_default;
     act_default;
     act_default;
     act_default;
     act_default;
     act_default;
     act_default;
     act_default;
     act_default;
     act_default].
End Actions.
