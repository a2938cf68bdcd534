(** Model of ast.go: the ASN.1 syntax tree.

    Conventions: an interface value is an inductive type with one constructor per
    implementing Go type and one for nil; a nil slice and an empty slice are the
    same list (nothing in the package compares slices with nil); named string and
    integer types are [string] and [Z].

    Two places of the tree hold Go pointers: NamedComponentType.Default
    (ast.go:415) and ObjectIdElement.Reference (ast.go:717).  Their types are the
    parameters [P] and [R]; for the tree a caller reads, [P] is [value] and [R] is
    [DefinedValue], i.e. the pointers have been followed. *)
From Coq Require Import ZArith String List SpecFloat.
Import ListNotations.
Local Open Scope Z_scope.

(** TAGS_ constants, ast.go:31-35 *)
Definition TAGS_EXPLICIT : Z := 0.
(** ast.go:33 *)
Definition TAGS_IMPLICIT : Z := 1.
(** ast.go:34 *)
Definition TAGS_AUTOMATIC : Z := 2.

(** CLASS_ constants, ast.go:473-478 *)
Definition CLASS_CONTEXT_SPECIFIC : Z := 0.
(** ast.go:475 *)
Definition CLASS_UNIVERSAL : Z := 1.
(** ast.go:476 *)
Definition CLASS_APPLICATION : Z := 2.
(** ast.go:477 *)
Definition CLASS_PRIVATE : Z := 3.

(** DefinitiveObjIdComponent, ast.go:25-28 *)
Record DefinitiveObjIdComponent : Type := {
  doc_Name : string;
  doc_Id : Z
}.

(** ModuleIdentifier, ast.go:16-19; DefinitiveIdentifier (ast.go:22) is a list. *)
Record ModuleIdentifier : Type := {
  mi_Reference : string;
  mi_DefinitiveIdentifier : list DefinitiveObjIdComponent
}.

(** Symbol, ast.go:55-57, implemented by TypeReference (173), ModuleReference (194)
    and ValueReference (186). *)
Inductive Symbol : Type :=
| SymNil
| SymType (name : string)
| SymModule (name : string)
| SymValue (name : string).

(** DefinedValue, ast.go:671-677 *)
Record DefinedValue : Type := {
  dv_ModuleName : string;
  dv_ValueName : string
}.

(** NamedNumberValue, ast.go:293-295, implemented by Number (226) and
    DefinedValue (684). *)
Inductive NamedNumberValue : Type :=
| NNil
| NNumber (n : Z)
| NDefined (d : DefinedValue).

(** NamedNumber, ast.go:285-288 *)
Record NamedNumber : Type := {
  nn_Name : string;
  nn_Value : NamedNumberValue
}.

(** EnumerationItem, ast.go:310-312, implemented by NamedNumber (290) and
    Identifier (206). *)
Inductive EnumerationItem : Type :=
| EINil
| EINumber (n : NamedNumber)
| EIIdentifier (name : string).

(** EnumeratedType, ast.go:302-306 *)
Record EnumeratedType : Type := {
  et_RootEnumeration : list EnumerationItem;
  et_AdditionalEnumeration : list EnumerationItem
}.

(** ObjectIdElement, ast.go:710-718; [R] is the type of the pointer Reference. *)
Record ObjectIdElement (R : Type) : Type := {
  oe_Name : string;
  oe_ID : Z;
  oe_Reference : option R
}.
Arguments oe_Name {R} _.
Arguments oe_ID {R} _.
Arguments oe_Reference {R} _.

(** Value, ast.go:666-668, implemented by Number (214), Real (236), Boolean
    (251), DefinedValue, IdentifiedIntegerValue (688-691; its field valueType is
    never set by the parser and is left out) and ObjectIdentifierValue (702). *)
Inductive value (R : Type) : Type :=
| VNil
| VNumber (n : Z)
| VReal (f : spec_float)
| VBoolean (b : bool)
| VDefined (d : DefinedValue)
| VIdentifiedInteger (name : string)
| VObjectIdentifier (l : list (ObjectIdElement R)).
Arguments VNil {R}.
Arguments VNumber {R} n.
Arguments VReal {R} f.
Arguments VBoolean {R} b.
Arguments VDefined {R} d.
Arguments VIdentifiedInteger {R} name.
Arguments VObjectIdentifier {R} l.

(** NamedBit, ast.go:516-521 *)
Record NamedBit (R : Type) : Type := {
  nb_Name : string;
  nb_Index : value R
}.
Arguments nb_Name {R} _.
Arguments nb_Index {R} _.

(** Tag, ast.go:463-471 *)
Record Tag (R : Type) : Type := {
  tag_Class : Z;
  tag_ClassNumber : value R
}.
Arguments tag_Class {R} _.
Arguments tag_ClassNumber {R} _.

(** RangeEndpoint, ast.go:621-624 *)
Record RangeEndpoint (R : Type) : Type := {
  re_Value : value R;
  re_IsOpen : bool
}.
Arguments re_Value {R} _.
Arguments re_IsOpen {R} _.

(** Type and the other mutually recursive interfaces and structs:
    - [atype]: Type, ast.go:262-264 and the structs 267-531;
    - [NamedType]: ast.go:138-141;
    - [component]: ComponentType, ast.go:406-409, implemented by
      NamedComponentType (412-416) and ComponentsOfComponentType (425-427); the
      same two types implement ExtensionAddition (390-392);
    - [ConstraintSpec]: ast.go:544-546, implemented by SubtypeConstraint (556) and
      GeneralConstraint (657); the one-field struct Constraint (537-540) is
      represented by its field;
    - [Elements]: ast.go:597-599, implemented by Unions (568), Exclusions (586,
      a one-field struct), SingleValue (604), ValueRange (612), TypeConstraint
      (632), SizeConstraint (640), InnerTypeConstraint (649); ElementSetSpec
      (562-565) is the part Unions, Exclusions;
    - [IntersectionElements]: ast.go:580-583. *)
Inductive atype (P R : Type) : Type :=
| TNil
| TReference (name : string)
| TNamed (n : NamedType P R)
| TNull
| TObjectIdentifier
| TInteger (l : list NamedNumber)
| TEnumerated (e : EnumeratedType)
| TReal
| TBoolean
| TChoice (alts : list (NamedType P R)) (exts : list (option (NamedType P R)))
| TRestrictedString (lextype : Z)
| TCharacterString
| TOctetString
| TSequence (comps exts : list (component P R))
| TSet (comps exts : list (component P R))
| TTagged (tag : Tag R) (t : atype P R) (tagtype : Z) (hastagtype : bool)
| TSequenceOf (t : atype P R)
| TSetOf (t : atype P R)
| TAny (name : string)
| TBitString (bits : list (NamedBit R))
| TConstrained (t : atype P R) (c : ConstraintSpec P R)
with NamedType (P R : Type) : Type :=
| Named (name : string) (t : atype P R)
with component (P R : Type) : Type :=
| CNil
| CNamed (n : NamedType P R) (optional : bool) (dflt : option P)
| CComponentsOf (t : atype P R)
with ConstraintSpec (P R : Type) : Type :=
| CSNil
| CSSubtype (l : list (Elements P R))
| CSGeneral
with Elements (P R : Type) : Type :=
| ENil
| EUnions (l : list (list (IntersectionElements P R)))
| EExclusions (e : Elements P R)
| ESingleValue (v : value R)
| EValueRange (lo hi : RangeEndpoint R)
| EType (t : atype P R)
| ESize (c : ConstraintSpec P R)
| EInner
with IntersectionElements (P R : Type) : Type :=
| Intersect (e : Elements P R) (excl : Elements P R).
Arguments TNil {P R}.
Arguments TReference {P R}.
Arguments TNamed {P R}.
Arguments TNull {P R}.
Arguments TObjectIdentifier {P R}.
Arguments TInteger {P R}.
Arguments TEnumerated {P R}.
Arguments TReal {P R}.
Arguments TBoolean {P R}.
Arguments TChoice {P R}.
Arguments TRestrictedString {P R}.
Arguments TCharacterString {P R}.
Arguments TOctetString {P R}.
Arguments TSequence {P R}.
Arguments TSet {P R}.
Arguments TTagged {P R}.
Arguments TSequenceOf {P R}.
Arguments TSetOf {P R}.
Arguments TAny {P R}.
Arguments TBitString {P R}.
Arguments TConstrained {P R}.
Arguments Named {P R}.
Arguments CNil {P R}.
Arguments CNamed {P R}.
Arguments CComponentsOf {P R}.
Arguments CSNil {P R}.
Arguments CSSubtype {P R}.
Arguments CSGeneral {P R}.
Arguments ENil {P R}.
Arguments EUnions {P R}.
Arguments EExclusions {P R}.
Arguments ESingleValue {P R}.
Arguments EValueRange {P R}.
Arguments EType {P R}.
Arguments ESize {P R}.
Arguments EInner {P R}.
Arguments Intersect {P R}.

(** ComponentTypeLists, ast.go:395-399 *)
Record ComponentTypeLists (P R : Type) : Type := {
  ctl_Components : list (component P R);
  ctl_ExtensionAdditions : list (component P R);
  ctl_TrailingComponents : list (component P R)
}.
Arguments ctl_Components {P R}.
Arguments ctl_ExtensionAdditions {P R}.
Arguments ctl_TrailingComponents {P R}.

(** ChoiceType, ast.go:331-335 *)
Record ChoiceType (P R : Type) : Type := {
  ct_AlternativeTypeList : list (NamedType P R);
  ct_ExtensionTypes : list (option (NamedType P R))
}.
Arguments ct_AlternativeTypeList {P R}.
Arguments ct_ExtensionTypes {P R}.

(** GlobalModuleReference, ast.go:60-63 *)
Record GlobalModuleReference (R : Type) : Type := {
  gmr_Reference : string;
  gmr_AssignedIdentifier : value R
}.
Arguments gmr_Reference {R}.
Arguments gmr_AssignedIdentifier {R}.

(** SymbolsFromModule, ast.go:48-51 *)
Record SymbolsFromModule (R : Type) : Type := {
  sfm_SymbolList : list Symbol;
  sfm_Module : GlobalModuleReference R
}.
Arguments sfm_SymbolList {R}.
Arguments sfm_Module {R}.

(** Assignment, ast.go:109-111, implemented by ValueAssignment (114-118) and
    TypeAssignment (126-129). *)
Inductive assignment (P R : Type) : Type :=
| ANil
| AType (name : string) (t : atype P R)
| AValue (name : string) (t : atype P R) (v : value R).
Arguments ANil {P R}.
Arguments AType {P R}.
Arguments AValue {P R}.

(** ModuleBody, ast.go:42-45 *)
Record ModuleBody (P R : Type) : Type := {
  mb_AssignmentList : list (assignment P R);
  mb_Imports : list (SymbolsFromModule R)
}.
Arguments mb_AssignmentList {P R}.
Arguments mb_Imports {P R}.

(** ModuleDefinition, ast.go:7-13 *)
Record ModuleDefinition (P R : Type) : Type := {
  md_ModuleIdentifier : ModuleIdentifier;
  md_TagDefault : Z;
  md_ExtensibilityImplied : bool;
  md_ModuleBody : ModuleBody P R
}.
Arguments md_ModuleIdentifier {P R}.
Arguments md_TagDefault {P R}.
Arguments md_ExtensibilityImplied {P R}.
Arguments md_ModuleBody {P R}.

(** SingleElementConstraint, ast.go:549-553 *)
Definition SingleElementConstraint {P R} (e : Elements P R) : ConstraintSpec P R :=
  CSSubtype [EUnions [[Intersect e ENil]]].

(** The tree as a caller of ParseString sees it. *)
Definition Value : Type := value DefinedValue.
(** Type as a caller sees it. *)
Definition AType_ : Type := atype Value DefinedValue.
(** ModuleDefinition as a caller sees it. *)
Definition Module_ : Type := ModuleDefinition Value DefinedValue.
(** Assignment as a caller sees it. *)
Definition Assignment_ : Type := assignment Value DefinedValue.

(** Following (or replacing) the pointers of a tree.  No Go counterpart: this is
    how the pointers in a parser result are resolved. *)
Section Map.
  Context {P R P' R' : Type} (f : P -> P') (g : R -> R').

  (** Pointers of an object identifier element (ast.go:717). *)
  Definition oe_map (e : ObjectIdElement R) : ObjectIdElement R' :=
    {| oe_Name := oe_Name e; oe_ID := oe_ID e; oe_Reference := option_map g (oe_Reference e) |}.

  (** Pointers of a value (ast.go:666). *)
  Definition value_map (v : value R) : value R' :=
    match v with
    | VNil => VNil
    | VNumber n => VNumber n
    | VReal r => VReal r
    | VBoolean b => VBoolean b
    | VDefined d => VDefined d
    | VIdentifiedInteger s => VIdentifiedInteger s
    | VObjectIdentifier l => VObjectIdentifier (map oe_map l)
    end.

  (** Pointers of a NamedBit (ast.go:516). *)
  Definition nb_map (b : NamedBit R) : NamedBit R' :=
    {| nb_Name := nb_Name b; nb_Index := value_map (nb_Index b) |}.

  (** Pointers of a Tag (ast.go:463). *)
  Definition tag_map (t : Tag R) : Tag R' :=
    {| tag_Class := tag_Class t; tag_ClassNumber := value_map (tag_ClassNumber t) |}.

  (** Pointers of a RangeEndpoint (ast.go:621). *)
  Definition re_map (e : RangeEndpoint R) : RangeEndpoint R' :=
    {| re_Value := value_map (re_Value e); re_IsOpen := re_IsOpen e |}.

  (** Pointers of a Type (ast.go:262) and of the structures in it. *)
  Fixpoint tmap (t : atype P R) : atype P' R' :=
    match t with
    | TNil => TNil
    | TReference s => TReference s
    | TNamed n => TNamed (nmap n)
    | TNull => TNull
    | TObjectIdentifier => TObjectIdentifier
    | TInteger l => TInteger l
    | TEnumerated e => TEnumerated e
    | TReal => TReal
    | TBoolean => TBoolean
    | TChoice a e => TChoice (map nmap a) (map (option_map nmap) e)
    | TRestrictedString z => TRestrictedString z
    | TCharacterString => TCharacterString
    | TOctetString => TOctetString
    | TSequence c e => TSequence (map cmap c) (map cmap e)
    | TSet c e => TSet (map cmap c) (map cmap e)
    | TTagged g t z b => TTagged (tag_map g) (tmap t) z b
    | TSequenceOf t => TSequenceOf (tmap t)
    | TSetOf t => TSetOf (tmap t)
    | TAny s => TAny s
    | TBitString l => TBitString (map nb_map l)
    | TConstrained t c => TConstrained (tmap t) (csmap c)
    end
  with nmap (n : NamedType P R) : NamedType P' R' :=
    match n with Named s t => Named s (tmap t) end
  with cmap (c : component P R) : component P' R' :=
    match c with
    | CNil => CNil
    | CNamed n o d => CNamed (nmap n) o (option_map f d)
    | CComponentsOf t => CComponentsOf (tmap t)
    end
  with csmap (c : ConstraintSpec P R) : ConstraintSpec P' R' :=
    match c with
    | CSNil => CSNil
    | CSSubtype l => CSSubtype (map emap l)
    | CSGeneral => CSGeneral
    end
  with emap (e : Elements P R) : Elements P' R' :=
    match e with
    | ENil => ENil
    | EUnions l => EUnions (map (map imap) l)
    | EExclusions e => EExclusions (emap e)
    | ESingleValue v => ESingleValue (value_map v)
    | EValueRange a b => EValueRange (re_map a) (re_map b)
    | EType t => EType (tmap t)
    | ESize c => ESize (csmap c)
    | EInner => EInner
    end
  with imap (i : IntersectionElements P R) : IntersectionElements P' R' :=
    match i with Intersect e x => Intersect (emap e) (emap x) end.

  (** Pointers of the remaining structs that contain values or types. *)
  Definition ctl_map (l : ComponentTypeLists P R) : ComponentTypeLists P' R' :=
    {| ctl_Components := map cmap (ctl_Components l);
       ctl_ExtensionAdditions := map cmap (ctl_ExtensionAdditions l);
       ctl_TrailingComponents := map cmap (ctl_TrailingComponents l) |}.

  (** ChoiceType (ast.go:331). *)
  Definition ct_map (c : ChoiceType P R) : ChoiceType P' R' :=
    {| ct_AlternativeTypeList := map nmap (ct_AlternativeTypeList c);
       ct_ExtensionTypes := map (option_map nmap) (ct_ExtensionTypes c) |}.

  (** GlobalModuleReference (ast.go:60). *)
  Definition gmr_map (x : GlobalModuleReference R) : GlobalModuleReference R' :=
    {| gmr_Reference := gmr_Reference x;
       gmr_AssignedIdentifier := value_map (gmr_AssignedIdentifier x) |}.

  (** SymbolsFromModule (ast.go:48). *)
  Definition sfm_map (x : SymbolsFromModule R) : SymbolsFromModule R' :=
    {| sfm_SymbolList := sfm_SymbolList x; sfm_Module := gmr_map (sfm_Module x) |}.

  (** Assignment (ast.go:109). *)
  Definition amap (a : assignment P R) : assignment P' R' :=
    match a with
    | ANil => ANil
    | AType s t => AType s (tmap t)
    | AValue s t v => AValue s (tmap t) (value_map v)
    end.

  (** ModuleBody (ast.go:42). *)
  Definition mb_map (b : ModuleBody P R) : ModuleBody P' R' :=
    {| mb_AssignmentList := map amap (mb_AssignmentList b);
       mb_Imports := map sfm_map (mb_Imports b) |}.

  (** ModuleDefinition (ast.go:7). *)
  Definition md_map (m : ModuleDefinition P R) : ModuleDefinition P' R' :=
    {| md_ModuleIdentifier := md_ModuleIdentifier m;
       md_TagDefault := md_TagDefault m;
       md_ExtensibilityImplied := md_ExtensibilityImplied m;
       md_ModuleBody := mb_map (md_ModuleBody m) |}.
End Map.

(** assignment.Reference().Name(), ast.go:71, 121-123, 132-134; [None] models the nil
    dereference panic on a nil interface. *)
Definition assignment_name {P R} (a : assignment P R) : option string :=
  match a with
  | ANil => None
  | AType s _ => Some s
  | AValue s _ _ => Some s
  end.

(** AssignmentList.Get, ast.go:69-76; a nil result is [None].  (A nil list
    element would panic; the parser never makes one.) *)
Fixpoint al_Get {P R} (l : list (assignment P R)) (name : string) : option (assignment P R) :=
  match l with
  | [] => None
  | a :: l' =>
      match assignment_name a with
      | Some s => if String.eqb s name then Some a else al_Get l' name
      | None => al_Get l' name
      end
  end.

(** AssignmentList.GetValue, ast.go:79-90 *)
Definition al_GetValue {P R} (l : list (assignment P R)) (name : string)
  : option (string * atype P R * value R) :=
  match al_Get l name with
  | Some (AValue s t v) => Some (s, t, v)
  | _ => None
  end.

(** AssignmentList.GetType, ast.go:93-104 *)
Definition al_GetType {P R} (l : list (assignment P R)) (name : string)
  : option (string * atype P R) :=
  match al_Get l name with
  | Some (AType s t) => Some (s, t)
  | _ => None
  end.
