(** The actions of y.go (Actions.v) against the rules of asn1.y (Grammar.v), one
    lemma per production.  Generated by tools/gen_sound.py. *)
From Coq Require Import ZArith String List Bool Lia.
From Verif Require Import GoBase Tokens Tables Ast RealNum Actions Lexer Driver Grammar Automaton
  DriverTables.
Import ListNotations.
Local Open Scope Z_scope.

(** What pointers pointed to when they were made. *)
Definition snapD (p : ptrD) : DefinedValue := pd_snap p.
Definition snapV (p : ptrV) : value DefinedValue := value_map snapD (pv_snap p).
Definition snapM (m : ModuleDefinition ptrV ptrD) : Module_ := md_map snapV snapD m.

(** The value of a nonterminal held in a stack entry. *)
Definition sem_of (N : nonterm) (v : sym) : sem :=
  match N with
  | N_ModuleDefinition => S_none
  | N_typereference => S_TypeReference (yy_TypeReference (yy_map snapV snapD v))
  | N_modulereference => S_name (yy_name (yy_map snapV snapD v))
  | N_valuereference => S_ValueReference (yy_ValueReference (yy_map snapV snapD v))
  | N_number => S_Number (yy_Number (yy_map snapV snapD v))
  | N_identifier => S_name (yy_name (yy_map snapV snapD v))
  | N_ModuleIdentifier => S_ModuleIdentifier (yy_ModuleIdentifier (yy_map snapV snapD v))
  | N_DefinitiveIdentifier => S_DefinitiveIdentifier (yy_DefinitiveIdentifier (yy_map snapV snapD v))
  | N_DefinitiveObjIdComponentList => S_DefinitiveObjIdComponentList (yy_DefinitiveObjIdComponentList (yy_map snapV snapD v))
  | N_DefinitiveObjIdComponent => S_DefinitiveObjIdComponent (yy_DefinitiveObjIdComponent (yy_map snapV snapD v))
  | N_DefinitiveNumberForm => S_Number (yy_Number (yy_map snapV snapD v))
  | N_DefinitiveNameAndNumberForm => S_DefinitiveObjIdComponent (yy_DefinitiveObjIdComponent (yy_map snapV snapD v))
  | N_TagDefault => S_TagDefault (yy_TagDefault (yy_map snapV snapD v))
  | N_ExtensionDefault => S_ExtensionDefault (yy_ExtensionDefault (yy_map snapV snapD v))
  | N_ModuleBody => S_ModuleBody (yy_ModuleBody (yy_map snapV snapD v))
  | N_Exports => S_none
  | N_SymbolsExported => S_none
  | N_Imports => S_Imports (yy_Imports (yy_map snapV snapD v))
  | N_SymbolsImported => S_Imports (yy_Imports (yy_map snapV snapD v))
  | N_SymbolsFromModuleList => S_Imports (yy_Imports (yy_map snapV snapD v))
  | N_SymbolsFromModule => S_SymbolsFromModule (yy_SymbolsFromModule (yy_map snapV snapD v))
  | N_GlobalModuleReference => S_GlobalModuleReference (yy_GlobalModuleReference (yy_map snapV snapD v))
  | N_AssignedIdentifier => S_Value (yy_Value (yy_map snapV snapD v))
  | N_SymbolList => S_SymbolList (yy_SymbolList (yy_map snapV snapD v))
  | N_Symbol => S_Symbol (yy_Symbol (yy_map snapV snapD v))
  | N_Reference => S_Symbol (yy_Symbol (yy_map snapV snapD v))
  | N_AssignmentList => S_AssignmentList (yy_AssignmentList (yy_map snapV snapD v))
  | N_Assignment => S_Assignment (yy_Assignment (yy_map snapV snapD v))
  | N_DefinedType => S_Type (yy_Type (yy_map snapV snapD v))
  | N_DefinedValue => S_DefinedValue (yy_DefinedValue (yy_map snapV snapD v))
  | N_TypeAssignment => S_Assignment (yy_Assignment (yy_map snapV snapD v))
  | N_ValueAssignment => S_Assignment (yy_Assignment (yy_map snapV snapD v))
  | N_Type => S_Type (yy_Type (yy_map snapV snapD v))
  | N_BuiltinType => S_Type (yy_Type (yy_map snapV snapD v))
  | N_ReferencedType => S_Type (yy_Type (yy_map snapV snapD v))
  | N_NamedType => S_NamedType (yy_NamedType (yy_map snapV snapD v))
  | N_Value => S_Value (yy_Value (yy_map snapV snapD v))
  | N_BuiltinValue => S_Value (yy_Value (yy_map snapV snapD v))
  | N_BooleanType => S_Type (yy_Type (yy_map snapV snapD v))
  | N_BooleanValue => S_Value (yy_Value (yy_map snapV snapD v))
  | N_IntegerType => S_Type (yy_Type (yy_map snapV snapD v))
  | N_NamedNumberList => S_NamedNumberList (yy_NamedNumberList (yy_map snapV snapD v))
  | N_NamedNumber => S_NamedNumber (yy_NamedNumber (yy_map snapV snapD v))
  | N_SignedNumber => S_Number (yy_Number (yy_map snapV snapD v))
  | N_IntegerValue => S_Value (yy_Value (yy_map snapV snapD v))
  | N_EnumeratedType => S_Type (yy_Type (yy_map snapV snapD v))
  | N_Enumerations => S_EnumeratedType (yy_EnumeratedType (yy_map snapV snapD v))
  | N_RootEnumeration => S_Enumeration (yy_Enumeration (yy_map snapV snapD v))
  | N_AdditionalEnumeration => S_Enumeration (yy_Enumeration (yy_map snapV snapD v))
  | N_Enumeration => S_Enumeration (yy_Enumeration (yy_map snapV snapD v))
  | N_EnumerationItem => S_EnumerationItem (yy_EnumerationItem (yy_map snapV snapD v))
  | N_RealType => S_Type (yy_Type (yy_map snapV snapD v))
  | N_RealValue => S_Value (yy_Value (yy_map snapV snapD v))
  | N_NumericRealValue => S_Value (yy_Value (yy_map snapV snapD v))
  | N_SpecialRealValue => S_Value (yy_Value (yy_map snapV snapD v))
  | N_realnumber => S_Real (yy_Real (yy_map snapV snapD v))
  | N_SignedExponent => S_Number (yy_Number (yy_map snapV snapD v))
  | N_BitStringType => S_Type (yy_Type (yy_map snapV snapD v))
  | N_NamedBitList => S_NamedBitList (yy_NamedBitList (yy_map snapV snapD v))
  | N_NamedBit => S_NamedBit (yy_NamedBit (yy_map snapV snapD v))
  | N_OctetStringType => S_Type (yy_Type (yy_map snapV snapD v))
  | N_NullType => S_Type (yy_Type (yy_map snapV snapD v))
  | N_SequenceType => S_Type (yy_Type (yy_map snapV snapD v))
  | N_ExtensionAndException => S_none
  | N_OptionalExtensionMarker => S_none
  | N_ComponentTypeLists => S_ComponentTypeLists (yy_ComponentTypeLists (yy_map snapV snapD v))
  | N_RootComponentTypeList => S_ComponentTypeList (yy_ComponentTypeList (yy_map snapV snapD v))
  | N_ExtensionEndMarker => S_none
  | N_ExtensionAdditions => S_ExtensionAdditions (yy_ExtensionAdditions (yy_map snapV snapD v))
  | N_ExtensionAdditionList => S_ExtensionAdditions (yy_ExtensionAdditions (yy_map snapV snapD v))
  | N_ExtensionAddition => S_ExtensionAdditions (yy_ExtensionAdditions (yy_map snapV snapD v))
  | N_ExtensionAdditionGroup => S_none
  | N_VersionNumber => S_none
  | N_ComponentTypeList => S_ComponentTypeList (yy_ComponentTypeList (yy_map snapV snapD v))
  | N_ComponentType => S_ComponentType (yy_ComponentType (yy_map snapV snapD v))
  | N_SetType => S_Type (yy_Type (yy_map snapV snapD v))
  | N_SetOfType => S_Type (yy_Type (yy_map snapV snapD v))
  | N_AnyType => S_Type (yy_Type (yy_map snapV snapD v))
  | N_ChoiceType => S_Type (yy_Type (yy_map snapV snapD v))
  | N_AlternativeTypeLists => S_ChoiceType (yy_ChoiceType (yy_map snapV snapD v))
  | N_RootAlternativeTypeList => S_AlternativeTypeList (yy_AlternativeTypeList (yy_map snapV snapD v))
  | N_ExtensionAdditionAlternatives => S_ExtensionAdditionAlternativesList (yy_ExtensionAdditionAlternativesList (yy_map snapV snapD v))
  | N_ExtensionAdditionAlternativesList => S_ExtensionAdditionAlternativesList (yy_ExtensionAdditionAlternativesList (yy_map snapV snapD v))
  | N_ExtensionAdditionAlternative => S_ExtensionAdditionAlternative (yy_ExtensionAdditionAlternative (yy_map snapV snapD v))
  | N_ExtensionAdditionAlternativesGroup => S_none
  | N_AlternativeTypeList => S_AlternativeTypeList (yy_AlternativeTypeList (yy_map snapV snapD v))
  | N_TaggedType => S_Type (yy_Type (yy_map snapV snapD v))
  | N_Tag => S_Tag (yy_Tag (yy_map snapV snapD v))
  | N_ClassNumber => S_Value (yy_Value (yy_map snapV snapD v))
  | N_Class => S_Class (yy_Class (yy_map snapV snapD v))
  | N_SequenceOfType => S_Type (yy_Type (yy_map snapV snapD v))
  | N_ObjectIdentifierType => S_Type (yy_Type (yy_map snapV snapD v))
  | N_ObjectIdentifierValue => S_ObjectIdentifierValue (yy_ObjectIdentifierValue (yy_map snapV snapD v))
  | N_ObjIdComponentsList => S_ObjectIdentifierValue (yy_ObjectIdentifierValue (yy_map snapV snapD v))
  | N_ObjIdComponents => S_ObjectIdElement (yy_ObjectIdElement (yy_map snapV snapD v))
  | N_NumberForm => S_ObjectIdElement (yy_ObjectIdElement (yy_map snapV snapD v))
  | N_NameAndNumberForm => S_ObjectIdElement (yy_ObjectIdElement (yy_map snapV snapD v))
  | N_NameForm => S_name (yy_name (yy_map snapV snapD v))
  | N_CharacterStringType => S_Type (yy_Type (yy_map snapV snapD v))
  | N_RestrictedCharacterStringType => S_Type (yy_Type (yy_map snapV snapD v))
  | N_UnrestrictedCharacterStringType => S_Type (yy_Type (yy_map snapV snapD v))
  | N_UsefulType => S_Type (yy_Type (yy_map snapV snapD v))
  | N_ConstrainedType => S_Type (yy_Type (yy_map snapV snapD v))
  | N_TypeWithConstraint => S_Type (yy_Type (yy_map snapV snapD v))
  | N_Constraint => S_Constraint (yy_Constraint (yy_map snapV snapD v))
  | N_ConstraintSpec => S_ConstraintSpec (yy_ConstraintSpec (yy_map snapV snapD v))
  | N_SubtypeConstraint => S_SubtypeConstraint (yy_SubtypeConstraint (yy_map snapV snapD v))
  | N_ElementSetSpecs => S_SubtypeConstraint (yy_SubtypeConstraint (yy_map snapV snapD v))
  | N_RootElementSetSpec => S_SubtypeConstraint (yy_SubtypeConstraint (yy_map snapV snapD v))
  | N_AdditionalElementSetSpec => S_ElementSetSpec (yy_ElementSetSpec (yy_map snapV snapD v))
  | N_ElementSetSpec => S_ElementSetSpec (yy_ElementSetSpec (yy_map snapV snapD v))
  | N_Unions => S_Unions (yy_Unions (yy_map snapV snapD v))
  | N_UElems => S_Unions (yy_Unions (yy_map snapV snapD v))
  | N_Intersections => S_Intersections (yy_Intersections (yy_map snapV snapD v))
  | N_IElems => S_Intersections (yy_Intersections (yy_map snapV snapD v))
  | N_IntersectionElements => S_IntersectionElements (yy_IntersectionElements (yy_map snapV snapD v))
  | N_Elems => S_Elements (yy_Elements (yy_map snapV snapD v))
  | N_Exclusions => S_Exclusions (yy_Exclusions (yy_map snapV snapD v))
  | N_UnionMark => S_none
  | N_IntersectionMark => S_none
  | N_Elements => S_Elements (yy_Elements (yy_map snapV snapD v))
  | N_SubtypeElements => S_Elements (yy_Elements (yy_map snapV snapD v))
  | N_SingleValue => S_Elements (yy_Elements (yy_map snapV snapD v))
  | N_ValueRange => S_Elements (yy_Elements (yy_map snapV snapD v))
  | N_LowerEndpoint => S_RangeEndpoint (yy_RangeEndpoint (yy_map snapV snapD v))
  | N_UpperEndpoint => S_RangeEndpoint (yy_RangeEndpoint (yy_map snapV snapD v))
  | N_LowerEndValue => S_Value (yy_Value (yy_map snapV snapD v))
  | N_UpperEndValue => S_Value (yy_Value (yy_map snapV snapD v))
  | N_SizeConstraint => S_Elements (yy_Elements (yy_map snapV snapD v))
  | N_TypeConstraint => S_Elements (yy_Elements (yy_map snapV snapD v))
  | N_InnerTypeConstraints => S_Elements (yy_Elements (yy_map snapV snapD v))
  | N_SingleTypeConstraint => S_none
  | N_MultipleTypeConstraints => S_none
  | N_FullSpecification => S_none
  | N_PartialSpecification => S_none
  | N_TypeConstraints => S_none
  | N_NamedConstraint => S_none
  | N_ComponentConstraint => S_none
  | N_ValueConstraint => S_none
  | N_PresenceConstraint => S_none
  | N_ExceptionSpec => S_none
  | N_ExceptionIdentification => S_none
  end.

(** A stack entry holds what the lexer gave for the token. *)
Definition tok_vals (t : token) (v : sym) : Prop :=
  (tk_kind t = T_TYPEORMODULEREFERENCE \/ tk_kind t = T_VALUEIDENTIFIER -> tk_name t = yy_name v)
  /\ (tk_kind t = T_NUMBER -> tk_number t = yy_Number v).

(** A stack entry with accessing symbol [X] holds the value of the item [i]. *)
Definition holds (X : Z) (v : sym) (i : item) : Prop :=
  match i with
  | Tk t => 0 < X /\ tk_kind t = X + 57342 /\ tok_vals t v
  | Nt N s => X < 0 /\ nth (Z.to_nat (- X)) nonterms None = Some N /\ s = sem_of N v
  end.

(** The value stack entries of a right side hold the values of its items. *)
Fixpoint matches (r : list Z) (k : nat) (d : nat -> sym) (its : list item) : Prop :=
  match r with
  | [] => its = []
  | X :: r' => exists i its', its = i :: its' /\ holds X (d k) i /\ matches r' (S k) d its'
  end.

Lemma holds_nt N X v i : (X <? 0) = true -> nth (Z.to_nat (- X)) nonterms None = Some N ->
  holds X v i -> i = Nt N (sem_of N v).
Proof.
  rewrite Z.ltb_lt. intros Hx E. destruct i as [t|M s]; cbn [holds]; [lia|]. intros (_ & F & ->). congruence.
Qed.

Lemma holds_tk X v i : (0 <? X) = true -> holds X v i ->
  exists t, i = Tk t /\ tk_kind t = X + 57342 /\ tok_vals t v.
Proof.
  rewrite Z.ltb_lt. intros Hx. destruct i as [t|M s]; cbn [holds]; [|lia]. intros (_ & H). now exists t.
Qed.

Lemma cast (R : nonterm -> list item -> sem -> Prop) N its s s' : R N its s -> s = s' -> R N its s'.
Proof. now intros H <-. Qed.

Lemma map_ext_id {A} (f : A -> A) l : (forall x, f x = x) -> map f l = l.
Proof. intros H. rewrite (map_ext _ (fun x => x)) by assumption. apply map_id. Qed.

Section Sound.
  Context (mkP : nat -> value ptrD -> ptrV) (mkR : nat -> DefinedValue -> ptrD)
    (mkF : DefinedValue -> ptrD).
  Context (HP : forall k v, pv_snap (mkP k v) = v).
  Context (HR : forall k x, pd_snap (mkR k x) = x).
  Context (HF : forall x, pd_snap (mkF x) = x).

  (** Production [n] with action [act]. *)
  Definition Sound (n : Z) (act : (nat -> sym) -> sym -> sym * option (ModuleDefinition ptrV ptrD)) : Prop :=
    forall d its, matches (rhs n) 1 d its ->
      if n =? 1 then exists m, snd (act d (d 1%nat)) = Some m
                       /\ rule 1 N_ModuleDefinition its (S_module (snapM m))
      else snd (act d (d 1%nat)) = None
           /\ exists N, nth (Z.to_nat (lhs n)) nonterms None = Some N
                /\ rule n N its (sem_of N (fst (act d (d 1%nat)))).

  Ltac val :=
    unfold snapM, md_map; cbn [fst snd]; 
    repeat match goal with
      | T : tok_vals ?t _, K : tk_kind ?t = _ |- context [tk_name ?t] =>
          rewrite (proj1 T) by (rewrite K; auto)
      | T : tok_vals ?t _, K : tk_kind ?t = _ |- context [tk_number ?t] =>
          rewrite (proj2 T) by (rewrite K; reflexivity)
      end;
    cbn [yy_map sem_of yy_name set_name yy_numberRepr set_numberRepr yy_Number set_Number yy_Real set_Real yy_TagDefault set_TagDefault yy_ExtensionDefault set_ExtensionDefault yy_ModuleIdentifier set_ModuleIdentifier yy_DefinitiveObjIdComponent set_DefinitiveObjIdComponent yy_DefinitiveObjIdComponentList set_DefinitiveObjIdComponentList yy_DefinitiveIdentifier set_DefinitiveIdentifier yy_Type set_Type yy_ObjectIdElement set_ObjectIdElement yy_DefinedValue set_DefinedValue yy_ObjectIdentifierValue set_ObjectIdentifierValue yy_Value set_Value yy_Assignment set_Assignment yy_AssignmentList set_AssignmentList yy_ModuleBody set_ModuleBody yy_ValueReference set_ValueReference yy_TypeReference set_TypeReference yy_Constraint set_Constraint yy_ConstraintSpec set_ConstraintSpec yy_ElementSetSpec set_ElementSetSpec yy_Unions set_Unions yy_Intersections set_Intersections yy_IntersectionElements set_IntersectionElements yy_Exclusions set_Exclusions yy_Elements set_Elements yy_SubtypeConstraint set_SubtypeConstraint yy_RangeEndpoint set_RangeEndpoint yy_NamedType set_NamedType yy_ComponentType set_ComponentType yy_ComponentTypeLists set_ComponentTypeLists yy_ComponentTypeList set_ComponentTypeList yy_Tag set_Tag yy_Class set_Class yy_NamedBitList set_NamedBitList yy_NamedBit set_NamedBit yy_Imports set_Imports yy_SymbolsFromModule set_SymbolsFromModule yy_SymbolList set_SymbolList yy_Symbol set_Symbol yy_GlobalModuleReference set_GlobalModuleReference yy_AlternativeTypeList set_AlternativeTypeList yy_ChoiceType set_ChoiceType yy_ExtensionAdditionAlternative set_ExtensionAdditionAlternative yy_ExtensionAdditionAlternativesList set_ExtensionAdditionAlternativesList yy_ExtensionAdditions set_ExtensionAdditions yy_NamedNumberList set_NamedNumberList yy_NamedNumber set_NamedNumber yy_EnumeratedType set_EnumeratedType yy_Enumeration set_Enumeration yy_EnumerationItem set_EnumerationItem];
    unfold snapV, snapD; rewrite ?HP, ?HR, ?HF;
    try reflexivity;
    cbn [yy_name set_name yy_numberRepr set_numberRepr yy_Number set_Number yy_Real set_Real yy_TagDefault set_TagDefault yy_ExtensionDefault set_ExtensionDefault yy_ModuleIdentifier set_ModuleIdentifier yy_DefinitiveObjIdComponent set_DefinitiveObjIdComponent yy_DefinitiveObjIdComponentList set_DefinitiveObjIdComponentList yy_DefinitiveIdentifier set_DefinitiveIdentifier yy_Type set_Type yy_ObjectIdElement set_ObjectIdElement yy_DefinedValue set_DefinedValue yy_ObjectIdentifierValue set_ObjectIdentifierValue yy_Value set_Value yy_Assignment set_Assignment yy_AssignmentList set_AssignmentList yy_ModuleBody set_ModuleBody yy_ValueReference set_ValueReference yy_TypeReference set_TypeReference yy_Constraint set_Constraint yy_ConstraintSpec set_ConstraintSpec yy_ElementSetSpec set_ElementSetSpec yy_Unions set_Unions yy_Intersections set_Intersections yy_IntersectionElements set_IntersectionElements yy_Exclusions set_Exclusions yy_Elements set_Elements yy_SubtypeConstraint set_SubtypeConstraint yy_RangeEndpoint set_RangeEndpoint yy_NamedType set_NamedType yy_ComponentType set_ComponentType yy_ComponentTypeLists set_ComponentTypeLists yy_ComponentTypeList set_ComponentTypeList yy_Tag set_Tag yy_Class set_Class yy_NamedBitList set_NamedBitList yy_NamedBit set_NamedBit yy_Imports set_Imports yy_SymbolsFromModule set_SymbolsFromModule yy_SymbolList set_SymbolList yy_Symbol set_Symbol yy_GlobalModuleReference set_GlobalModuleReference yy_AlternativeTypeList set_AlternativeTypeList yy_ChoiceType set_ChoiceType yy_ExtensionAdditionAlternative set_ExtensionAdditionAlternative yy_ExtensionAdditionAlternativesList set_ExtensionAdditionAlternativesList yy_ExtensionAdditions set_ExtensionAdditions yy_NamedNumberList set_NamedNumberList yy_NamedNumber set_NamedNumber yy_EnumeratedType set_EnumeratedType yy_Enumeration set_Enumeration yy_EnumerationItem set_EnumerationItem tmap nmap cmap csmap emap imap value_map oe_map nb_map tag_map re_map ctl_map ct_map gmr_map sfm_map amap mb_map md_map option_map map app snapV snapD oe_Name oe_ID oe_Reference ctl_Components ctl_ExtensionAdditions ctl_TrailingComponents ct_AlternativeTypeList ct_ExtensionTypes];
    rewrite ?map_app; unfold snapV, snapD; cbn [tmap nmap cmap csmap emap imap value_map oe_map nb_map tag_map re_map ctl_map ct_map gmr_map sfm_map amap mb_map md_map option_map map app]; rewrite ?HP, ?HR, ?HF; try reflexivity;
    unfold oe_map; cbn [option_map oe_Name oe_ID oe_Reference]; rewrite ?HP, ?HR, ?HF; try reflexivity.

  (* asn1.y:343 *)
  Lemma sound_1 : Sound 1 (act_1).
  Proof.
    intros d its H. change (rhs 1) with [-8; 119; -7; -6; 15; 67; -44; 52] in H. cbn [matches] in H.
    destruct H as (i1 & its1 & -> & H1 & i2 & its2 & -> & H2 & i3 & its3 & -> & H3 & i4 & its4 & -> & H4 & i5 & its5 & -> & H5 & i6 & its6 & -> & H6 & i7 & its7 & -> & H7 & i8 & its8 & -> & H8 & ->).
    apply (holds_nt N_ModuleIdentifier) in H1; [|reflexivity|reflexivity]; subst i1. apply holds_tk in H2 as (t2 & -> & K2 & V2); [|reflexivity]. apply (holds_nt N_TagDefault) in H3; [|reflexivity|reflexivity]; subst i3. apply (holds_nt N_ExtensionDefault) in H4; [|reflexivity|reflexivity]; subst i4. apply holds_tk in H5 as (t5 & -> & K5 & V5); [|reflexivity]. apply holds_tk in H6 as (t6 & -> & K6 & V6); [|reflexivity]. apply (holds_nt N_ModuleBody) in H7; [|reflexivity|reflexivity]; subst i7. apply holds_tk in H8 as (t8 & -> & K8 & V8); [|reflexivity].
    change (1 =? 1) with true. cbv iota.
    eexists. split; [reflexivity|].
    change (rule 1) with rule_1. refine (cast _ _ _ _ _ (G_1 _ t2 _ _ t5 t6 _ t8 K2 K5 K6 K8) _). unfold act_1. val.
  Qed.

  (* asn1.y:346 *)
  Lemma sound_2 : Sound 2 (act_2).
  Proof.
    intros d its H. change (rhs 2) with [6] in H. cbn [matches] in H.
    destruct H as (i1 & its1 & -> & H1 & ->).
    apply holds_tk in H1 as (t1 & -> & K1 & V1); [|reflexivity].
    change (2 =? 1) with false. cbv iota.
    split; [reflexivity|]. exists N_typereference. split; [reflexivity|].
    change (rule 2) with rule_2. refine (cast _ _ _ _ _ (G_2 t1 K1) _). unfold act_2. val.
  Qed.

  (* asn1.y:349 *)
  Lemma sound_3 : Sound 3 act_default.
  Proof.
    intros d its H. change (rhs 3) with [6] in H. cbn [matches] in H.
    destruct H as (i1 & its1 & -> & H1 & ->).
    apply holds_tk in H1 as (t1 & -> & K1 & V1); [|reflexivity].
    change (3 =? 1) with false. cbv iota.
    split; [reflexivity|]. exists N_modulereference. split; [reflexivity|].
    change (rule 3) with rule_3. refine (cast _ _ _ _ _ (G_3 t1 K1) _). unfold act_default. val.
  Qed.

  (* asn1.y:351 *)
  Lemma sound_4 : Sound 4 (act_4).
  Proof.
    intros d its H. change (rhs 4) with [7] in H. cbn [matches] in H.
    destruct H as (i1 & its1 & -> & H1 & ->).
    apply holds_tk in H1 as (t1 & -> & K1 & V1); [|reflexivity].
    change (4 =? 1) with false. cbv iota.
    split; [reflexivity|]. exists N_valuereference. split; [reflexivity|].
    change (rule 4) with rule_4. refine (cast _ _ _ _ _ (G_4 t1 K1) _). unfold act_4. val.
  Qed.

  (* asn1.y:354 *)
  Lemma sound_5 : Sound 5 act_default.
  Proof.
    intros d its H. change (rhs 5) with [8] in H. cbn [matches] in H.
    destruct H as (i1 & its1 & -> & H1 & ->).
    apply holds_tk in H1 as (t1 & -> & K1 & V1); [|reflexivity].
    change (5 =? 1) with false. cbv iota.
    split; [reflexivity|]. exists N_number. split; [reflexivity|].
    change (rule 5) with rule_5. refine (cast _ _ _ _ _ (G_5 t1 K1) _). unfold act_default. val.
  Qed.

  (* asn1.y:357 *)
  Lemma sound_6 : Sound 6 act_default.
  Proof.
    intros d its H. change (rhs 6) with [7] in H. cbn [matches] in H.
    destruct H as (i1 & its1 & -> & H1 & ->).
    apply holds_tk in H1 as (t1 & -> & K1 & V1); [|reflexivity].
    change (6 =? 1) with false. cbv iota.
    split; [reflexivity|]. exists N_identifier. split; [reflexivity|].
    change (rule 6) with rule_6. refine (cast _ _ _ _ _ (G_6 t1 K1) _). unfold act_default. val.
  Qed.

  (* asn1.y:362 *)
  Lemma sound_7 : Sound 7 (act_7).
  Proof.
    intros d its H. change (rhs 7) with [-3; -13] in H. cbn [matches] in H.
    destruct H as (i1 & its1 & -> & H1 & i2 & its2 & -> & H2 & ->).
    apply (holds_nt N_modulereference) in H1; [|reflexivity|reflexivity]; subst i1. apply (holds_nt N_DefinitiveIdentifier) in H2; [|reflexivity|reflexivity]; subst i2.
    change (7 =? 1) with false. cbv iota.
    split; [reflexivity|]. exists N_ModuleIdentifier. split; [reflexivity|].
    change (rule 7) with rule_7. refine (cast _ _ _ _ _ (G_7 _ _) _). unfold act_7. val.
  Qed.

  (* asn1.y:365 *)
  Lemma sound_8 : Sound 8 (act_8).
  Proof.
    intros d its H. change (rhs 8) with [26; -11; 27] in H. cbn [matches] in H.
    destruct H as (i1 & its1 & -> & H1 & i2 & its2 & -> & H2 & i3 & its3 & -> & H3 & ->).
    apply holds_tk in H1 as (t1 & -> & K1 & V1); [|reflexivity]. apply (holds_nt N_DefinitiveObjIdComponentList) in H2; [|reflexivity|reflexivity]; subst i2. apply holds_tk in H3 as (t3 & -> & K3 & V3); [|reflexivity].
    change (8 =? 1) with false. cbv iota.
    split; [reflexivity|]. exists N_DefinitiveIdentifier. split; [reflexivity|].
    change (rule 8) with rule_8. refine (cast _ _ _ _ _ (G_8 t1 _ t3 K1 K3) _). unfold act_8. val.
  Qed.

  (* asn1.y:366 *)
  Lemma sound_9 : Sound 9 (act_9).
  Proof.
    intros d its H. change (rhs 9) with (@nil Z) in H. cbn [matches] in H.
    subst its.
    
    change (9 =? 1) with false. cbv iota.
    split; [reflexivity|]. exists N_DefinitiveIdentifier. split; [reflexivity|].
    change (rule 9) with rule_9. refine (cast _ _ _ _ _ (G_9 ) _). unfold act_9. val.
  Qed.

  (* asn1.y:369 *)
  Lemma sound_10 : Sound 10 (act_10).
  Proof.
    intros d its H. change (rhs 10) with [-9] in H. cbn [matches] in H.
    destruct H as (i1 & its1 & -> & H1 & ->).
    apply (holds_nt N_DefinitiveObjIdComponent) in H1; [|reflexivity|reflexivity]; subst i1.
    change (10 =? 1) with false. cbv iota.
    split; [reflexivity|]. exists N_DefinitiveObjIdComponentList. split; [reflexivity|].
    change (rule 10) with rule_10. refine (cast _ _ _ _ _ (G_10 _) _). unfold act_10. val.
  Qed.

  (* asn1.y:370 *)
  Lemma sound_11 : Sound 11 (act_11).
  Proof.
    intros d its H. change (rhs 11) with [-9; -11] in H. cbn [matches] in H.
    destruct H as (i1 & its1 & -> & H1 & i2 & its2 & -> & H2 & ->).
    apply (holds_nt N_DefinitiveObjIdComponent) in H1; [|reflexivity|reflexivity]; subst i1. apply (holds_nt N_DefinitiveObjIdComponentList) in H2; [|reflexivity|reflexivity]; subst i2.
    change (11 =? 1) with false. cbv iota.
    split; [reflexivity|]. exists N_DefinitiveObjIdComponentList. split; [reflexivity|].
    change (rule 11) with rule_11. refine (cast _ _ _ _ _ (G_11 _ _) _). unfold act_11. val.
  Qed.

  (* asn1.y:373 *)
  Lemma sound_12 : Sound 12 (act_12).
  Proof.
    intros d its H. change (rhs 12) with [-14] in H. cbn [matches] in H.
    destruct H as (i1 & its1 & -> & H1 & ->).
    apply (holds_nt N_NameForm) in H1; [|reflexivity|reflexivity]; subst i1.
    change (12 =? 1) with false. cbv iota.
    split; [reflexivity|]. exists N_DefinitiveObjIdComponent. split; [reflexivity|].
    change (rule 12) with rule_12. refine (cast _ _ _ _ _ (G_12 _) _). unfold act_12. val.
  Qed.

  (* asn1.y:374 *)
  Lemma sound_13 : Sound 13 (act_13).
  Proof.
    intros d its H. change (rhs 13) with [-10] in H. cbn [matches] in H.
    destruct H as (i1 & its1 & -> & H1 & ->).
    apply (holds_nt N_DefinitiveNumberForm) in H1; [|reflexivity|reflexivity]; subst i1.
    change (13 =? 1) with false. cbv iota.
    split; [reflexivity|]. exists N_DefinitiveObjIdComponent. split; [reflexivity|].
    change (rule 13) with rule_13. refine (cast _ _ _ _ _ (G_13 _) _). unfold act_13. val.
  Qed.

  (* asn1.y:375 *)
  Lemma sound_14 : Sound 14 (act_14).
  Proof.
    intros d its H. change (rhs 14) with [-12] in H. cbn [matches] in H.
    destruct H as (i1 & its1 & -> & H1 & ->).
    apply (holds_nt N_DefinitiveNameAndNumberForm) in H1; [|reflexivity|reflexivity]; subst i1.
    change (14 =? 1) with false. cbv iota.
    split; [reflexivity|]. exists N_DefinitiveObjIdComponent. split; [reflexivity|].
    change (rule 14) with rule_14. refine (cast _ _ _ _ _ (G_14 _) _). unfold act_14. val.
  Qed.

  (* asn1.y:378 *)
  Lemma sound_15 : Sound 15 (act_15).
  Proof.
    intros d its H. change (rhs 15) with [8] in H. cbn [matches] in H.
    destruct H as (i1 & its1 & -> & H1 & ->).
    apply holds_tk in H1 as (t1 & -> & K1 & V1); [|reflexivity].
    change (15 =? 1) with false. cbv iota.
    split; [reflexivity|]. exists N_DefinitiveNumberForm. split; [reflexivity|].
    change (rule 15) with rule_15. refine (cast _ _ _ _ _ (G_15 t1 K1) _). unfold act_15. val.
  Qed.

  (* asn1.y:382 *)
  Lemma sound_16 : Sound 16 (act_16).
  Proof.
    intros d its H. change (rhs 16) with [-5; 32; -10; 33] in H. cbn [matches] in H.
    destruct H as (i1 & its1 & -> & H1 & i2 & its2 & -> & H2 & i3 & its3 & -> & H3 & i4 & its4 & -> & H4 & ->).
    apply (holds_nt N_identifier) in H1; [|reflexivity|reflexivity]; subst i1. apply holds_tk in H2 as (t2 & -> & K2 & V2); [|reflexivity]. apply (holds_nt N_DefinitiveNumberForm) in H3; [|reflexivity|reflexivity]; subst i3. apply holds_tk in H4 as (t4 & -> & K4 & V4); [|reflexivity].
    change (16 =? 1) with false. cbv iota.
    split; [reflexivity|]. exists N_DefinitiveNameAndNumberForm. split; [reflexivity|].
    change (rule 16) with rule_16. refine (cast _ _ _ _ _ (G_16 _ t2 _ t4 K2 K4) _). unfold act_16. val.
  Qed.

  (* asn1.y:385 *)
  Lemma sound_17 : Sound 17 (act_17).
  Proof.
    intros d its H. change (rhs 17) with [64; 78] in H. cbn [matches] in H.
    destruct H as (i1 & its1 & -> & H1 & i2 & its2 & -> & H2 & ->).
    apply holds_tk in H1 as (t1 & -> & K1 & V1); [|reflexivity]. apply holds_tk in H2 as (t2 & -> & K2 & V2); [|reflexivity].
    change (17 =? 1) with false. cbv iota.
    split; [reflexivity|]. exists N_TagDefault. split; [reflexivity|].
    change (rule 17) with rule_17. refine (cast _ _ _ _ _ (G_17 t1 t2 K1 K2) _). unfold act_17. val.
  Qed.

  (* asn1.y:386 *)
  Lemma sound_18 : Sound 18 (act_18).
  Proof.
    intros d its H. change (rhs 18) with [108; 78] in H. cbn [matches] in H.
    destruct H as (i1 & its1 & -> & H1 & i2 & its2 & -> & H2 & ->).
    apply holds_tk in H1 as (t1 & -> & K1 & V1); [|reflexivity]. apply holds_tk in H2 as (t2 & -> & K2 & V2); [|reflexivity].
    change (18 =? 1) with false. cbv iota.
    split; [reflexivity|]. exists N_TagDefault. split; [reflexivity|].
    change (rule 18) with rule_18. refine (cast _ _ _ _ _ (G_18 t1 t2 K1 K2) _). unfold act_18. val.
  Qed.

  (* asn1.y:387 *)
  Lemma sound_19 : Sound 19 (act_19).
  Proof.
    intros d its H. change (rhs 19) with [63; 78] in H. cbn [matches] in H.
    destruct H as (i1 & its1 & -> & H1 & i2 & its2 & -> & H2 & ->).
    apply holds_tk in H1 as (t1 & -> & K1 & V1); [|reflexivity]. apply holds_tk in H2 as (t2 & -> & K2 & V2); [|reflexivity].
    change (19 =? 1) with false. cbv iota.
    split; [reflexivity|]. exists N_TagDefault. split; [reflexivity|].
    change (rule 19) with rule_19. refine (cast _ _ _ _ _ (G_19 t1 t2 K1 K2) _). unfold act_19. val.
  Qed.

  (* asn1.y:388 *)
  Lemma sound_20 : Sound 20 (act_20).
  Proof.
    intros d its H. change (rhs 20) with (@nil Z) in H. cbn [matches] in H.
    subst its.
    
    change (20 =? 1) with false. cbv iota.
    split; [reflexivity|]. exists N_TagDefault. split; [reflexivity|].
    change (rule 20) with rule_20. refine (cast _ _ _ _ _ (G_20 ) _). unfold act_20. val.
  Qed.

  (* asn1.y:391 *)
  Lemma sound_21 : Sound 21 (act_21).
  Proof.
    intros d its H. change (rhs 21) with [72; 112] in H. cbn [matches] in H.
    destruct H as (i1 & its1 & -> & H1 & i2 & its2 & -> & H2 & ->).
    apply holds_tk in H1 as (t1 & -> & K1 & V1); [|reflexivity]. apply holds_tk in H2 as (t2 & -> & K2 & V2); [|reflexivity].
    change (21 =? 1) with false. cbv iota.
    split; [reflexivity|]. exists N_ExtensionDefault. split; [reflexivity|].
    change (rule 21) with rule_21. refine (cast _ _ _ _ _ (G_21 t1 t2 K1 K2) _). unfold act_21. val.
  Qed.

  (* asn1.y:392 *)
  Lemma sound_22 : Sound 22 (act_22).
  Proof.
    intros d its H. change (rhs 22) with (@nil Z) in H. cbn [matches] in H.
    subst its.
    
    change (22 =? 1) with false. cbv iota.
    split; [reflexivity|]. exists N_ExtensionDefault. split; [reflexivity|].
    change (rule 22) with rule_22. refine (cast _ _ _ _ _ (G_22 ) _). unfold act_22. val.
  Qed.

  (* asn1.y:395 *)
  Lemma sound_23 : Sound 23 (act_23).
  Proof.
    intros d its H. change (rhs 23) with [-122; -95; -43] in H. cbn [matches] in H.
    destruct H as (i1 & its1 & -> & H1 & i2 & its2 & -> & H2 & i3 & its3 & -> & H3 & ->).
    apply (holds_nt N_Exports) in H1; [|reflexivity|reflexivity]; subst i1. apply (holds_nt N_Imports) in H2; [|reflexivity|reflexivity]; subst i2. apply (holds_nt N_AssignmentList) in H3; [|reflexivity|reflexivity]; subst i3.
    change (23 =? 1) with false. cbv iota.
    split; [reflexivity|]. exists N_ModuleBody. split; [reflexivity|].
    change (rule 23) with rule_23. refine (cast _ _ _ _ _ (G_23 _ _) _). unfold act_23. val.
  Qed.

  (* asn1.y:396 *)
  Lemma sound_24 : Sound 24 (act_24).
  Proof.
    intros d its H. change (rhs 24) with (@nil Z) in H. cbn [matches] in H.
    subst its.
    
    change (24 =? 1) with false. cbv iota.
    split; [reflexivity|]. exists N_ModuleBody. split; [reflexivity|].
    change (rule 24) with rule_24. refine (cast _ _ _ _ _ (G_24 ) _). unfold act_24. val.
  Qed.

  (* asn1.y:400 *)
  Lemma sound_25 : Sound 25 act_default.
  Proof.
    intros d its H. change (rhs 25) with [68; -123; 42] in H. cbn [matches] in H.
    destruct H as (i1 & its1 & -> & H1 & i2 & its2 & -> & H2 & i3 & its3 & -> & H3 & ->).
    apply holds_tk in H1 as (t1 & -> & K1 & V1); [|reflexivity]. apply (holds_nt N_SymbolsExported) in H2; [|reflexivity|reflexivity]; subst i2. apply holds_tk in H3 as (t3 & -> & K3 & V3); [|reflexivity].
    change (25 =? 1) with false. cbv iota.
    split; [reflexivity|]. exists N_Exports. split; [reflexivity|].
    change (rule 25) with rule_25. refine (cast _ _ _ _ _ (G_25 t1 t3 K1 K3) _). unfold act_default. val.
  Qed.

  (* asn1.y:401 *)
  Lemma sound_26 : Sound 26 act_default.
  Proof.
    intros d its H. change (rhs 26) with [68; 55; 42] in H. cbn [matches] in H.
    destruct H as (i1 & its1 & -> & H1 & i2 & its2 & -> & H2 & i3 & its3 & -> & H3 & ->).
    apply holds_tk in H1 as (t1 & -> & K1 & V1); [|reflexivity]. apply holds_tk in H2 as (t2 & -> & K2 & V2); [|reflexivity]. apply holds_tk in H3 as (t3 & -> & K3 & V3); [|reflexivity].
    change (26 =? 1) with false. cbv iota.
    split; [reflexivity|]. exists N_Exports. split; [reflexivity|].
    change (rule 26) with rule_26. refine (cast _ _ _ _ _ (G_26 t1 t2 t3 K1 K2 K3) _). unfold act_default. val.
  Qed.

  (* asn1.y:403 *)
  Lemma sound_27 : Sound 27 act_default.
  Proof.
    intros d its H. change (rhs 27) with (@nil Z) in H. cbn [matches] in H.
    subst its.
    
    change (27 =? 1) with false. cbv iota.
    split; [reflexivity|]. exists N_Exports. split; [reflexivity|].
    change (rule 27) with rule_27. refine (cast _ _ _ _ _ (G_27 ) _). unfold act_default. val.
  Qed.

  (* asn1.y:405 *)
  Lemma sound_28 : Sound 28 act_default.
  Proof.
    intros d its H. change (rhs 28) with [-99] in H. cbn [matches] in H.
    destruct H as (i1 & its1 & -> & H1 & ->).
    apply (holds_nt N_SymbolList) in H1; [|reflexivity|reflexivity]; subst i1.
    change (28 =? 1) with false. cbv iota.
    split; [reflexivity|]. exists N_SymbolsExported. split; [reflexivity|].
    change (rule 28) with rule_28. refine (cast _ _ _ _ _ (G_28 _) _). unfold act_default. val.
  Qed.

  (* asn1.y:407 *)
  Lemma sound_29 : Sound 29 act_default.
  Proof.
    intros d its H. change (rhs 29) with (@nil Z) in H. cbn [matches] in H.
    subst its.
    
    change (29 =? 1) with false. cbv iota.
    split; [reflexivity|]. exists N_SymbolsExported. split; [reflexivity|].
    change (rule 29) with rule_29. refine (cast _ _ _ _ _ (G_29 ) _). unfold act_default. val.
  Qed.

  (* asn1.y:409 *)
  Lemma sound_30 : Sound 30 (act_30).
  Proof.
    intros d its H. change (rhs 30) with [116; -96; 42] in H. cbn [matches] in H.
    destruct H as (i1 & its1 & -> & H1 & i2 & its2 & -> & H2 & i3 & its3 & -> & H3 & ->).
    apply holds_tk in H1 as (t1 & -> & K1 & V1); [|reflexivity]. apply (holds_nt N_SymbolsImported) in H2; [|reflexivity|reflexivity]; subst i2. apply holds_tk in H3 as (t3 & -> & K3 & V3); [|reflexivity].
    change (30 =? 1) with false. cbv iota.
    split; [reflexivity|]. exists N_Imports. split; [reflexivity|].
    change (rule 30) with rule_30. refine (cast _ _ _ _ _ (G_30 t1 _ t3 K1 K3) _). unfold act_30. val.
  Qed.

  (* asn1.y:410 *)
  Lemma sound_31 : Sound 31 (act_31).
  Proof.
    intros d its H. change (rhs 31) with (@nil Z) in H. cbn [matches] in H.
    subst its.
    
    change (31 =? 1) with false. cbv iota.
    split; [reflexivity|]. exists N_Imports. split; [reflexivity|].
    change (rule 31) with rule_31. refine (cast _ _ _ _ _ (G_31 ) _). unfold act_31. val.
  Qed.

  (* asn1.y:413 *)
  Lemma sound_32 : Sound 32 (act_32).
  Proof.
    intros d its H. change (rhs 32) with [-97] in H. cbn [matches] in H.
    destruct H as (i1 & its1 & -> & H1 & ->).
    apply (holds_nt N_SymbolsFromModuleList) in H1; [|reflexivity|reflexivity]; subst i1.
    change (32 =? 1) with false. cbv iota.
    split; [reflexivity|]. exists N_SymbolsImported. split; [reflexivity|].
    change (rule 32) with rule_32. refine (cast _ _ _ _ _ (G_32 _) _). unfold act_32. val.
  Qed.

  (* asn1.y:414 *)
  Lemma sound_33 : Sound 33 (act_33).
  Proof.
    intros d its H. change (rhs 33) with (@nil Z) in H. cbn [matches] in H.
    subst its.
    
    change (33 =? 1) with false. cbv iota.
    split; [reflexivity|]. exists N_SymbolsImported. split; [reflexivity|].
    change (rule 33) with rule_33. refine (cast _ _ _ _ _ (G_33 ) _). unfold act_33. val.
  Qed.

  (* asn1.y:417 *)
  Lemma sound_34 : Sound 34 (act_34).
  Proof.
    intros d its H. change (rhs 34) with [-98] in H. cbn [matches] in H.
    destruct H as (i1 & its1 & -> & H1 & ->).
    apply (holds_nt N_SymbolsFromModule) in H1; [|reflexivity|reflexivity]; subst i1.
    change (34 =? 1) with false. cbv iota.
    split; [reflexivity|]. exists N_SymbolsFromModuleList. split; [reflexivity|].
    change (rule 34) with rule_34. refine (cast _ _ _ _ _ (G_34 _) _). unfold act_34. val.
  Qed.

  (* asn1.y:418 *)
  Lemma sound_35 : Sound 35 (act_35).
  Proof.
    intros d its H. change (rhs 35) with [-97; -98] in H. cbn [matches] in H.
    destruct H as (i1 & its1 & -> & H1 & i2 & its2 & -> & H2 & ->).
    apply (holds_nt N_SymbolsFromModuleList) in H1; [|reflexivity|reflexivity]; subst i1. apply (holds_nt N_SymbolsFromModule) in H2; [|reflexivity|reflexivity]; subst i2.
    change (35 =? 1) with false. cbv iota.
    split; [reflexivity|]. exists N_SymbolsFromModuleList. split; [reflexivity|].
    change (rule 35) with rule_35. refine (cast _ _ _ _ _ (G_35 _ _) _). unfold act_35. val.
  Qed.

  (* asn1.y:421 *)
  Lemma sound_36 : Sound 36 (act_36).
  Proof.
    intros d its H. change (rhs 36) with [-99; 84; -103] in H. cbn [matches] in H.
    destruct H as (i1 & its1 & -> & H1 & i2 & its2 & -> & H2 & i3 & its3 & -> & H3 & ->).
    apply (holds_nt N_SymbolList) in H1; [|reflexivity|reflexivity]; subst i1. apply holds_tk in H2 as (t2 & -> & K2 & V2); [|reflexivity]. apply (holds_nt N_GlobalModuleReference) in H3; [|reflexivity|reflexivity]; subst i3.
    change (36 =? 1) with false. cbv iota.
    split; [reflexivity|]. exists N_SymbolsFromModule. split; [reflexivity|].
    change (rule 36) with rule_36. refine (cast _ _ _ _ _ (G_36 _ t2 _ K2) _). unfold act_36. val.
  Qed.

  (* asn1.y:424 *)
  Lemma sound_37 : Sound 37 (act_37).
  Proof.
    intros d its H. change (rhs 37) with [-3; -102] in H. cbn [matches] in H.
    destruct H as (i1 & its1 & -> & H1 & i2 & its2 & -> & H2 & ->).
    apply (holds_nt N_modulereference) in H1; [|reflexivity|reflexivity]; subst i1. apply (holds_nt N_AssignedIdentifier) in H2; [|reflexivity|reflexivity]; subst i2.
    change (37 =? 1) with false. cbv iota.
    split; [reflexivity|]. exists N_GlobalModuleReference. split; [reflexivity|].
    change (rule 37) with rule_37. refine (cast _ _ _ _ _ (G_37 _ _) _). unfold act_37. val.
  Qed.

  (* asn1.y:427 *)
  Lemma sound_38 : Sound 38 (act_38).
  Proof.
    intros d its H. change (rhs 38) with [-29] in H. cbn [matches] in H.
    destruct H as (i1 & its1 & -> & H1 & ->).
    apply (holds_nt N_ObjectIdentifierValue) in H1; [|reflexivity|reflexivity]; subst i1.
    change (38 =? 1) with false. cbv iota.
    split; [reflexivity|]. exists N_AssignedIdentifier. split; [reflexivity|].
    change (rule 38) with rule_38. refine (cast _ _ _ _ _ (G_38 _) _). unfold act_38. val.
  Qed.

  (* asn1.y:428 *)
  Lemma sound_39 : Sound 39 (act_39).
  Proof.
    intros d its H. change (rhs 39) with [-15] in H. cbn [matches] in H.
    destruct H as (i1 & its1 & -> & H1 & ->).
    apply (holds_nt N_DefinedValue) in H1; [|reflexivity|reflexivity]; subst i1.
    change (39 =? 1) with false. cbv iota.
    split; [reflexivity|]. exists N_AssignedIdentifier. split; [reflexivity|].
    change (rule 39) with rule_39. refine (cast _ _ _ _ _ (G_39 _) _). unfold act_39. val.
  Qed.

  (* asn1.y:429 *)
  Lemma sound_40 : Sound 40 (act_40).
  Proof.
    intros d its H. change (rhs 40) with (@nil Z) in H. cbn [matches] in H.
    subst its.
    
    change (40 =? 1) with false. cbv iota.
    split; [reflexivity|]. exists N_AssignedIdentifier. split; [reflexivity|].
    change (rule 40) with rule_40. refine (cast _ _ _ _ _ (G_40 ) _). unfold act_40. val.
  Qed.

  (* asn1.y:432 *)
  Lemma sound_41 : Sound 41 (act_41).
  Proof.
    intros d its H. change (rhs 41) with [-100] in H. cbn [matches] in H.
    destruct H as (i1 & its1 & -> & H1 & ->).
    apply (holds_nt N_Symbol) in H1; [|reflexivity|reflexivity]; subst i1.
    change (41 =? 1) with false. cbv iota.
    split; [reflexivity|]. exists N_SymbolList. split; [reflexivity|].
    change (rule 41) with rule_41. refine (cast _ _ _ _ _ (G_41 _) _). unfold act_41. val.
  Qed.

  (* asn1.y:433 *)
  Lemma sound_42 : Sound 42 (act_42).
  Proof.
    intros d its H. change (rhs 42) with [-99; 30; -100] in H. cbn [matches] in H.
    destruct H as (i1 & its1 & -> & H1 & i2 & its2 & -> & H2 & i3 & its3 & -> & H3 & ->).
    apply (holds_nt N_SymbolList) in H1; [|reflexivity|reflexivity]; subst i1. apply holds_tk in H2 as (t2 & -> & K2 & V2); [|reflexivity]. apply (holds_nt N_Symbol) in H3; [|reflexivity|reflexivity]; subst i3.
    change (42 =? 1) with false. cbv iota.
    split; [reflexivity|]. exists N_SymbolList. split; [reflexivity|].
    change (rule 42) with rule_42. refine (cast _ _ _ _ _ (G_42 _ t2 _ K2) _). unfold act_42. val.
  Qed.

  (* asn1.y:436 *)
  Lemma sound_43 : Sound 43 act_default.
  Proof.
    intros d its H. change (rhs 43) with [-101] in H. cbn [matches] in H.
    destruct H as (i1 & its1 & -> & H1 & ->).
    apply (holds_nt N_Reference) in H1; [|reflexivity|reflexivity]; subst i1.
    change (43 =? 1) with false. cbv iota.
    split; [reflexivity|]. exists N_Symbol. split; [reflexivity|].
    change (rule 43) with rule_43. refine (cast _ _ _ _ _ (G_43 _) _). unfold act_default. val.
  Qed.

  (* asn1.y:440 *)
  Lemma sound_44 : Sound 44 (act_44).
  Proof.
    intros d its H. change (rhs 44) with [-4] in H. cbn [matches] in H.
    destruct H as (i1 & its1 & -> & H1 & ->).
    apply (holds_nt N_typereference) in H1; [|reflexivity|reflexivity]; subst i1.
    change (44 =? 1) with false. cbv iota.
    split; [reflexivity|]. exists N_Reference. split; [reflexivity|].
    change (rule 44) with rule_44. refine (cast _ _ _ _ _ (G_44 _) _). unfold act_44. val.
  Qed.

  (* asn1.y:441 *)
  Lemma sound_45 : Sound 45 (act_45).
  Proof.
    intros d its H. change (rhs 45) with [-3] in H. cbn [matches] in H.
    destruct H as (i1 & its1 & -> & H1 & ->).
    apply (holds_nt N_modulereference) in H1; [|reflexivity|reflexivity]; subst i1.
    change (45 =? 1) with false. cbv iota.
    split; [reflexivity|]. exists N_Reference. split; [reflexivity|].
    change (rule 45) with rule_45. refine (cast _ _ _ _ _ (G_45 _) _). unfold act_45. val.
  Qed.

  (* asn1.y:442 *)
  Lemma sound_46 : Sound 46 (act_46).
  Proof.
    intros d its H. change (rhs 46) with [-45] in H. cbn [matches] in H.
    destruct H as (i1 & its1 & -> & H1 & ->).
    apply (holds_nt N_valuereference) in H1; [|reflexivity|reflexivity]; subst i1.
    change (46 =? 1) with false. cbv iota.
    split; [reflexivity|]. exists N_Reference. split; [reflexivity|].
    change (rule 46) with rule_46. refine (cast _ _ _ _ _ (G_46 _) _). unfold act_46. val.
  Qed.

  (* asn1.y:448 *)
  Lemma sound_47 : Sound 47 (act_47).
  Proof.
    intros d its H. change (rhs 47) with [-40] in H. cbn [matches] in H.
    destruct H as (i1 & its1 & -> & H1 & ->).
    apply (holds_nt N_Assignment) in H1; [|reflexivity|reflexivity]; subst i1.
    change (47 =? 1) with false. cbv iota.
    split; [reflexivity|]. exists N_AssignmentList. split; [reflexivity|].
    change (rule 47) with rule_47. refine (cast _ _ _ _ _ (G_47 _) _). unfold act_47. val.
  Qed.

  (* asn1.y:449 *)
  Lemma sound_48 : Sound 48 (act_48).
  Proof.
    intros d its H. change (rhs 48) with [-43; -40] in H. cbn [matches] in H.
    destruct H as (i1 & its1 & -> & H1 & i2 & its2 & -> & H2 & ->).
    apply (holds_nt N_AssignmentList) in H1; [|reflexivity|reflexivity]; subst i1. apply (holds_nt N_Assignment) in H2; [|reflexivity|reflexivity]; subst i2.
    change (48 =? 1) with false. cbv iota.
    split; [reflexivity|]. exists N_AssignmentList. split; [reflexivity|].
    change (rule 48) with rule_48. refine (cast _ _ _ _ _ (G_48 _ _) _). unfold act_48. val.
  Qed.

  (* asn1.y:452 *)
  Lemma sound_49 : Sound 49 act_default.
  Proof.
    intros d its H. change (rhs 49) with [-42] in H. cbn [matches] in H.
    destruct H as (i1 & its1 & -> & H1 & ->).
    apply (holds_nt N_TypeAssignment) in H1; [|reflexivity|reflexivity]; subst i1.
    change (49 =? 1) with false. cbv iota.
    split; [reflexivity|]. exists N_Assignment. split; [reflexivity|].
    change (rule 49) with rule_49. refine (cast _ _ _ _ _ (G_49 _) _). unfold act_default. val.
  Qed.

  (* asn1.y:453 *)
  Lemma sound_50 : Sound 50 act_default.
  Proof.
    intros d its H. change (rhs 50) with [-41] in H. cbn [matches] in H.
    destruct H as (i1 & its1 & -> & H1 & ->).
    apply (holds_nt N_ValueAssignment) in H1; [|reflexivity|reflexivity]; subst i1.
    change (50 =? 1) with false. cbv iota.
    split; [reflexivity|]. exists N_Assignment. split; [reflexivity|].
    change (rule 50) with rule_50. refine (cast _ _ _ _ _ (G_50 _) _). unfold act_default. val.
  Qed.

  (* asn1.y:465 *)
  Lemma sound_51 : Sound 51 (act_51).
  Proof.
    intros d its H. change (rhs 51) with [-4] in H. cbn [matches] in H.
    destruct H as (i1 & its1 & -> & H1 & ->).
    apply (holds_nt N_typereference) in H1; [|reflexivity|reflexivity]; subst i1.
    change (51 =? 1) with false. cbv iota.
    split; [reflexivity|]. exists N_DefinedType. split; [reflexivity|].
    change (rule 51) with rule_51. refine (cast _ _ _ _ _ (G_51 _) _). unfold act_51. val.
  Qed.

  (* asn1.y:473 *)
  Lemma sound_52 : Sound 52 (act_52).
  Proof.
    intros d its H. change (rhs 52) with [-3; 31; -45] in H. cbn [matches] in H.
    destruct H as (i1 & its1 & -> & H1 & i2 & its2 & -> & H2 & i3 & its3 & -> & H3 & ->).
    apply (holds_nt N_modulereference) in H1; [|reflexivity|reflexivity]; subst i1. apply holds_tk in H2 as (t2 & -> & K2 & V2); [|reflexivity]. apply (holds_nt N_valuereference) in H3; [|reflexivity|reflexivity]; subst i3.
    change (52 =? 1) with false. cbv iota.
    split; [reflexivity|]. exists N_DefinedValue. split; [reflexivity|].
    change (rule 52) with rule_52. refine (cast _ _ _ _ _ (G_52 _ t2 _ K2) _). unfold act_52. val.
  Qed.

  (* asn1.y:474 *)
  Lemma sound_53 : Sound 53 (act_53).
  Proof.
    intros d its H. change (rhs 53) with [-45] in H. cbn [matches] in H.
    destruct H as (i1 & its1 & -> & H1 & ->).
    apply (holds_nt N_valuereference) in H1; [|reflexivity|reflexivity]; subst i1.
    change (53 =? 1) with false. cbv iota.
    split; [reflexivity|]. exists N_DefinedValue. split; [reflexivity|].
    change (rule 53) with rule_53. refine (cast _ _ _ _ _ (G_53 _) _). unfold act_53. val.
  Qed.

  (* asn1.y:489 *)
  Lemma sound_54 : Sound 54 (act_54).
  Proof.
    intros d its H. change (rhs 54) with [-4; 15; -20] in H. cbn [matches] in H.
    destruct H as (i1 & its1 & -> & H1 & i2 & its2 & -> & H2 & i3 & its3 & -> & H3 & ->).
    apply (holds_nt N_typereference) in H1; [|reflexivity|reflexivity]; subst i1. apply holds_tk in H2 as (t2 & -> & K2 & V2); [|reflexivity]. apply (holds_nt N_Type) in H3; [|reflexivity|reflexivity]; subst i3.
    change (54 =? 1) with false. cbv iota.
    split; [reflexivity|]. exists N_TypeAssignment. split; [reflexivity|].
    change (rule 54) with rule_54. refine (cast _ _ _ _ _ (G_54 _ t2 _ K2) _). unfold act_54. val.
  Qed.

  (* asn1.y:492 *)
  Lemma sound_55 : Sound 55 (act_55).
  Proof.
    intros d its H. change (rhs 55) with [-45; -20; 15; -31] in H. cbn [matches] in H.
    destruct H as (i1 & its1 & -> & H1 & i2 & its2 & -> & H2 & i3 & its3 & -> & H3 & i4 & its4 & -> & H4 & ->).
    apply (holds_nt N_valuereference) in H1; [|reflexivity|reflexivity]; subst i1. apply (holds_nt N_Type) in H2; [|reflexivity|reflexivity]; subst i2. apply holds_tk in H3 as (t3 & -> & K3 & V3); [|reflexivity]. apply (holds_nt N_Value) in H4; [|reflexivity|reflexivity]; subst i4.
    change (55 =? 1) with false. cbv iota.
    split; [reflexivity|]. exists N_ValueAssignment. split; [reflexivity|].
    change (rule 55) with rule_55. refine (cast _ _ _ _ _ (G_55 _ _ t3 _ K3) _). unfold act_55. val.
  Qed.

  (* asn1.y:497 *)
  Lemma sound_56 : Sound 56 act_default.
  Proof.
    intros d its H. change (rhs 56) with [-19] in H. cbn [matches] in H.
    destruct H as (i1 & its1 & -> & H1 & ->).
    apply (holds_nt N_BuiltinType) in H1; [|reflexivity|reflexivity]; subst i1.
    change (56 =? 1) with false. cbv iota.
    split; [reflexivity|]. exists N_Type. split; [reflexivity|].
    change (rule 56) with rule_56. refine (cast _ _ _ _ _ (G_56 _) _). unfold act_default. val.
  Qed.

  (* asn1.y:498 *)
  Lemma sound_57 : Sound 57 act_default.
  Proof.
    intros d its H. change (rhs 57) with [-77] in H. cbn [matches] in H.
    destruct H as (i1 & its1 & -> & H1 & ->).
    apply (holds_nt N_ReferencedType) in H1; [|reflexivity|reflexivity]; subst i1.
    change (57 =? 1) with false. cbv iota.
    split; [reflexivity|]. exists N_Type. split; [reflexivity|].
    change (rule 57) with rule_57. refine (cast _ _ _ _ _ (G_57 _) _). unfold act_default. val.
  Qed.

  (* asn1.y:499 *)
  Lemma sound_58 : Sound 58 act_default.
  Proof.
    intros d its H. change (rhs 58) with [-46] in H. cbn [matches] in H.
    destruct H as (i1 & its1 & -> & H1 & ->).
    apply (holds_nt N_ConstrainedType) in H1; [|reflexivity|reflexivity]; subst i1.
    change (58 =? 1) with false. cbv iota.
    split; [reflexivity|]. exists N_Type. split; [reflexivity|].
    change (rule 58) with rule_58. refine (cast _ _ _ _ _ (G_58 _) _). unfold act_default. val.
  Qed.

  (* asn1.y:504 *)
  Lemma sound_59 : Sound 59 act_default.
  Proof.
    intros d its H. change (rhs 59) with [-92] in H. cbn [matches] in H.
    destruct H as (i1 & its1 & -> & H1 & ->).
    apply (holds_nt N_BitStringType) in H1; [|reflexivity|reflexivity]; subst i1.
    change (59 =? 1) with false. cbv iota.
    split; [reflexivity|]. exists N_BuiltinType. split; [reflexivity|].
    change (rule 59) with rule_59. refine (cast _ _ _ _ _ (G_59 _) _). unfold act_default. val.
  Qed.

  (* asn1.y:505 *)
  Lemma sound_60 : Sound 60 act_default.
  Proof.
    intros d its H. change (rhs 60) with [-18] in H. cbn [matches] in H.
    destruct H as (i1 & its1 & -> & H1 & ->).
    apply (holds_nt N_BooleanType) in H1; [|reflexivity|reflexivity]; subst i1.
    change (60 =? 1) with false. cbv iota.
    split; [reflexivity|]. exists N_BuiltinType. split; [reflexivity|].
    change (rule 60) with rule_60. refine (cast _ _ _ _ _ (G_60 _) _). unfold act_default. val.
  Qed.

  (* asn1.y:506 *)
  Lemma sound_61 : Sound 61 act_default.
  Proof.
    intros d its H. change (rhs 61) with [-73] in H. cbn [matches] in H.
    destruct H as (i1 & its1 & -> & H1 & ->).
    apply (holds_nt N_CharacterStringType) in H1; [|reflexivity|reflexivity]; subst i1.
    change (61 =? 1) with false. cbv iota.
    split; [reflexivity|]. exists N_BuiltinType. split; [reflexivity|].
    change (rule 61) with rule_61. refine (cast _ _ _ _ _ (G_61 _) _). unfold act_default. val.
  Qed.

  (* asn1.y:507 *)
  Lemma sound_62 : Sound 62 act_default.
  Proof.
    intros d its H. change (rhs 62) with [-104] in H. cbn [matches] in H.
    destruct H as (i1 & its1 & -> & H1 & ->).
    apply (holds_nt N_ChoiceType) in H1; [|reflexivity|reflexivity]; subst i1.
    change (62 =? 1) with false. cbv iota.
    split; [reflexivity|]. exists N_BuiltinType. split; [reflexivity|].
    change (rule 62) with rule_62. refine (cast _ _ _ _ _ (G_62 _) _). unfold act_default. val.
  Qed.

  (* asn1.y:509 *)
  Lemma sound_63 : Sound 63 act_default.
  Proof.
    intros d its H. change (rhs 63) with [-22] in H. cbn [matches] in H.
    destruct H as (i1 & its1 & -> & H1 & ->).
    apply (holds_nt N_EnumeratedType) in H1; [|reflexivity|reflexivity]; subst i1.
    change (63 =? 1) with false. cbv iota.
    split; [reflexivity|]. exists N_BuiltinType. split; [reflexivity|].
    change (rule 63) with rule_63. refine (cast _ _ _ _ _ (G_63 _) _). unfold act_default. val.
  Qed.

  (* asn1.y:512 *)
  Lemma sound_64 : Sound 64 act_default.
  Proof.
    intros d its H. change (rhs 64) with [-17] in H. cbn [matches] in H.
    destruct H as (i1 & its1 & -> & H1 & ->).
    apply (holds_nt N_IntegerType) in H1; [|reflexivity|reflexivity]; subst i1.
    change (64 =? 1) with false. cbv iota.
    split; [reflexivity|]. exists N_BuiltinType. split; [reflexivity|].
    change (rule 64) with rule_64. refine (cast _ _ _ _ _ (G_64 _) _). unfold act_default. val.
  Qed.

  (* asn1.y:513 *)
  Lemma sound_65 : Sound 65 act_default.
  Proof.
    intros d its H. change (rhs 65) with [-21] in H. cbn [matches] in H.
    destruct H as (i1 & its1 & -> & H1 & ->).
    apply (holds_nt N_NullType) in H1; [|reflexivity|reflexivity]; subst i1.
    change (65 =? 1) with false. cbv iota.
    split; [reflexivity|]. exists N_BuiltinType. split; [reflexivity|].
    change (rule 65) with rule_65. refine (cast _ _ _ _ _ (G_65 _) _). unfold act_default. val.
  Qed.

  (* asn1.y:515 *)
  Lemma sound_66 : Sound 66 act_default.
  Proof.
    intros d its H. change (rhs 66) with [-16] in H. cbn [matches] in H.
    destruct H as (i1 & its1 & -> & H1 & ->).
    apply (holds_nt N_ObjectIdentifierType) in H1; [|reflexivity|reflexivity]; subst i1.
    change (66 =? 1) with false. cbv iota.
    split; [reflexivity|]. exists N_BuiltinType. split; [reflexivity|].
    change (rule 66) with rule_66. refine (cast _ _ _ _ _ (G_66 _) _). unfold act_default. val.
  Qed.

  (* asn1.y:516 *)
  Lemma sound_67 : Sound 67 act_default.
  Proof.
    intros d its H. change (rhs 67) with [-91] in H. cbn [matches] in H.
    destruct H as (i1 & its1 & -> & H1 & ->).
    apply (holds_nt N_OctetStringType) in H1; [|reflexivity|reflexivity]; subst i1.
    change (67 =? 1) with false. cbv iota.
    split; [reflexivity|]. exists N_BuiltinType. split; [reflexivity|].
    change (rule 67) with rule_67. refine (cast _ _ _ _ _ (G_67 _) _). unfold act_default. val.
  Qed.

  (* asn1.y:517 *)
  Lemma sound_68 : Sound 68 act_default.
  Proof.
    intros d its H. change (rhs 68) with [-33] in H. cbn [matches] in H.
    destruct H as (i1 & its1 & -> & H1 & ->).
    apply (holds_nt N_RealType) in H1; [|reflexivity|reflexivity]; subst i1.
    change (68 =? 1) with false. cbv iota.
    split; [reflexivity|]. exists N_BuiltinType. split; [reflexivity|].
    change (rule 68) with rule_68. refine (cast _ _ _ _ _ (G_68 _) _). unfold act_default. val.
  Qed.

  (* asn1.y:519 *)
  Lemma sound_69 : Sound 69 act_default.
  Proof.
    intros d its H. change (rhs 69) with [-78] in H. cbn [matches] in H.
    destruct H as (i1 & its1 & -> & H1 & ->).
    apply (holds_nt N_SequenceType) in H1; [|reflexivity|reflexivity]; subst i1.
    change (69 =? 1) with false. cbv iota.
    split; [reflexivity|]. exists N_BuiltinType. split; [reflexivity|].
    change (rule 69) with rule_69. refine (cast _ _ _ _ _ (G_69 _) _). unfold act_default. val.
  Qed.

  (* asn1.y:520 *)
  Lemma sound_70 : Sound 70 act_default.
  Proof.
    intros d its H. change (rhs 70) with [-79] in H. cbn [matches] in H.
    destruct H as (i1 & its1 & -> & H1 & ->).
    apply (holds_nt N_SequenceOfType) in H1; [|reflexivity|reflexivity]; subst i1.
    change (70 =? 1) with false. cbv iota.
    split; [reflexivity|]. exists N_BuiltinType. split; [reflexivity|].
    change (rule 70) with rule_70. refine (cast _ _ _ _ _ (G_70 _) _). unfold act_default. val.
  Qed.

  (* asn1.y:521 *)
  Lemma sound_71 : Sound 71 act_default.
  Proof.
    intros d its H. change (rhs 71) with [-80] in H. cbn [matches] in H.
    destruct H as (i1 & its1 & -> & H1 & ->).
    apply (holds_nt N_SetType) in H1; [|reflexivity|reflexivity]; subst i1.
    change (71 =? 1) with false. cbv iota.
    split; [reflexivity|]. exists N_BuiltinType. split; [reflexivity|].
    change (rule 71) with rule_71. refine (cast _ _ _ _ _ (G_71 _) _). unfold act_default. val.
  Qed.

  (* asn1.y:522 *)
  Lemma sound_72 : Sound 72 act_default.
  Proof.
    intros d its H. change (rhs 72) with [-81] in H. cbn [matches] in H.
    destruct H as (i1 & its1 & -> & H1 & ->).
    apply (holds_nt N_SetOfType) in H1; [|reflexivity|reflexivity]; subst i1.
    change (72 =? 1) with false. cbv iota.
    split; [reflexivity|]. exists N_BuiltinType. split; [reflexivity|].
    change (rule 72) with rule_72. refine (cast _ _ _ _ _ (G_72 _) _). unfold act_default. val.
  Qed.

  (* asn1.y:524 *)
  Lemma sound_73 : Sound 73 act_default.
  Proof.
    intros d its H. change (rhs 73) with [-23] in H. cbn [matches] in H.
    destruct H as (i1 & its1 & -> & H1 & ->).
    apply (holds_nt N_AnyType) in H1; [|reflexivity|reflexivity]; subst i1.
    change (73 =? 1) with false. cbv iota.
    split; [reflexivity|]. exists N_BuiltinType. split; [reflexivity|].
    change (rule 73) with rule_73. refine (cast _ _ _ _ _ (G_73 _) _). unfold act_default. val.
  Qed.

  (* asn1.y:525 *)
  Lemma sound_74 : Sound 74 act_default.
  Proof.
    intros d its H. change (rhs 74) with [-86] in H. cbn [matches] in H.
    destruct H as (i1 & its1 & -> & H1 & ->).
    apply (holds_nt N_TaggedType) in H1; [|reflexivity|reflexivity]; subst i1.
    change (74 =? 1) with false. cbv iota.
    split; [reflexivity|]. exists N_BuiltinType. split; [reflexivity|].
    change (rule 74) with rule_74. refine (cast _ _ _ _ _ (G_74 _) _). unfold act_default. val.
  Qed.

  (* asn1.y:530 *)
  Lemma sound_75 : Sound 75 act_default.
  Proof.
    intros d its H. change (rhs 75) with [-76] in H. cbn [matches] in H.
    destruct H as (i1 & its1 & -> & H1 & ->).
    apply (holds_nt N_DefinedType) in H1; [|reflexivity|reflexivity]; subst i1.
    change (75 =? 1) with false. cbv iota.
    split; [reflexivity|]. exists N_ReferencedType. split; [reflexivity|].
    change (rule 75) with rule_75. refine (cast _ _ _ _ _ (G_75 _) _). unfold act_default. val.
  Qed.

  (* asn1.y:531 *)
  Lemma sound_76 : Sound 76 act_default.
  Proof.
    intros d its H. change (rhs 76) with [-90] in H. cbn [matches] in H.
    destruct H as (i1 & its1 & -> & H1 & ->).
    apply (holds_nt N_UsefulType) in H1; [|reflexivity|reflexivity]; subst i1.
    change (76 =? 1) with false. cbv iota.
    split; [reflexivity|]. exists N_ReferencedType. split; [reflexivity|].
    change (rule 76) with rule_76. refine (cast _ _ _ _ _ (G_76 _) _). unfold act_default. val.
  Qed.

  (* asn1.y:539 *)
  Lemma sound_77 : Sound 77 (act_77).
  Proof.
    intros d its H. change (rhs 77) with [-5; -20] in H. cbn [matches] in H.
    destruct H as (i1 & its1 & -> & H1 & i2 & its2 & -> & H2 & ->).
    apply (holds_nt N_identifier) in H1; [|reflexivity|reflexivity]; subst i1. apply (holds_nt N_Type) in H2; [|reflexivity|reflexivity]; subst i2.
    change (77 =? 1) with false. cbv iota.
    split; [reflexivity|]. exists N_NamedType. split; [reflexivity|].
    change (rule 77) with rule_77. refine (cast _ _ _ _ _ (G_77 _ _) _). unfold act_77. val.
  Qed.

  (* asn1.y:544 *)
  Lemma sound_78 : Sound 78 act_default.
  Proof.
    intros d its H. change (rhs 78) with [-30] in H. cbn [matches] in H.
    destruct H as (i1 & its1 & -> & H1 & ->).
    apply (holds_nt N_BuiltinValue) in H1; [|reflexivity|reflexivity]; subst i1.
    change (78 =? 1) with false. cbv iota.
    split; [reflexivity|]. exists N_Value. split; [reflexivity|].
    change (rule 78) with rule_78. refine (cast _ _ _ _ _ (G_78 _) _). unfold act_default. val.
  Qed.

  (* asn1.y:553 *)
  Lemma sound_79 : Sound 79 act_default.
  Proof.
    intros d its H. change (rhs 79) with [-35] in H. cbn [matches] in H.
    destruct H as (i1 & its1 & -> & H1 & ->).
    apply (holds_nt N_BooleanValue) in H1; [|reflexivity|reflexivity]; subst i1.
    change (79 =? 1) with false. cbv iota.
    split; [reflexivity|]. exists N_BuiltinValue. split; [reflexivity|].
    change (rule 79) with rule_79. refine (cast _ _ _ _ _ (G_79 _) _). unfold act_default. val.
  Qed.

  (* asn1.y:560 *)
  Lemma sound_80 : Sound 80 act_default.
  Proof.
    intros d its H. change (rhs 80) with [-32] in H. cbn [matches] in H.
    destruct H as (i1 & its1 & -> & H1 & ->).
    apply (holds_nt N_IntegerValue) in H1; [|reflexivity|reflexivity]; subst i1.
    change (80 =? 1) with false. cbv iota.
    split; [reflexivity|]. exists N_BuiltinValue. split; [reflexivity|].
    change (rule 80) with rule_80. refine (cast _ _ _ _ _ (G_80 _) _). unfold act_default. val.
  Qed.

  (* asn1.y:562 *)
  Lemma sound_81 : Sound 81 (act_81).
  Proof.
    intros d its H. change (rhs 81) with [-29] in H. cbn [matches] in H.
    destruct H as (i1 & its1 & -> & H1 & ->).
    apply (holds_nt N_ObjectIdentifierValue) in H1; [|reflexivity|reflexivity]; subst i1.
    change (81 =? 1) with false. cbv iota.
    split; [reflexivity|]. exists N_BuiltinValue. split; [reflexivity|].
    change (rule 81) with rule_81. refine (cast _ _ _ _ _ (G_81 _) _). unfold act_81. val.
  Qed.

  (* asn1.y:564 *)
  Lemma sound_82 : Sound 82 act_default.
  Proof.
    intros d its H. change (rhs 82) with [-34] in H. cbn [matches] in H.
    destruct H as (i1 & its1 & -> & H1 & ->).
    apply (holds_nt N_RealValue) in H1; [|reflexivity|reflexivity]; subst i1.
    change (82 =? 1) with false. cbv iota.
    split; [reflexivity|]. exists N_BuiltinValue. split; [reflexivity|].
    change (rule 82) with rule_82. refine (cast _ _ _ _ _ (G_82 _) _). unfold act_default. val.
  Qed.

  (* asn1.y:575 *)
  Lemma sound_83 : Sound 83 (act_83).
  Proof.
    intros d its H. change (rhs 83) with [79] in H. cbn [matches] in H.
    destruct H as (i1 & its1 & -> & H1 & ->).
    apply holds_tk in H1 as (t1 & -> & K1 & V1); [|reflexivity].
    change (83 =? 1) with false. cbv iota.
    split; [reflexivity|]. exists N_BooleanType. split; [reflexivity|].
    change (rule 83) with rule_83. refine (cast _ _ _ _ _ (G_83 t1 K1) _). unfold act_83. val.
  Qed.

  (* asn1.y:578 *)
  Lemma sound_84 : Sound 84 (act_84).
  Proof.
    intros d its H. change (rhs 84) with [86] in H. cbn [matches] in H.
    destruct H as (i1 & its1 & -> & H1 & ->).
    apply holds_tk in H1 as (t1 & -> & K1 & V1); [|reflexivity].
    change (84 =? 1) with false. cbv iota.
    split; [reflexivity|]. exists N_BooleanValue. split; [reflexivity|].
    change (rule 84) with rule_84. refine (cast _ _ _ _ _ (G_84 t1 K1) _). unfold act_84. val.
  Qed.

  (* asn1.y:579 *)
  Lemma sound_85 : Sound 85 (act_85).
  Proof.
    intros d its H. change (rhs 85) with [80] in H. cbn [matches] in H.
    destruct H as (i1 & its1 & -> & H1 & ->).
    apply holds_tk in H1 as (t1 & -> & K1 & V1); [|reflexivity].
    change (85 =? 1) with false. cbv iota.
    split; [reflexivity|]. exists N_BooleanValue. split; [reflexivity|].
    change (rule 85) with rule_85. refine (cast _ _ _ _ _ (G_85 t1 K1) _). unfold act_85. val.
  Qed.

  (* asn1.y:584 *)
  Lemma sound_86 : Sound 86 (act_86).
  Proof.
    intros d its H. change (rhs 86) with [49] in H. cbn [matches] in H.
    destruct H as (i1 & its1 & -> & H1 & ->).
    apply holds_tk in H1 as (t1 & -> & K1 & V1); [|reflexivity].
    change (86 =? 1) with false. cbv iota.
    split; [reflexivity|]. exists N_IntegerType. split; [reflexivity|].
    change (rule 86) with rule_86. refine (cast _ _ _ _ _ (G_86 t1 K1) _). unfold act_86. val.
  Qed.

  (* asn1.y:585 *)
  Lemma sound_87 : Sound 87 (act_87).
  Proof.
    intros d its H. change (rhs 87) with [49; 26; -115; 27] in H. cbn [matches] in H.
    destruct H as (i1 & its1 & -> & H1 & i2 & its2 & -> & H2 & i3 & its3 & -> & H3 & i4 & its4 & -> & H4 & ->).
    apply holds_tk in H1 as (t1 & -> & K1 & V1); [|reflexivity]. apply holds_tk in H2 as (t2 & -> & K2 & V2); [|reflexivity]. apply (holds_nt N_NamedNumberList) in H3; [|reflexivity|reflexivity]; subst i3. apply holds_tk in H4 as (t4 & -> & K4 & V4); [|reflexivity].
    change (87 =? 1) with false. cbv iota.
    split; [reflexivity|]. exists N_IntegerType. split; [reflexivity|].
    change (rule 87) with rule_87. refine (cast _ _ _ _ _ (G_87 t1 t2 _ t4 K1 K2 K4) _). unfold act_87. val.
  Qed.

  (* asn1.y:588 *)
  Lemma sound_88 : Sound 88 (act_88).
  Proof.
    intros d its H. change (rhs 88) with [-114] in H. cbn [matches] in H.
    destruct H as (i1 & its1 & -> & H1 & ->).
    apply (holds_nt N_NamedNumber) in H1; [|reflexivity|reflexivity]; subst i1.
    change (88 =? 1) with false. cbv iota.
    split; [reflexivity|]. exists N_NamedNumberList. split; [reflexivity|].
    change (rule 88) with rule_88. refine (cast _ _ _ _ _ (G_88 _) _). unfold act_88. val.
  Qed.

  (* asn1.y:589 *)
  Lemma sound_89 : Sound 89 (act_89).
  Proof.
    intros d its H. change (rhs 89) with [-115; 30; -114] in H. cbn [matches] in H.
    destruct H as (i1 & its1 & -> & H1 & i2 & its2 & -> & H2 & i3 & its3 & -> & H3 & ->).
    apply (holds_nt N_NamedNumberList) in H1; [|reflexivity|reflexivity]; subst i1. apply holds_tk in H2 as (t2 & -> & K2 & V2); [|reflexivity]. apply (holds_nt N_NamedNumber) in H3; [|reflexivity|reflexivity]; subst i3.
    change (89 =? 1) with false. cbv iota.
    split; [reflexivity|]. exists N_NamedNumberList. split; [reflexivity|].
    change (rule 89) with rule_89. refine (cast _ _ _ _ _ (G_89 _ t2 _ K2) _). unfold act_89. val.
  Qed.

  (* asn1.y:592 *)
  Lemma sound_90 : Sound 90 (act_90).
  Proof.
    intros d its H. change (rhs 90) with [-5; 32; -38; 33] in H. cbn [matches] in H.
    destruct H as (i1 & its1 & -> & H1 & i2 & its2 & -> & H2 & i3 & its3 & -> & H3 & i4 & its4 & -> & H4 & ->).
    apply (holds_nt N_identifier) in H1; [|reflexivity|reflexivity]; subst i1. apply holds_tk in H2 as (t2 & -> & K2 & V2); [|reflexivity]. apply (holds_nt N_SignedNumber) in H3; [|reflexivity|reflexivity]; subst i3. apply holds_tk in H4 as (t4 & -> & K4 & V4); [|reflexivity].
    change (90 =? 1) with false. cbv iota.
    split; [reflexivity|]. exists N_NamedNumber. split; [reflexivity|].
    change (rule 90) with rule_90. refine (cast _ _ _ _ _ (G_90 _ t2 _ t4 K2 K4) _). unfold act_90. val.
  Qed.

  (* asn1.y:593 *)
  Lemma sound_91 : Sound 91 (act_91).
  Proof.
    intros d its H. change (rhs 91) with [-5; 32; -15; 33] in H. cbn [matches] in H.
    destruct H as (i1 & its1 & -> & H1 & i2 & its2 & -> & H2 & i3 & its3 & -> & H3 & i4 & its4 & -> & H4 & ->).
    apply (holds_nt N_identifier) in H1; [|reflexivity|reflexivity]; subst i1. apply holds_tk in H2 as (t2 & -> & K2 & V2); [|reflexivity]. apply (holds_nt N_DefinedValue) in H3; [|reflexivity|reflexivity]; subst i3. apply holds_tk in H4 as (t4 & -> & K4 & V4); [|reflexivity].
    change (91 =? 1) with false. cbv iota.
    split; [reflexivity|]. exists N_NamedNumber. split; [reflexivity|].
    change (rule 91) with rule_91. refine (cast _ _ _ _ _ (G_91 _ t2 _ t4 K2 K4) _). unfold act_91. val.
  Qed.

  (* asn1.y:596 *)
  Lemma sound_92 : Sound 92 (act_92).
  Proof.
    intros d its H. change (rhs 92) with [8] in H. cbn [matches] in H.
    destruct H as (i1 & its1 & -> & H1 & ->).
    apply holds_tk in H1 as (t1 & -> & K1 & V1); [|reflexivity].
    change (92 =? 1) with false. cbv iota.
    split; [reflexivity|]. exists N_SignedNumber. split; [reflexivity|].
    change (rule 92) with rule_92. refine (cast _ _ _ _ _ (G_92 t1 K1) _). unfold act_92. val.
  Qed.

  (* asn1.y:597 *)
  Lemma sound_93 : Sound 93 (act_93).
  Proof.
    intros d its H. change (rhs 93) with [36; 8] in H. cbn [matches] in H.
    destruct H as (i1 & its1 & -> & H1 & i2 & its2 & -> & H2 & ->).
    apply holds_tk in H1 as (t1 & -> & K1 & V1); [|reflexivity]. apply holds_tk in H2 as (t2 & -> & K2 & V2); [|reflexivity].
    change (93 =? 1) with false. cbv iota.
    split; [reflexivity|]. exists N_SignedNumber. split; [reflexivity|].
    change (rule 93) with rule_93. refine (cast _ _ _ _ _ (G_93 t1 t2 K1 K2) _). unfold act_93. val.
  Qed.

  (* asn1.y:602 *)
  Lemma sound_94 : Sound 94 (act_94).
  Proof.
    intros d its H. change (rhs 94) with [-38] in H. cbn [matches] in H.
    destruct H as (i1 & its1 & -> & H1 & ->).
    apply (holds_nt N_SignedNumber) in H1; [|reflexivity|reflexivity]; subst i1.
    change (94 =? 1) with false. cbv iota.
    split; [reflexivity|]. exists N_IntegerValue. split; [reflexivity|].
    change (rule 94) with rule_94. refine (cast _ _ _ _ _ (G_94 _) _). unfold act_94. val.
  Qed.

  (* asn1.y:603 *)
  Lemma sound_95 : Sound 95 (act_95).
  Proof.
    intros d its H. change (rhs 95) with [-5] in H. cbn [matches] in H.
    destruct H as (i1 & its1 & -> & H1 & ->).
    apply (holds_nt N_identifier) in H1; [|reflexivity|reflexivity]; subst i1.
    change (95 =? 1) with false. cbv iota.
    split; [reflexivity|]. exists N_IntegerValue. split; [reflexivity|].
    change (rule 95) with rule_95. refine (cast _ _ _ _ _ (G_95 _) _). unfold act_95. val.
  Qed.

  (* asn1.y:608 *)
  Lemma sound_96 : Sound 96 (act_96).
  Proof.
    intros d its H. change (rhs 96) with [56; 26; -116; 27] in H. cbn [matches] in H.
    destruct H as (i1 & its1 & -> & H1 & i2 & its2 & -> & H2 & i3 & its3 & -> & H3 & i4 & its4 & -> & H4 & ->).
    apply holds_tk in H1 as (t1 & -> & K1 & V1); [|reflexivity]. apply holds_tk in H2 as (t2 & -> & K2 & V2); [|reflexivity]. apply (holds_nt N_Enumerations) in H3; [|reflexivity|reflexivity]; subst i3. apply holds_tk in H4 as (t4 & -> & K4 & V4); [|reflexivity].
    change (96 =? 1) with false. cbv iota.
    split; [reflexivity|]. exists N_EnumeratedType. split; [reflexivity|].
    change (rule 96) with rule_96. refine (cast _ _ _ _ _ (G_96 t1 t2 _ t4 K1 K2 K4) _). unfold act_96. val.
  Qed.

  (* asn1.y:611 *)
  Lemma sound_97 : Sound 97 (act_97).
  Proof.
    intros d its H. change (rhs 97) with [-118] in H. cbn [matches] in H.
    destruct H as (i1 & its1 & -> & H1 & ->).
    apply (holds_nt N_RootEnumeration) in H1; [|reflexivity|reflexivity]; subst i1.
    change (97 =? 1) with false. cbv iota.
    split; [reflexivity|]. exists N_Enumerations. split; [reflexivity|].
    change (rule 97) with rule_97. refine (cast _ _ _ _ _ (G_97 _) _). unfold act_97. val.
  Qed.

  (* asn1.y:612 *)
  Lemma sound_98 : Sound 98 (act_98).
  Proof.
    intros d its H. change (rhs 98) with [-118; 30; 17; -124] in H. cbn [matches] in H.
    destruct H as (i1 & its1 & -> & H1 & i2 & its2 & -> & H2 & i3 & its3 & -> & H3 & i4 & its4 & -> & H4 & ->).
    apply (holds_nt N_RootEnumeration) in H1; [|reflexivity|reflexivity]; subst i1. apply holds_tk in H2 as (t2 & -> & K2 & V2); [|reflexivity]. apply holds_tk in H3 as (t3 & -> & K3 & V3); [|reflexivity]. apply (holds_nt N_ExceptionSpec) in H4; [|reflexivity|reflexivity]; subst i4.
    change (98 =? 1) with false. cbv iota.
    split; [reflexivity|]. exists N_Enumerations. split; [reflexivity|].
    change (rule 98) with rule_98. refine (cast _ _ _ _ _ (G_98 _ t2 t3 K2 K3) _). unfold act_98. val.
  Qed.

  (* asn1.y:613 *)
  Lemma sound_99 : Sound 99 (act_99).
  Proof.
    intros d its H. change (rhs 99) with [-118; 30; 17; -124; 30; -119] in H. cbn [matches] in H.
    destruct H as (i1 & its1 & -> & H1 & i2 & its2 & -> & H2 & i3 & its3 & -> & H3 & i4 & its4 & -> & H4 & i5 & its5 & -> & H5 & i6 & its6 & -> & H6 & ->).
    apply (holds_nt N_RootEnumeration) in H1; [|reflexivity|reflexivity]; subst i1. apply holds_tk in H2 as (t2 & -> & K2 & V2); [|reflexivity]. apply holds_tk in H3 as (t3 & -> & K3 & V3); [|reflexivity]. apply (holds_nt N_ExceptionSpec) in H4; [|reflexivity|reflexivity]; subst i4. apply holds_tk in H5 as (t5 & -> & K5 & V5); [|reflexivity]. apply (holds_nt N_AdditionalEnumeration) in H6; [|reflexivity|reflexivity]; subst i6.
    change (99 =? 1) with false. cbv iota.
    split; [reflexivity|]. exists N_Enumerations. split; [reflexivity|].
    change (rule 99) with rule_99. refine (cast _ _ _ _ _ (G_99 _ t2 t3 t5 _ K2 K3 K5) _). unfold act_99. val.
  Qed.

  (* asn1.y:615 *)
  Lemma sound_100 : Sound 100 act_default.
  Proof.
    intros d its H. change (rhs 100) with [-117] in H. cbn [matches] in H.
    destruct H as (i1 & its1 & -> & H1 & ->).
    apply (holds_nt N_Enumeration) in H1; [|reflexivity|reflexivity]; subst i1.
    change (100 =? 1) with false. cbv iota.
    split; [reflexivity|]. exists N_RootEnumeration. split; [reflexivity|].
    change (rule 100) with rule_100. refine (cast _ _ _ _ _ (G_100 _) _). unfold act_default. val.
  Qed.

  (* asn1.y:618 *)
  Lemma sound_101 : Sound 101 act_default.
  Proof.
    intros d its H. change (rhs 101) with [-117] in H. cbn [matches] in H.
    destruct H as (i1 & its1 & -> & H1 & ->).
    apply (holds_nt N_Enumeration) in H1; [|reflexivity|reflexivity]; subst i1.
    change (101 =? 1) with false. cbv iota.
    split; [reflexivity|]. exists N_AdditionalEnumeration. split; [reflexivity|].
    change (rule 101) with rule_101. refine (cast _ _ _ _ _ (G_101 _) _). unfold act_default. val.
  Qed.

  (* asn1.y:621 *)
  Lemma sound_102 : Sound 102 (act_102).
  Proof.
    intros d its H. change (rhs 102) with [-120] in H. cbn [matches] in H.
    destruct H as (i1 & its1 & -> & H1 & ->).
    apply (holds_nt N_EnumerationItem) in H1; [|reflexivity|reflexivity]; subst i1.
    change (102 =? 1) with false. cbv iota.
    split; [reflexivity|]. exists N_Enumeration. split; [reflexivity|].
    change (rule 102) with rule_102. refine (cast _ _ _ _ _ (G_102 _) _). unfold act_102. val.
  Qed.

  (* asn1.y:622 *)
  Lemma sound_103 : Sound 103 (act_103).
  Proof.
    intros d its H. change (rhs 103) with [-120; 30; -117] in H. cbn [matches] in H.
    destruct H as (i1 & its1 & -> & H1 & i2 & its2 & -> & H2 & i3 & its3 & -> & H3 & ->).
    apply (holds_nt N_EnumerationItem) in H1; [|reflexivity|reflexivity]; subst i1. apply holds_tk in H2 as (t2 & -> & K2 & V2); [|reflexivity]. apply (holds_nt N_Enumeration) in H3; [|reflexivity|reflexivity]; subst i3.
    change (103 =? 1) with false. cbv iota.
    split; [reflexivity|]. exists N_Enumeration. split; [reflexivity|].
    change (rule 103) with rule_103. refine (cast _ _ _ _ _ (G_103 _ t2 _ K2) _). unfold act_103. val.
  Qed.

  (* asn1.y:625 *)
  Lemma sound_104 : Sound 104 (act_104).
  Proof.
    intros d its H. change (rhs 104) with [-114] in H. cbn [matches] in H.
    destruct H as (i1 & its1 & -> & H1 & ->).
    apply (holds_nt N_NamedNumber) in H1; [|reflexivity|reflexivity]; subst i1.
    change (104 =? 1) with false. cbv iota.
    split; [reflexivity|]. exists N_EnumerationItem. split; [reflexivity|].
    change (rule 104) with rule_104. refine (cast _ _ _ _ _ (G_104 _) _). unfold act_104. val.
  Qed.

  (* asn1.y:626 *)
  Lemma sound_105 : Sound 105 (act_105).
  Proof.
    intros d its H. change (rhs 105) with [-5] in H. cbn [matches] in H.
    destruct H as (i1 & its1 & -> & H1 & ->).
    apply (holds_nt N_identifier) in H1; [|reflexivity|reflexivity]; subst i1.
    change (105 =? 1) with false. cbv iota.
    split; [reflexivity|]. exists N_EnumerationItem. split; [reflexivity|].
    change (rule 105) with rule_105. refine (cast _ _ _ _ _ (G_105 _) _). unfold act_105. val.
  Qed.

  (* asn1.y:631 *)
  Lemma sound_106 : Sound 106 (act_106).
  Proof.
    intros d its H. change (rhs 106) with [125] in H. cbn [matches] in H.
    destruct H as (i1 & its1 & -> & H1 & ->).
    apply holds_tk in H1 as (t1 & -> & K1 & V1); [|reflexivity].
    change (106 =? 1) with false. cbv iota.
    split; [reflexivity|]. exists N_RealType. split; [reflexivity|].
    change (rule 106) with rule_106. refine (cast _ _ _ _ _ (G_106 t1 K1) _). unfold act_106. val.
  Qed.

  (* asn1.y:636 *)
  Lemma sound_107 : Sound 107 act_default.
  Proof.
    intros d its H. change (rhs 107) with [-36] in H. cbn [matches] in H.
    destruct H as (i1 & its1 & -> & H1 & ->).
    apply (holds_nt N_NumericRealValue) in H1; [|reflexivity|reflexivity]; subst i1.
    change (107 =? 1) with false. cbv iota.
    split; [reflexivity|]. exists N_RealValue. split; [reflexivity|].
    change (rule 107) with rule_107. refine (cast _ _ _ _ _ (G_107 _) _). unfold act_default. val.
  Qed.

  (* asn1.y:637 *)
  Lemma sound_108 : Sound 108 act_default.
  Proof.
    intros d its H. change (rhs 108) with [-37] in H. cbn [matches] in H.
    destruct H as (i1 & its1 & -> & H1 & ->).
    apply (holds_nt N_SpecialRealValue) in H1; [|reflexivity|reflexivity]; subst i1.
    change (108 =? 1) with false. cbv iota.
    split; [reflexivity|]. exists N_RealValue. split; [reflexivity|].
    change (rule 108) with rule_108. refine (cast _ _ _ _ _ (G_108 _) _). unfold act_default. val.
  Qed.

  (* asn1.y:640 *)
  Lemma sound_109 : Sound 109 (act_109).
  Proof.
    intros d its H. change (rhs 109) with [-1] in H. cbn [matches] in H.
    destruct H as (i1 & its1 & -> & H1 & ->).
    apply (holds_nt N_realnumber) in H1; [|reflexivity|reflexivity]; subst i1.
    change (109 =? 1) with false. cbv iota.
    split; [reflexivity|]. exists N_NumericRealValue. split; [reflexivity|].
    change (rule 109) with rule_109. refine (cast _ _ _ _ _ (G_109 _) _). unfold act_109. val.
  Qed.

  (* asn1.y:641 *)
  Lemma sound_110 : Sound 110 (act_110).
  Proof.
    intros d its H. change (rhs 110) with [36; -1] in H. cbn [matches] in H.
    destruct H as (i1 & its1 & -> & H1 & i2 & its2 & -> & H2 & ->).
    apply holds_tk in H1 as (t1 & -> & K1 & V1); [|reflexivity]. apply (holds_nt N_realnumber) in H2; [|reflexivity|reflexivity]; subst i2.
    change (110 =? 1) with false. cbv iota.
    split; [reflexivity|]. exists N_NumericRealValue. split; [reflexivity|].
    change (rule 110) with rule_110. refine (cast _ _ _ _ _ (G_110 t1 _ K1) _). unfold act_110. val.
  Qed.

  (* asn1.y:645 *)
  Lemma sound_111 : Sound 111 (act_111).
  Proof.
    intros d its H. change (rhs 111) with [109] in H. cbn [matches] in H.
    destruct H as (i1 & its1 & -> & H1 & ->).
    apply holds_tk in H1 as (t1 & -> & K1 & V1); [|reflexivity].
    change (111 =? 1) with false. cbv iota.
    split; [reflexivity|]. exists N_SpecialRealValue. split; [reflexivity|].
    change (rule 111) with rule_111. refine (cast _ _ _ _ _ (G_111 t1 K1) _). unfold act_111. val.
  Qed.

  (* asn1.y:646 *)
  Lemma sound_112 : Sound 112 (act_112).
  Proof.
    intros d its H. change (rhs 112) with [69] in H. cbn [matches] in H.
    destruct H as (i1 & its1 & -> & H1 & ->).
    apply holds_tk in H1 as (t1 & -> & K1 & V1); [|reflexivity].
    change (112 =? 1) with false. cbv iota.
    split; [reflexivity|]. exists N_SpecialRealValue. split; [reflexivity|].
    change (rule 112) with rule_112. refine (cast _ _ _ _ _ (G_112 t1 K1) _). unfold act_112. val.
  Qed.

  (* asn1.y:650 *)
  Lemma sound_113 : Sound 113 (act_113).
  Proof.
    intros d its H. change (rhs 113) with [8] in H. cbn [matches] in H.
    destruct H as (i1 & its1 & -> & H1 & ->).
    apply holds_tk in H1 as (t1 & -> & K1 & V1); [|reflexivity].
    change (113 =? 1) with false. cbv iota.
    split; [reflexivity|]. exists N_realnumber. split; [reflexivity|].
    change (rule 113) with rule_113. refine (cast _ _ _ _ _ (G_113 t1 K1) _). unfold act_113. val.
  Qed.

  (* asn1.y:651 *)
  Lemma sound_114 : Sound 114 (act_114).
  Proof.
    intros d its H. change (rhs 114) with [8; 31; 8] in H. cbn [matches] in H.
    destruct H as (i1 & its1 & -> & H1 & i2 & its2 & -> & H2 & i3 & its3 & -> & H3 & ->).
    apply holds_tk in H1 as (t1 & -> & K1 & V1); [|reflexivity]. apply holds_tk in H2 as (t2 & -> & K2 & V2); [|reflexivity]. apply holds_tk in H3 as (t3 & -> & K3 & V3); [|reflexivity].
    change (114 =? 1) with false. cbv iota.
    split; [reflexivity|]. exists N_realnumber. split; [reflexivity|].
    change (rule 114) with rule_114. refine (cast _ _ _ _ _ (G_114 t1 t2 t3 K1 K2 K3) _). unfold act_114. val.
  Qed.

  (* asn1.y:652 *)
  Lemma sound_115 : Sound 115 (act_115).
  Proof.
    intros d its H. change (rhs 115) with [8; 31; 8; 25; -2] in H. cbn [matches] in H.
    destruct H as (i1 & its1 & -> & H1 & i2 & its2 & -> & H2 & i3 & its3 & -> & H3 & i4 & its4 & -> & H4 & i5 & its5 & -> & H5 & ->).
    apply holds_tk in H1 as (t1 & -> & K1 & V1); [|reflexivity]. apply holds_tk in H2 as (t2 & -> & K2 & V2); [|reflexivity]. apply holds_tk in H3 as (t3 & -> & K3 & V3); [|reflexivity]. apply holds_tk in H4 as (t4 & -> & K4 & V4); [|reflexivity]. apply (holds_nt N_SignedExponent) in H5; [|reflexivity|reflexivity]; subst i5.
    change (115 =? 1) with false. cbv iota.
    split; [reflexivity|]. exists N_realnumber. split; [reflexivity|].
    change (rule 115) with rule_115. refine (cast _ _ _ _ _ (G_115 t1 t2 t3 t4 _ K1 K2 K3 K4) _). unfold act_115. val.
  Qed.

  (* asn1.y:653 *)
  Lemma sound_116 : Sound 116 (act_116).
  Proof.
    intros d its H. change (rhs 116) with [8; 25; -2] in H. cbn [matches] in H.
    destruct H as (i1 & its1 & -> & H1 & i2 & its2 & -> & H2 & i3 & its3 & -> & H3 & ->).
    apply holds_tk in H1 as (t1 & -> & K1 & V1); [|reflexivity]. apply holds_tk in H2 as (t2 & -> & K2 & V2); [|reflexivity]. apply (holds_nt N_SignedExponent) in H3; [|reflexivity|reflexivity]; subst i3.
    change (116 =? 1) with false. cbv iota.
    split; [reflexivity|]. exists N_realnumber. split; [reflexivity|].
    change (rule 116) with rule_116. refine (cast _ _ _ _ _ (G_116 t1 t2 _ K1 K2) _). unfold act_116. val.
  Qed.

  (* asn1.y:656 *)
  Lemma sound_117 : Sound 117 act_default.
  Proof.
    intros d its H. change (rhs 117) with [8] in H. cbn [matches] in H.
    destruct H as (i1 & its1 & -> & H1 & ->).
    apply holds_tk in H1 as (t1 & -> & K1 & V1); [|reflexivity].
    change (117 =? 1) with false. cbv iota.
    split; [reflexivity|]. exists N_SignedExponent. split; [reflexivity|].
    change (rule 117) with rule_117. refine (cast _ _ _ _ _ (G_117 t1 K1) _). unfold act_default. val.
  Qed.

  (* asn1.y:657 *)
  Lemma sound_118 : Sound 118 (act_118).
  Proof.
    intros d its H. change (rhs 118) with [36; 8] in H. cbn [matches] in H.
    destruct H as (i1 & its1 & -> & H1 & i2 & its2 & -> & H2 & ->).
    apply holds_tk in H1 as (t1 & -> & K1 & V1); [|reflexivity]. apply holds_tk in H2 as (t2 & -> & K2 & V2); [|reflexivity].
    change (118 =? 1) with false. cbv iota.
    split; [reflexivity|]. exists N_SignedExponent. split; [reflexivity|].
    change (rule 118) with rule_118. refine (cast _ _ _ _ _ (G_118 t1 t2 K1 K2) _). unfold act_118. val.
  Qed.

  (* asn1.y:662 *)
  Lemma sound_119 : Sound 119 (act_119).
  Proof.
    intros d its H. change (rhs 119) with [71; 66] in H. cbn [matches] in H.
    destruct H as (i1 & its1 & -> & H1 & i2 & its2 & -> & H2 & ->).
    apply holds_tk in H1 as (t1 & -> & K1 & V1); [|reflexivity]. apply holds_tk in H2 as (t2 & -> & K2 & V2); [|reflexivity].
    change (119 =? 1) with false. cbv iota.
    split; [reflexivity|]. exists N_BitStringType. split; [reflexivity|].
    change (rule 119) with rule_119. refine (cast _ _ _ _ _ (G_119 t1 t2 K1 K2) _). unfold act_119. val.
  Qed.

  (* asn1.y:663 *)
  Lemma sound_120 : Sound 120 (act_120).
  Proof.
    intros d its H. change (rhs 120) with [71; 66; 26; -93; 27] in H. cbn [matches] in H.
    destruct H as (i1 & its1 & -> & H1 & i2 & its2 & -> & H2 & i3 & its3 & -> & H3 & i4 & its4 & -> & H4 & i5 & its5 & -> & H5 & ->).
    apply holds_tk in H1 as (t1 & -> & K1 & V1); [|reflexivity]. apply holds_tk in H2 as (t2 & -> & K2 & V2); [|reflexivity]. apply holds_tk in H3 as (t3 & -> & K3 & V3); [|reflexivity]. apply (holds_nt N_NamedBitList) in H4; [|reflexivity|reflexivity]; subst i4. apply holds_tk in H5 as (t5 & -> & K5 & V5); [|reflexivity].
    change (120 =? 1) with false. cbv iota.
    split; [reflexivity|]. exists N_BitStringType. split; [reflexivity|].
    change (rule 120) with rule_120. refine (cast _ _ _ _ _ (G_120 t1 t2 t3 _ t5 K1 K2 K3 K5) _). unfold act_120. val.
  Qed.

  (* asn1.y:666 *)
  Lemma sound_121 : Sound 121 (act_121).
  Proof.
    intros d its H. change (rhs 121) with [-94] in H. cbn [matches] in H.
    destruct H as (i1 & its1 & -> & H1 & ->).
    apply (holds_nt N_NamedBit) in H1; [|reflexivity|reflexivity]; subst i1.
    change (121 =? 1) with false. cbv iota.
    split; [reflexivity|]. exists N_NamedBitList. split; [reflexivity|].
    change (rule 121) with rule_121. refine (cast _ _ _ _ _ (G_121 _) _). unfold act_121. val.
  Qed.

  (* asn1.y:667 *)
  Lemma sound_122 : Sound 122 (act_122).
  Proof.
    intros d its H. change (rhs 122) with [-93; 30; -94] in H. cbn [matches] in H.
    destruct H as (i1 & its1 & -> & H1 & i2 & its2 & -> & H2 & i3 & its3 & -> & H3 & ->).
    apply (holds_nt N_NamedBitList) in H1; [|reflexivity|reflexivity]; subst i1. apply holds_tk in H2 as (t2 & -> & K2 & V2); [|reflexivity]. apply (holds_nt N_NamedBit) in H3; [|reflexivity|reflexivity]; subst i3.
    change (122 =? 1) with false. cbv iota.
    split; [reflexivity|]. exists N_NamedBitList. split; [reflexivity|].
    change (rule 122) with rule_122. refine (cast _ _ _ _ _ (G_122 _ t2 _ K2) _). unfold act_122. val.
  Qed.

  (* asn1.y:670 *)
  Lemma sound_123 : Sound 123 (act_123).
  Proof.
    intros d its H. change (rhs 123) with [-5; 32; -39; 33] in H. cbn [matches] in H.
    destruct H as (i1 & its1 & -> & H1 & i2 & its2 & -> & H2 & i3 & its3 & -> & H3 & i4 & its4 & -> & H4 & ->).
    apply (holds_nt N_identifier) in H1; [|reflexivity|reflexivity]; subst i1. apply holds_tk in H2 as (t2 & -> & K2 & V2); [|reflexivity]. apply (holds_nt N_number) in H3; [|reflexivity|reflexivity]; subst i3. apply holds_tk in H4 as (t4 & -> & K4 & V4); [|reflexivity].
    change (123 =? 1) with false. cbv iota.
    split; [reflexivity|]. exists N_NamedBit. split; [reflexivity|].
    change (rule 123) with rule_123. refine (cast _ _ _ _ _ (G_123 _ t2 _ t4 K2 K4) _). unfold act_123. val.
  Qed.

  (* asn1.y:671 *)
  Lemma sound_124 : Sound 124 (act_124).
  Proof.
    intros d its H. change (rhs 124) with [-5; 32; -15; 33] in H. cbn [matches] in H.
    destruct H as (i1 & its1 & -> & H1 & i2 & its2 & -> & H2 & i3 & its3 & -> & H3 & i4 & its4 & -> & H4 & ->).
    apply (holds_nt N_identifier) in H1; [|reflexivity|reflexivity]; subst i1. apply holds_tk in H2 as (t2 & -> & K2 & V2); [|reflexivity]. apply (holds_nt N_DefinedValue) in H3; [|reflexivity|reflexivity]; subst i3. apply holds_tk in H4 as (t4 & -> & K4 & V4); [|reflexivity].
    change (124 =? 1) with false. cbv iota.
    split; [reflexivity|]. exists N_NamedBit. split; [reflexivity|].
    change (rule 124) with rule_124. refine (cast _ _ _ _ _ (G_124 _ t2 _ t4 K2 K4) _). unfold act_124. val.
  Qed.

  (* asn1.y:676 *)
  Lemma sound_125 : Sound 125 (act_125).
  Proof.
    intros d its H. change (rhs 125) with [89; 66] in H. cbn [matches] in H.
    destruct H as (i1 & its1 & -> & H1 & i2 & its2 & -> & H2 & ->).
    apply holds_tk in H1 as (t1 & -> & K1 & V1); [|reflexivity]. apply holds_tk in H2 as (t2 & -> & K2 & V2); [|reflexivity].
    change (125 =? 1) with false. cbv iota.
    split; [reflexivity|]. exists N_OctetStringType. split; [reflexivity|].
    change (rule 125) with rule_125. refine (cast _ _ _ _ _ (G_125 t1 t2 K1 K2) _). unfold act_125. val.
  Qed.

  (* asn1.y:681 *)
  Lemma sound_126 : Sound 126 (act_126).
  Proof.
    intros d its H. change (rhs 126) with [73] in H. cbn [matches] in H.
    destruct H as (i1 & its1 & -> & H1 & ->).
    apply holds_tk in H1 as (t1 & -> & K1 & V1); [|reflexivity].
    change (126 =? 1) with false. cbv iota.
    split; [reflexivity|]. exists N_NullType. split; [reflexivity|].
    change (rule 126) with rule_126. refine (cast _ _ _ _ _ (G_126 t1 K1) _). unfold act_126. val.
  Qed.

  (* asn1.y:686 *)
  Lemma sound_127 : Sound 127 (act_127).
  Proof.
    intros d its H. change (rhs 127) with [54; 26; 27] in H. cbn [matches] in H.
    destruct H as (i1 & its1 & -> & H1 & i2 & its2 & -> & H2 & i3 & its3 & -> & H3 & ->).
    apply holds_tk in H1 as (t1 & -> & K1 & V1); [|reflexivity]. apply holds_tk in H2 as (t2 & -> & K2 & V2); [|reflexivity]. apply holds_tk in H3 as (t3 & -> & K3 & V3); [|reflexivity].
    change (127 =? 1) with false. cbv iota.
    split; [reflexivity|]. exists N_SequenceType. split; [reflexivity|].
    change (rule 127) with rule_127. refine (cast _ _ _ _ _ (G_127 t1 t2 t3 K1 K2 K3) _). unfold act_127. val.
  Qed.

  (* asn1.y:687 *)
  Lemma sound_128 : Sound 128 (act_128).
  Proof.
    intros d its H. change (rhs 128) with [54; 26; -125; -126; 27] in H. cbn [matches] in H.
    destruct H as (i1 & its1 & -> & H1 & i2 & its2 & -> & H2 & i3 & its3 & -> & H3 & i4 & its4 & -> & H4 & i5 & its5 & -> & H5 & ->).
    apply holds_tk in H1 as (t1 & -> & K1 & V1); [|reflexivity]. apply holds_tk in H2 as (t2 & -> & K2 & V2); [|reflexivity]. apply (holds_nt N_ExtensionAndException) in H3; [|reflexivity|reflexivity]; subst i3. apply (holds_nt N_OptionalExtensionMarker) in H4; [|reflexivity|reflexivity]; subst i4. apply holds_tk in H5 as (t5 & -> & K5 & V5); [|reflexivity].
    change (128 =? 1) with false. cbv iota.
    split; [reflexivity|]. exists N_SequenceType. split; [reflexivity|].
    change (rule 128) with rule_128. refine (cast _ _ _ _ _ (G_128 t1 t2 t5 K1 K2 K5) _). unfold act_128. val.
  Qed.

  (* asn1.y:688 *)
  Lemma sound_129 : Sound 129 (act_129).
  Proof.
    intros d its H. change (rhs 129) with [54; 26; -85; 27] in H. cbn [matches] in H.
    destruct H as (i1 & its1 & -> & H1 & i2 & its2 & -> & H2 & i3 & its3 & -> & H3 & i4 & its4 & -> & H4 & ->).
    apply holds_tk in H1 as (t1 & -> & K1 & V1); [|reflexivity]. apply holds_tk in H2 as (t2 & -> & K2 & V2); [|reflexivity]. apply (holds_nt N_ComponentTypeLists) in H3; [|reflexivity|reflexivity]; subst i3. apply holds_tk in H4 as (t4 & -> & K4 & V4); [|reflexivity].
    change (129 =? 1) with false. cbv iota.
    split; [reflexivity|]. exists N_SequenceType. split; [reflexivity|].
    change (rule 129) with rule_129. refine (cast _ _ _ _ _ (G_129 t1 t2 _ t4 K1 K2 K4) _). unfold act_129. val.
  Qed.

  (* asn1.y:691 *)
  Lemma sound_130 : Sound 130 act_default.
  Proof.
    intros d its H. change (rhs 130) with [17] in H. cbn [matches] in H.
    destruct H as (i1 & its1 & -> & H1 & ->).
    apply holds_tk in H1 as (t1 & -> & K1 & V1); [|reflexivity].
    change (130 =? 1) with false. cbv iota.
    split; [reflexivity|]. exists N_ExtensionAndException. split; [reflexivity|].
    change (rule 130) with rule_130. refine (cast _ _ _ _ _ (G_130 t1 K1) _). unfold act_default. val.
  Qed.

  (* asn1.y:692 *)
  Lemma sound_131 : Sound 131 act_default.
  Proof.
    intros d its H. change (rhs 131) with [17; -124] in H. cbn [matches] in H.
    destruct H as (i1 & its1 & -> & H1 & i2 & its2 & -> & H2 & ->).
    apply holds_tk in H1 as (t1 & -> & K1 & V1); [|reflexivity]. apply (holds_nt N_ExceptionSpec) in H2; [|reflexivity|reflexivity]; subst i2.
    change (131 =? 1) with false. cbv iota.
    split; [reflexivity|]. exists N_ExtensionAndException. split; [reflexivity|].
    change (rule 131) with rule_131. refine (cast _ _ _ _ _ (G_131 t1 K1) _). unfold act_default. val.
  Qed.

  (* asn1.y:695 *)
  Lemma sound_132 : Sound 132 act_default.
  Proof.
    intros d its H. change (rhs 132) with [30; 17] in H. cbn [matches] in H.
    destruct H as (i1 & its1 & -> & H1 & i2 & its2 & -> & H2 & ->).
    apply holds_tk in H1 as (t1 & -> & K1 & V1); [|reflexivity]. apply holds_tk in H2 as (t2 & -> & K2 & V2); [|reflexivity].
    change (132 =? 1) with false. cbv iota.
    split; [reflexivity|]. exists N_OptionalExtensionMarker. split; [reflexivity|].
    change (rule 132) with rule_132. refine (cast _ _ _ _ _ (G_132 t1 t2 K1 K2) _). unfold act_default. val.
  Qed.

  (* asn1.y:696 *)
  Lemma sound_133 : Sound 133 act_default.
  Proof.
    intros d its H. change (rhs 133) with (@nil Z) in H. cbn [matches] in H.
    subst its.
    
    change (133 =? 1) with false. cbv iota.
    split; [reflexivity|]. exists N_OptionalExtensionMarker. split; [reflexivity|].
    change (rule 133) with rule_133. refine (cast _ _ _ _ _ (G_133 ) _). unfold act_default. val.
  Qed.

  (* asn1.y:700 *)
  Lemma sound_134 : Sound 134 (act_134).
  Proof.
    intros d its H. change (rhs 134) with [-83] in H. cbn [matches] in H.
    destruct H as (i1 & its1 & -> & H1 & ->).
    apply (holds_nt N_ComponentTypeList) in H1; [|reflexivity|reflexivity]; subst i1.
    change (134 =? 1) with false. cbv iota.
    split; [reflexivity|]. exists N_ComponentTypeLists. split; [reflexivity|].
    change (rule 134) with rule_134. refine (cast _ _ _ _ _ (G_134 _) _). unfold act_134. val.
  Qed.

  (* asn1.y:701 *)
  Lemma sound_135 : Sound 135 (act_135).
  Proof.
    intros d its H. change (rhs 135) with [-83; 30; -125; -111; -126] in H. cbn [matches] in H.
    destruct H as (i1 & its1 & -> & H1 & i2 & its2 & -> & H2 & i3 & its3 & -> & H3 & i4 & its4 & -> & H4 & i5 & its5 & -> & H5 & ->).
    apply (holds_nt N_ComponentTypeList) in H1; [|reflexivity|reflexivity]; subst i1. apply holds_tk in H2 as (t2 & -> & K2 & V2); [|reflexivity]. apply (holds_nt N_ExtensionAndException) in H3; [|reflexivity|reflexivity]; subst i3. apply (holds_nt N_ExtensionAdditions) in H4; [|reflexivity|reflexivity]; subst i4. apply (holds_nt N_OptionalExtensionMarker) in H5; [|reflexivity|reflexivity]; subst i5.
    change (135 =? 1) with false. cbv iota.
    split; [reflexivity|]. exists N_ComponentTypeLists. split; [reflexivity|].
    change (rule 135) with rule_135. refine (cast _ _ _ _ _ (G_135 _ t2 _ K2) _). unfold act_135. val.
  Qed.

  (* asn1.y:702 *)
  Lemma sound_136 : Sound 136 (act_136).
  Proof.
    intros d its H. change (rhs 136) with [-83; 30; -125; -111; -127; 30; -83] in H. cbn [matches] in H.
    destruct H as (i1 & its1 & -> & H1 & i2 & its2 & -> & H2 & i3 & its3 & -> & H3 & i4 & its4 & -> & H4 & i5 & its5 & -> & H5 & i6 & its6 & -> & H6 & i7 & its7 & -> & H7 & ->).
    apply (holds_nt N_ComponentTypeList) in H1; [|reflexivity|reflexivity]; subst i1. apply holds_tk in H2 as (t2 & -> & K2 & V2); [|reflexivity]. apply (holds_nt N_ExtensionAndException) in H3; [|reflexivity|reflexivity]; subst i3. apply (holds_nt N_ExtensionAdditions) in H4; [|reflexivity|reflexivity]; subst i4. apply (holds_nt N_ExtensionEndMarker) in H5; [|reflexivity|reflexivity]; subst i5. apply holds_tk in H6 as (t6 & -> & K6 & V6); [|reflexivity]. apply (holds_nt N_ComponentTypeList) in H7; [|reflexivity|reflexivity]; subst i7.
    change (136 =? 1) with false. cbv iota.
    split; [reflexivity|]. exists N_ComponentTypeLists. split; [reflexivity|].
    change (rule 136) with rule_136. refine (cast _ _ _ _ _ (G_136 _ t2 _ t6 _ K2 K6) _). unfold act_136. val.
  Qed.

  (* asn1.y:708 *)
  Lemma sound_137 : Sound 137 act_default.
  Proof.
    intros d its H. change (rhs 137) with [-83] in H. cbn [matches] in H.
    destruct H as (i1 & its1 & -> & H1 & ->).
    apply (holds_nt N_ComponentTypeList) in H1; [|reflexivity|reflexivity]; subst i1.
    change (137 =? 1) with false. cbv iota.
    split; [reflexivity|]. exists N_RootComponentTypeList. split; [reflexivity|].
    change (rule 137) with rule_137. refine (cast _ _ _ _ _ (G_137 _) _). unfold act_default. val.
  Qed.

  (* asn1.y:711 *)
  Lemma sound_138 : Sound 138 act_default.
  Proof.
    intros d its H. change (rhs 138) with [30; 17] in H. cbn [matches] in H.
    destruct H as (i1 & its1 & -> & H1 & i2 & its2 & -> & H2 & ->).
    apply holds_tk in H1 as (t1 & -> & K1 & V1); [|reflexivity]. apply holds_tk in H2 as (t2 & -> & K2 & V2); [|reflexivity].
    change (138 =? 1) with false. cbv iota.
    split; [reflexivity|]. exists N_ExtensionEndMarker. split; [reflexivity|].
    change (rule 138) with rule_138. refine (cast _ _ _ _ _ (G_138 t1 t2 K1 K2) _). unfold act_default. val.
  Qed.

  (* asn1.y:714 *)
  Lemma sound_139 : Sound 139 (act_139).
  Proof.
    intros d its H. change (rhs 139) with [30; -112] in H. cbn [matches] in H.
    destruct H as (i1 & its1 & -> & H1 & i2 & its2 & -> & H2 & ->).
    apply holds_tk in H1 as (t1 & -> & K1 & V1); [|reflexivity]. apply (holds_nt N_ExtensionAdditionList) in H2; [|reflexivity|reflexivity]; subst i2.
    change (139 =? 1) with false. cbv iota.
    split; [reflexivity|]. exists N_ExtensionAdditions. split; [reflexivity|].
    change (rule 139) with rule_139. refine (cast _ _ _ _ _ (G_139 t1 _ K1) _). unfold act_139. val.
  Qed.

  (* asn1.y:715 *)
  Lemma sound_140 : Sound 140 (act_140).
  Proof.
    intros d its H. change (rhs 140) with (@nil Z) in H. cbn [matches] in H.
    subst its.
    
    change (140 =? 1) with false. cbv iota.
    split; [reflexivity|]. exists N_ExtensionAdditions. split; [reflexivity|].
    change (rule 140) with rule_140. refine (cast _ _ _ _ _ (G_140 ) _). unfold act_140. val.
  Qed.

  (* asn1.y:718 *)
  Lemma sound_141 : Sound 141 (act_141).
  Proof.
    intros d its H. change (rhs 141) with [-113] in H. cbn [matches] in H.
    destruct H as (i1 & its1 & -> & H1 & ->).
    apply (holds_nt N_ExtensionAddition) in H1; [|reflexivity|reflexivity]; subst i1.
    change (141 =? 1) with false. cbv iota.
    split; [reflexivity|]. exists N_ExtensionAdditionList. split; [reflexivity|].
    change (rule 141) with rule_141. refine (cast _ _ _ _ _ (G_141 _) _). unfold act_141. val.
  Qed.

  (* asn1.y:719 *)
  Lemma sound_142 : Sound 142 (act_142).
  Proof.
    intros d its H. change (rhs 142) with [-112; 30; -113] in H. cbn [matches] in H.
    destruct H as (i1 & its1 & -> & H1 & i2 & its2 & -> & H2 & i3 & its3 & -> & H3 & ->).
    apply (holds_nt N_ExtensionAdditionList) in H1; [|reflexivity|reflexivity]; subst i1. apply holds_tk in H2 as (t2 & -> & K2 & V2); [|reflexivity]. apply (holds_nt N_ExtensionAddition) in H3; [|reflexivity|reflexivity]; subst i3.
    change (142 =? 1) with false. cbv iota.
    split; [reflexivity|]. exists N_ExtensionAdditionList. split; [reflexivity|].
    change (rule 142) with rule_142. refine (cast _ _ _ _ _ (G_142 _ t2 _ K2) _). unfold act_142. val.
  Qed.

  (* asn1.y:722 *)
  Lemma sound_143 : Sound 143 (act_143).
  Proof.
    intros d its H. change (rhs 143) with [-82] in H. cbn [matches] in H.
    destruct H as (i1 & its1 & -> & H1 & ->).
    apply (holds_nt N_ComponentType) in H1; [|reflexivity|reflexivity]; subst i1.
    change (143 =? 1) with false. cbv iota.
    split; [reflexivity|]. exists N_ExtensionAddition. split; [reflexivity|].
    change (rule 143) with rule_143. refine (cast _ _ _ _ _ (G_143 _) _). unfold act_143. val.
  Qed.

  (* asn1.y:723 *)
  Lemma sound_144 : Sound 144 (act_144).
  Proof.
    intros d its H. change (rhs 144) with [-128] in H. cbn [matches] in H.
    destruct H as (i1 & its1 & -> & H1 & ->).
    apply (holds_nt N_ExtensionAdditionGroup) in H1; [|reflexivity|reflexivity]; subst i1.
    change (144 =? 1) with false. cbv iota.
    split; [reflexivity|]. exists N_ExtensionAddition. split; [reflexivity|].
    change (rule 144) with rule_144. refine (cast _ _ _ _ _ (G_144 ) _). unfold act_144. val.
  Qed.

  (* asn1.y:725 *)
  Lemma sound_145 : Sound 145 act_default.
  Proof.
    intros d its H. change (rhs 145) with [18; -129; -83; 19] in H. cbn [matches] in H.
    destruct H as (i1 & its1 & -> & H1 & i2 & its2 & -> & H2 & i3 & its3 & -> & H3 & i4 & its4 & -> & H4 & ->).
    apply holds_tk in H1 as (t1 & -> & K1 & V1); [|reflexivity]. apply (holds_nt N_VersionNumber) in H2; [|reflexivity|reflexivity]; subst i2. apply (holds_nt N_ComponentTypeList) in H3; [|reflexivity|reflexivity]; subst i3. apply holds_tk in H4 as (t4 & -> & K4 & V4); [|reflexivity].
    change (145 =? 1) with false. cbv iota.
    split; [reflexivity|]. exists N_ExtensionAdditionGroup. split; [reflexivity|].
    change (rule 145) with rule_145. refine (cast _ _ _ _ _ (G_145 t1 _ t4 K1 K4) _). unfold act_default. val.
  Qed.

  (* asn1.y:729 *)
  Lemma sound_146 : Sound 146 act_default.
  Proof.
    intros d its H. change (rhs 146) with (@nil Z) in H. cbn [matches] in H.
    subst its.
    
    change (146 =? 1) with false. cbv iota.
    split; [reflexivity|]. exists N_VersionNumber. split; [reflexivity|].
    change (rule 146) with rule_146. refine (cast _ _ _ _ _ (G_146 ) _). unfold act_default. val.
  Qed.

  (* asn1.y:729 *)
  Lemma sound_147 : Sound 147 act_default.
  Proof.
    intros d its H. change (rhs 147) with [8; 37] in H. cbn [matches] in H.
    destruct H as (i1 & its1 & -> & H1 & i2 & its2 & -> & H2 & ->).
    apply holds_tk in H1 as (t1 & -> & K1 & V1); [|reflexivity]. apply holds_tk in H2 as (t2 & -> & K2 & V2); [|reflexivity].
    change (147 =? 1) with false. cbv iota.
    split; [reflexivity|]. exists N_VersionNumber. split; [reflexivity|].
    change (rule 147) with rule_147. refine (cast _ _ _ _ _ (G_147 t1 t2 K1 K2) _). unfold act_default. val.
  Qed.

  (* asn1.y:732 *)
  Lemma sound_148 : Sound 148 (act_148).
  Proof.
    intros d its H. change (rhs 148) with [-82] in H. cbn [matches] in H.
    destruct H as (i1 & its1 & -> & H1 & ->).
    apply (holds_nt N_ComponentType) in H1; [|reflexivity|reflexivity]; subst i1.
    change (148 =? 1) with false. cbv iota.
    split; [reflexivity|]. exists N_ComponentTypeList. split; [reflexivity|].
    change (rule 148) with rule_148. refine (cast _ _ _ _ _ (G_148 _) _). unfold act_148. val.
  Qed.

  (* asn1.y:733 *)
  Lemma sound_149 : Sound 149 (act_149).
  Proof.
    intros d its H. change (rhs 149) with [-83; 30; -82] in H. cbn [matches] in H.
    destruct H as (i1 & its1 & -> & H1 & i2 & its2 & -> & H2 & i3 & its3 & -> & H3 & ->).
    apply (holds_nt N_ComponentTypeList) in H1; [|reflexivity|reflexivity]; subst i1. apply holds_tk in H2 as (t2 & -> & K2 & V2); [|reflexivity]. apply (holds_nt N_ComponentType) in H3; [|reflexivity|reflexivity]; subst i3.
    change (149 =? 1) with false. cbv iota.
    split; [reflexivity|]. exists N_ComponentTypeList. split; [reflexivity|].
    change (rule 149) with rule_149. refine (cast _ _ _ _ _ (G_149 _ t2 _ K2) _). unfold act_149. val.
  Qed.

  (* asn1.y:736 *)
  Lemma sound_150 : Sound 150 (act_150).
  Proof.
    intros d its H. change (rhs 150) with [-24] in H. cbn [matches] in H.
    destruct H as (i1 & its1 & -> & H1 & ->).
    apply (holds_nt N_NamedType) in H1; [|reflexivity|reflexivity]; subst i1.
    change (150 =? 1) with false. cbv iota.
    split; [reflexivity|]. exists N_ComponentType. split; [reflexivity|].
    change (rule 150) with rule_150. refine (cast _ _ _ _ _ (G_150 _) _). unfold act_150. val.
  Qed.

  (* asn1.y:737 *)
  Lemma sound_151 : Sound 151 (act_151).
  Proof.
    intros d its H. change (rhs 151) with [-24; 97] in H. cbn [matches] in H.
    destruct H as (i1 & its1 & -> & H1 & i2 & its2 & -> & H2 & ->).
    apply (holds_nt N_NamedType) in H1; [|reflexivity|reflexivity]; subst i1. apply holds_tk in H2 as (t2 & -> & K2 & V2); [|reflexivity].
    change (151 =? 1) with false. cbv iota.
    split; [reflexivity|]. exists N_ComponentType. split; [reflexivity|].
    change (rule 151) with rule_151. refine (cast _ _ _ _ _ (G_151 _ t2 K2) _). unfold act_151. val.
  Qed.

  (* asn1.y:738 *)
  Lemma sound_152 : Sound 152 (act_152 mkP).
  Proof.
    intros d its H. change (rhs 152) with [-24; 115; -31] in H. cbn [matches] in H.
    destruct H as (i1 & its1 & -> & H1 & i2 & its2 & -> & H2 & i3 & its3 & -> & H3 & ->).
    apply (holds_nt N_NamedType) in H1; [|reflexivity|reflexivity]; subst i1. apply holds_tk in H2 as (t2 & -> & K2 & V2); [|reflexivity]. apply (holds_nt N_Value) in H3; [|reflexivity|reflexivity]; subst i3.
    change (152 =? 1) with false. cbv iota.
    split; [reflexivity|]. exists N_ComponentType. split; [reflexivity|].
    change (rule 152) with rule_152. refine (cast _ _ _ _ _ (G_152 _ t2 _ K2) _). unfold act_152. val.
  Qed.

  (* asn1.y:739 *)
  Lemma sound_153 : Sound 153 (act_153).
  Proof.
    intros d its H. change (rhs 153) with [103; 93; -20] in H. cbn [matches] in H.
    destruct H as (i1 & its1 & -> & H1 & i2 & its2 & -> & H2 & i3 & its3 & -> & H3 & ->).
    apply holds_tk in H1 as (t1 & -> & K1 & V1); [|reflexivity]. apply holds_tk in H2 as (t2 & -> & K2 & V2); [|reflexivity]. apply (holds_nt N_Type) in H3; [|reflexivity|reflexivity]; subst i3.
    change (153 =? 1) with false. cbv iota.
    split; [reflexivity|]. exists N_ComponentType. split; [reflexivity|].
    change (rule 153) with rule_153. refine (cast _ _ _ _ _ (G_153 t1 t2 _ K1 K2) _). unfold act_153. val.
  Qed.

  (* asn1.y:744 *)
  Lemma sound_154 : Sound 154 (act_154).
  Proof.
    intros d its H. change (rhs 154) with [58; 26; 27] in H. cbn [matches] in H.
    destruct H as (i1 & its1 & -> & H1 & i2 & its2 & -> & H2 & i3 & its3 & -> & H3 & ->).
    apply holds_tk in H1 as (t1 & -> & K1 & V1); [|reflexivity]. apply holds_tk in H2 as (t2 & -> & K2 & V2); [|reflexivity]. apply holds_tk in H3 as (t3 & -> & K3 & V3); [|reflexivity].
    change (154 =? 1) with false. cbv iota.
    split; [reflexivity|]. exists N_SetType. split; [reflexivity|].
    change (rule 154) with rule_154. refine (cast _ _ _ _ _ (G_154 t1 t2 t3 K1 K2 K3) _). unfold act_154. val.
  Qed.

  (* asn1.y:745 *)
  Lemma sound_155 : Sound 155 (act_155).
  Proof.
    intros d its H. change (rhs 155) with [58; 26; -125; -126; 27] in H. cbn [matches] in H.
    destruct H as (i1 & its1 & -> & H1 & i2 & its2 & -> & H2 & i3 & its3 & -> & H3 & i4 & its4 & -> & H4 & i5 & its5 & -> & H5 & ->).
    apply holds_tk in H1 as (t1 & -> & K1 & V1); [|reflexivity]. apply holds_tk in H2 as (t2 & -> & K2 & V2); [|reflexivity]. apply (holds_nt N_ExtensionAndException) in H3; [|reflexivity|reflexivity]; subst i3. apply (holds_nt N_OptionalExtensionMarker) in H4; [|reflexivity|reflexivity]; subst i4. apply holds_tk in H5 as (t5 & -> & K5 & V5); [|reflexivity].
    change (155 =? 1) with false. cbv iota.
    split; [reflexivity|]. exists N_SetType. split; [reflexivity|].
    change (rule 155) with rule_155. refine (cast _ _ _ _ _ (G_155 t1 t2 t5 K1 K2 K5) _). unfold act_155. val.
  Qed.

  (* asn1.y:746 *)
  Lemma sound_156 : Sound 156 (act_156).
  Proof.
    intros d its H. change (rhs 156) with [58; 26; -85; 27] in H. cbn [matches] in H.
    destruct H as (i1 & its1 & -> & H1 & i2 & its2 & -> & H2 & i3 & its3 & -> & H3 & i4 & its4 & -> & H4 & ->).
    apply holds_tk in H1 as (t1 & -> & K1 & V1); [|reflexivity]. apply holds_tk in H2 as (t2 & -> & K2 & V2); [|reflexivity]. apply (holds_nt N_ComponentTypeLists) in H3; [|reflexivity|reflexivity]; subst i3. apply holds_tk in H4 as (t4 & -> & K4 & V4); [|reflexivity].
    change (156 =? 1) with false. cbv iota.
    split; [reflexivity|]. exists N_SetType. split; [reflexivity|].
    change (rule 156) with rule_156. refine (cast _ _ _ _ _ (G_156 t1 t2 _ t4 K1 K2 K4) _). unfold act_156. val.
  Qed.

  (* asn1.y:751 *)
  Lemma sound_157 : Sound 157 (act_157).
  Proof.
    intros d its H. change (rhs 157) with [58; 93; -20] in H. cbn [matches] in H.
    destruct H as (i1 & its1 & -> & H1 & i2 & its2 & -> & H2 & i3 & its3 & -> & H3 & ->).
    apply holds_tk in H1 as (t1 & -> & K1 & V1); [|reflexivity]. apply holds_tk in H2 as (t2 & -> & K2 & V2); [|reflexivity]. apply (holds_nt N_Type) in H3; [|reflexivity|reflexivity]; subst i3.
    change (157 =? 1) with false. cbv iota.
    split; [reflexivity|]. exists N_SetOfType. split; [reflexivity|].
    change (rule 157) with rule_157. refine (cast _ _ _ _ _ (G_157 t1 t2 _ K1 K2) _). unfold act_157. val.
  Qed.

  (* asn1.y:752 *)
  Lemma sound_158 : Sound 158 (act_158).
  Proof.
    intros d its H. change (rhs 158) with [58; 93; -24] in H. cbn [matches] in H.
    destruct H as (i1 & its1 & -> & H1 & i2 & its2 & -> & H2 & i3 & its3 & -> & H3 & ->).
    apply holds_tk in H1 as (t1 & -> & K1 & V1); [|reflexivity]. apply holds_tk in H2 as (t2 & -> & K2 & V2); [|reflexivity]. apply (holds_nt N_NamedType) in H3; [|reflexivity|reflexivity]; subst i3.
    change (158 =? 1) with false. cbv iota.
    split; [reflexivity|]. exists N_SetOfType. split; [reflexivity|].
    change (rule 158) with rule_158. refine (cast _ _ _ _ _ (G_158 t1 t2 _ K1 K2) _). unfold act_158. val.
  Qed.

  (* asn1.y:756 *)
  Lemma sound_159 : Sound 159 (act_159).
  Proof.
    intros d its H. change (rhs 159) with [127] in H. cbn [matches] in H.
    destruct H as (i1 & its1 & -> & H1 & ->).
    apply holds_tk in H1 as (t1 & -> & K1 & V1); [|reflexivity].
    change (159 =? 1) with false. cbv iota.
    split; [reflexivity|]. exists N_AnyType. split; [reflexivity|].
    change (rule 159) with rule_159. refine (cast _ _ _ _ _ (G_159 t1 K1) _). unfold act_159. val.
  Qed.

  (* asn1.y:757 *)
  Lemma sound_160 : Sound 160 (act_160).
  Proof.
    intros d its H. change (rhs 160) with [127; 128; 83; -5] in H. cbn [matches] in H.
    destruct H as (i1 & its1 & -> & H1 & i2 & its2 & -> & H2 & i3 & its3 & -> & H3 & i4 & its4 & -> & H4 & ->).
    apply holds_tk in H1 as (t1 & -> & K1 & V1); [|reflexivity]. apply holds_tk in H2 as (t2 & -> & K2 & V2); [|reflexivity]. apply holds_tk in H3 as (t3 & -> & K3 & V3); [|reflexivity]. apply (holds_nt N_identifier) in H4; [|reflexivity|reflexivity]; subst i4.
    change (160 =? 1) with false. cbv iota.
    split; [reflexivity|]. exists N_AnyType. split; [reflexivity|].
    change (rule 160) with rule_160. refine (cast _ _ _ _ _ (G_160 t1 t2 t3 _ K1 K2 K3) _). unfold act_160. val.
  Qed.

  (* asn1.y:762 *)
  Lemma sound_161 : Sound 161 (act_161).
  Proof.
    intros d its H. change (rhs 161) with [91; 26; -105; 27] in H. cbn [matches] in H.
    destruct H as (i1 & its1 & -> & H1 & i2 & its2 & -> & H2 & i3 & its3 & -> & H3 & i4 & its4 & -> & H4 & ->).
    apply holds_tk in H1 as (t1 & -> & K1 & V1); [|reflexivity]. apply holds_tk in H2 as (t2 & -> & K2 & V2); [|reflexivity]. apply (holds_nt N_AlternativeTypeLists) in H3; [|reflexivity|reflexivity]; subst i3. apply holds_tk in H4 as (t4 & -> & K4 & V4); [|reflexivity].
    change (161 =? 1) with false. cbv iota.
    split; [reflexivity|]. exists N_ChoiceType. split; [reflexivity|].
    change (rule 161) with rule_161. refine (cast _ _ _ _ _ (G_161 t1 t2 _ t4 K1 K2 K4) _). unfold act_161. val.
  Qed.

  (* asn1.y:765 *)
  Lemma sound_162 : Sound 162 (act_162).
  Proof.
    intros d its H. change (rhs 162) with [-106; 30; -125; -109; -126] in H. cbn [matches] in H.
    destruct H as (i1 & its1 & -> & H1 & i2 & its2 & -> & H2 & i3 & its3 & -> & H3 & i4 & its4 & -> & H4 & i5 & its5 & -> & H5 & ->).
    apply (holds_nt N_AlternativeTypeList) in H1; [|reflexivity|reflexivity]; subst i1. apply holds_tk in H2 as (t2 & -> & K2 & V2); [|reflexivity]. apply (holds_nt N_ExtensionAndException) in H3; [|reflexivity|reflexivity]; subst i3. apply (holds_nt N_ExtensionAdditionAlternatives) in H4; [|reflexivity|reflexivity]; subst i4. apply (holds_nt N_OptionalExtensionMarker) in H5; [|reflexivity|reflexivity]; subst i5.
    change (162 =? 1) with false. cbv iota.
    split; [reflexivity|]. exists N_AlternativeTypeLists. split; [reflexivity|].
    change (rule 162) with rule_162. refine (cast _ _ _ _ _ (G_162 _ t2 _ K2) _). unfold act_162. val.
  Qed.

  (* asn1.y:766 *)
  Lemma sound_163 : Sound 163 (act_163).
  Proof.
    intros d its H. change (rhs 163) with [-106] in H. cbn [matches] in H.
    destruct H as (i1 & its1 & -> & H1 & ->).
    apply (holds_nt N_AlternativeTypeList) in H1; [|reflexivity|reflexivity]; subst i1.
    change (163 =? 1) with false. cbv iota.
    split; [reflexivity|]. exists N_AlternativeTypeLists. split; [reflexivity|].
    change (rule 163) with rule_163. refine (cast _ _ _ _ _ (G_163 _) _). unfold act_163. val.
  Qed.

  (* asn1.y:767 *)
  Lemma sound_164 : Sound 164 (act_164).
  Proof.
    intros d its H. change (rhs 164) with [-125; -109; -126] in H. cbn [matches] in H.
    destruct H as (i1 & its1 & -> & H1 & i2 & its2 & -> & H2 & i3 & its3 & -> & H3 & ->).
    apply (holds_nt N_ExtensionAndException) in H1; [|reflexivity|reflexivity]; subst i1. apply (holds_nt N_ExtensionAdditionAlternatives) in H2; [|reflexivity|reflexivity]; subst i2. apply (holds_nt N_OptionalExtensionMarker) in H3; [|reflexivity|reflexivity]; subst i3.
    change (164 =? 1) with false. cbv iota.
    split; [reflexivity|]. exists N_AlternativeTypeLists. split; [reflexivity|].
    change (rule 164) with rule_164. refine (cast _ _ _ _ _ (G_164 _) _). unfold act_164. val.
  Qed.

  (* asn1.y:771 *)
  Lemma sound_165 : Sound 165 act_default.
  Proof.
    intros d its H. change (rhs 165) with [-106] in H. cbn [matches] in H.
    destruct H as (i1 & its1 & -> & H1 & ->).
    apply (holds_nt N_AlternativeTypeList) in H1; [|reflexivity|reflexivity]; subst i1.
    change (165 =? 1) with false. cbv iota.
    split; [reflexivity|]. exists N_RootAlternativeTypeList. split; [reflexivity|].
    change (rule 165) with rule_165. refine (cast _ _ _ _ _ (G_165 _) _). unfold act_default. val.
  Qed.

  (* asn1.y:774 *)
  Lemma sound_166 : Sound 166 (act_166).
  Proof.
    intros d its H. change (rhs 166) with [30; -110] in H. cbn [matches] in H.
    destruct H as (i1 & its1 & -> & H1 & i2 & its2 & -> & H2 & ->).
    apply holds_tk in H1 as (t1 & -> & K1 & V1); [|reflexivity]. apply (holds_nt N_ExtensionAdditionAlternativesList) in H2; [|reflexivity|reflexivity]; subst i2.
    change (166 =? 1) with false. cbv iota.
    split; [reflexivity|]. exists N_ExtensionAdditionAlternatives. split; [reflexivity|].
    change (rule 166) with rule_166. refine (cast _ _ _ _ _ (G_166 t1 _ K1) _). unfold act_166. val.
  Qed.

  (* asn1.y:775 *)
  Lemma sound_167 : Sound 167 (act_167).
  Proof.
    intros d its H. change (rhs 167) with (@nil Z) in H. cbn [matches] in H.
    subst its.
    
    change (167 =? 1) with false. cbv iota.
    split; [reflexivity|]. exists N_ExtensionAdditionAlternatives. split; [reflexivity|].
    change (rule 167) with rule_167. refine (cast _ _ _ _ _ (G_167 ) _). unfold act_167. val.
  Qed.

  (* asn1.y:778 *)
  Lemma sound_168 : Sound 168 (act_168).
  Proof.
    intros d its H. change (rhs 168) with [-108] in H. cbn [matches] in H.
    destruct H as (i1 & its1 & -> & H1 & ->).
    apply (holds_nt N_ExtensionAdditionAlternative) in H1; [|reflexivity|reflexivity]; subst i1.
    change (168 =? 1) with false. cbv iota.
    split; [reflexivity|]. exists N_ExtensionAdditionAlternativesList. split; [reflexivity|].
    change (rule 168) with rule_168. refine (cast _ _ _ _ _ (G_168 _) _). unfold act_168. val.
  Qed.

  (* asn1.y:779 *)
  Lemma sound_169 : Sound 169 (act_169).
  Proof.
    intros d its H. change (rhs 169) with [-110; 30; -108] in H. cbn [matches] in H.
    destruct H as (i1 & its1 & -> & H1 & i2 & its2 & -> & H2 & i3 & its3 & -> & H3 & ->).
    apply (holds_nt N_ExtensionAdditionAlternativesList) in H1; [|reflexivity|reflexivity]; subst i1. apply holds_tk in H2 as (t2 & -> & K2 & V2); [|reflexivity]. apply (holds_nt N_ExtensionAdditionAlternative) in H3; [|reflexivity|reflexivity]; subst i3.
    change (169 =? 1) with false. cbv iota.
    split; [reflexivity|]. exists N_ExtensionAdditionAlternativesList. split; [reflexivity|].
    change (rule 169) with rule_169. refine (cast _ _ _ _ _ (G_169 _ t2 _ K2) _). unfold act_169. val.
  Qed.

  (* asn1.y:783 *)
  Lemma sound_170 : Sound 170 (act_170).
  Proof.
    intros d its H. change (rhs 170) with [-24] in H. cbn [matches] in H.
    destruct H as (i1 & its1 & -> & H1 & ->).
    apply (holds_nt N_NamedType) in H1; [|reflexivity|reflexivity]; subst i1.
    change (170 =? 1) with false. cbv iota.
    split; [reflexivity|]. exists N_ExtensionAdditionAlternative. split; [reflexivity|].
    change (rule 170) with rule_170. refine (cast _ _ _ _ _ (G_170 _) _). unfold act_170. val.
  Qed.

  (* asn1.y:787 *)
  Lemma sound_171 : Sound 171 act_default.
  Proof.
    intros d its H. change (rhs 171) with [18; -129; -106; 19] in H. cbn [matches] in H.
    destruct H as (i1 & its1 & -> & H1 & i2 & its2 & -> & H2 & i3 & its3 & -> & H3 & i4 & its4 & -> & H4 & ->).
    apply holds_tk in H1 as (t1 & -> & K1 & V1); [|reflexivity]. apply (holds_nt N_VersionNumber) in H2; [|reflexivity|reflexivity]; subst i2. apply (holds_nt N_AlternativeTypeList) in H3; [|reflexivity|reflexivity]; subst i3. apply holds_tk in H4 as (t4 & -> & K4 & V4); [|reflexivity].
    change (171 =? 1) with false. cbv iota.
    split; [reflexivity|]. exists N_ExtensionAdditionAlternativesGroup. split; [reflexivity|].
    change (rule 171) with rule_171. refine (cast _ _ _ _ _ (G_171 t1 _ t4 K1 K4) _). unfold act_default. val.
  Qed.

  (* asn1.y:790 *)
  Lemma sound_172 : Sound 172 (act_172).
  Proof.
    intros d its H. change (rhs 172) with [-24] in H. cbn [matches] in H.
    destruct H as (i1 & its1 & -> & H1 & ->).
    apply (holds_nt N_NamedType) in H1; [|reflexivity|reflexivity]; subst i1.
    change (172 =? 1) with false. cbv iota.
    split; [reflexivity|]. exists N_AlternativeTypeList. split; [reflexivity|].
    change (rule 172) with rule_172. refine (cast _ _ _ _ _ (G_172 _) _). unfold act_172. val.
  Qed.

  (* asn1.y:791 *)
  Lemma sound_173 : Sound 173 (act_173).
  Proof.
    intros d its H. change (rhs 173) with [-106; 30; -24] in H. cbn [matches] in H.
    destruct H as (i1 & its1 & -> & H1 & i2 & its2 & -> & H2 & i3 & its3 & -> & H3 & ->).
    apply (holds_nt N_AlternativeTypeList) in H1; [|reflexivity|reflexivity]; subst i1. apply holds_tk in H2 as (t2 & -> & K2 & V2); [|reflexivity]. apply (holds_nt N_NamedType) in H3; [|reflexivity|reflexivity]; subst i3.
    change (173 =? 1) with false. cbv iota.
    split; [reflexivity|]. exists N_AlternativeTypeList. split; [reflexivity|].
    change (rule 173) with rule_173. refine (cast _ _ _ _ _ (G_173 _ t2 _ K2) _). unfold act_173. val.
  Qed.

  (* asn1.y:796 *)
  Lemma sound_174 : Sound 174 (act_174).
  Proof.
    intros d its H. change (rhs 174) with [-87; -20] in H. cbn [matches] in H.
    destruct H as (i1 & its1 & -> & H1 & i2 & its2 & -> & H2 & ->).
    apply (holds_nt N_Tag) in H1; [|reflexivity|reflexivity]; subst i1. apply (holds_nt N_Type) in H2; [|reflexivity|reflexivity]; subst i2.
    change (174 =? 1) with false. cbv iota.
    split; [reflexivity|]. exists N_TaggedType. split; [reflexivity|].
    change (rule 174) with rule_174. refine (cast _ _ _ _ _ (G_174 _ _) _). unfold act_174. val.
  Qed.

  (* asn1.y:797 *)
  Lemma sound_175 : Sound 175 (act_175).
  Proof.
    intros d its H. change (rhs 175) with [-87; 108; -20] in H. cbn [matches] in H.
    destruct H as (i1 & its1 & -> & H1 & i2 & its2 & -> & H2 & i3 & its3 & -> & H3 & ->).
    apply (holds_nt N_Tag) in H1; [|reflexivity|reflexivity]; subst i1. apply holds_tk in H2 as (t2 & -> & K2 & V2); [|reflexivity]. apply (holds_nt N_Type) in H3; [|reflexivity|reflexivity]; subst i3.
    change (175 =? 1) with false. cbv iota.
    split; [reflexivity|]. exists N_TaggedType. split; [reflexivity|].
    change (rule 175) with rule_175. refine (cast _ _ _ _ _ (G_175 _ t2 _ K2) _). unfold act_175. val.
  Qed.

  (* asn1.y:798 *)
  Lemma sound_176 : Sound 176 (act_176).
  Proof.
    intros d its H. change (rhs 176) with [-87; 64; -20] in H. cbn [matches] in H.
    destruct H as (i1 & its1 & -> & H1 & i2 & its2 & -> & H2 & i3 & its3 & -> & H3 & ->).
    apply (holds_nt N_Tag) in H1; [|reflexivity|reflexivity]; subst i1. apply holds_tk in H2 as (t2 & -> & K2 & V2); [|reflexivity]. apply (holds_nt N_Type) in H3; [|reflexivity|reflexivity]; subst i3.
    change (176 =? 1) with false. cbv iota.
    split; [reflexivity|]. exists N_TaggedType. split; [reflexivity|].
    change (rule 176) with rule_176. refine (cast _ _ _ _ _ (G_176 _ t2 _ K2) _). unfold act_176. val.
  Qed.

  (* asn1.y:801 *)
  Lemma sound_177 : Sound 177 (act_177).
  Proof.
    intros d its H. change (rhs 177) with [34; -89; -88; 35] in H. cbn [matches] in H.
    destruct H as (i1 & its1 & -> & H1 & i2 & its2 & -> & H2 & i3 & its3 & -> & H3 & i4 & its4 & -> & H4 & ->).
    apply holds_tk in H1 as (t1 & -> & K1 & V1); [|reflexivity]. apply (holds_nt N_Class) in H2; [|reflexivity|reflexivity]; subst i2. apply (holds_nt N_ClassNumber) in H3; [|reflexivity|reflexivity]; subst i3. apply holds_tk in H4 as (t4 & -> & K4 & V4); [|reflexivity].
    change (177 =? 1) with false. cbv iota.
    split; [reflexivity|]. exists N_Tag. split; [reflexivity|].
    change (rule 177) with rule_177. refine (cast _ _ _ _ _ (G_177 t1 _ _ t4 K1 K4) _). unfold act_177. val.
  Qed.

  (* asn1.y:804 *)
  Lemma sound_178 : Sound 178 (act_178).
  Proof.
    intros d its H. change (rhs 178) with [-39] in H. cbn [matches] in H.
    destruct H as (i1 & its1 & -> & H1 & ->).
    apply (holds_nt N_number) in H1; [|reflexivity|reflexivity]; subst i1.
    change (178 =? 1) with false. cbv iota.
    split; [reflexivity|]. exists N_ClassNumber. split; [reflexivity|].
    change (rule 178) with rule_178. refine (cast _ _ _ _ _ (G_178 _) _). unfold act_178. val.
  Qed.

  (* asn1.y:805 *)
  Lemma sound_179 : Sound 179 (act_179).
  Proof.
    intros d its H. change (rhs 179) with [-15] in H. cbn [matches] in H.
    destruct H as (i1 & its1 & -> & H1 & ->).
    apply (holds_nt N_DefinedValue) in H1; [|reflexivity|reflexivity]; subst i1.
    change (179 =? 1) with false. cbv iota.
    split; [reflexivity|]. exists N_ClassNumber. split; [reflexivity|].
    change (rule 179) with rule_179. refine (cast _ _ _ _ _ (G_179 _) _). unfold act_179. val.
  Qed.

  (* asn1.y:808 *)
  Lemma sound_180 : Sound 180 (act_180).
  Proof.
    intros d its H. change (rhs 180) with [102] in H. cbn [matches] in H.
    destruct H as (i1 & its1 & -> & H1 & ->).
    apply holds_tk in H1 as (t1 & -> & K1 & V1); [|reflexivity].
    change (180 =? 1) with false. cbv iota.
    split; [reflexivity|]. exists N_Class. split; [reflexivity|].
    change (rule 180) with rule_180. refine (cast _ _ _ _ _ (G_180 t1 K1) _). unfold act_180. val.
  Qed.

  (* asn1.y:809 *)
  Lemma sound_181 : Sound 181 (act_181).
  Proof.
    intros d its H. change (rhs 181) with [59] in H. cbn [matches] in H.
    destruct H as (i1 & its1 & -> & H1 & ->).
    apply holds_tk in H1 as (t1 & -> & K1 & V1); [|reflexivity].
    change (181 =? 1) with false. cbv iota.
    split; [reflexivity|]. exists N_Class. split; [reflexivity|].
    change (rule 181) with rule_181. refine (cast _ _ _ _ _ (G_181 t1 K1) _). unfold act_181. val.
  Qed.

  (* asn1.y:810 *)
  Lemma sound_182 : Sound 182 (act_182).
  Proof.
    intros d its H. change (rhs 182) with [121] in H. cbn [matches] in H.
    destruct H as (i1 & its1 & -> & H1 & ->).
    apply holds_tk in H1 as (t1 & -> & K1 & V1); [|reflexivity].
    change (182 =? 1) with false. cbv iota.
    split; [reflexivity|]. exists N_Class. split; [reflexivity|].
    change (rule 182) with rule_182. refine (cast _ _ _ _ _ (G_182 t1 K1) _). unfold act_182. val.
  Qed.

  (* asn1.y:811 *)
  Lemma sound_183 : Sound 183 (act_183).
  Proof.
    intros d its H. change (rhs 183) with (@nil Z) in H. cbn [matches] in H.
    subst its.
    
    change (183 =? 1) with false. cbv iota.
    split; [reflexivity|]. exists N_Class. split; [reflexivity|].
    change (rule 183) with rule_183. refine (cast _ _ _ _ _ (G_183 ) _). unfold act_183. val.
  Qed.

  (* asn1.y:816 *)
  Lemma sound_184 : Sound 184 (act_184).
  Proof.
    intros d its H. change (rhs 184) with [54; 93; -20] in H. cbn [matches] in H.
    destruct H as (i1 & its1 & -> & H1 & i2 & its2 & -> & H2 & i3 & its3 & -> & H3 & ->).
    apply holds_tk in H1 as (t1 & -> & K1 & V1); [|reflexivity]. apply holds_tk in H2 as (t2 & -> & K2 & V2); [|reflexivity]. apply (holds_nt N_Type) in H3; [|reflexivity|reflexivity]; subst i3.
    change (184 =? 1) with false. cbv iota.
    split; [reflexivity|]. exists N_SequenceOfType. split; [reflexivity|].
    change (rule 184) with rule_184. refine (cast _ _ _ _ _ (G_184 t1 t2 _ K1 K2) _). unfold act_184. val.
  Qed.

  (* asn1.y:817 *)
  Lemma sound_185 : Sound 185 (act_185).
  Proof.
    intros d its H. change (rhs 185) with [54; 93; -24] in H. cbn [matches] in H.
    destruct H as (i1 & its1 & -> & H1 & i2 & its2 & -> & H2 & i3 & its3 & -> & H3 & ->).
    apply holds_tk in H1 as (t1 & -> & K1 & V1); [|reflexivity]. apply holds_tk in H2 as (t2 & -> & K2 & V2); [|reflexivity]. apply (holds_nt N_NamedType) in H3; [|reflexivity|reflexivity]; subst i3.
    change (185 =? 1) with false. cbv iota.
    split; [reflexivity|]. exists N_SequenceOfType. split; [reflexivity|].
    change (rule 185) with rule_185. refine (cast _ _ _ _ _ (G_185 t1 t2 _ K1 K2) _). unfold act_185. val.
  Qed.

  (* asn1.y:822 *)
  Lemma sound_186 : Sound 186 (act_186).
  Proof.
    intros d its H. change (rhs 186) with [81; 104] in H. cbn [matches] in H.
    destruct H as (i1 & its1 & -> & H1 & i2 & its2 & -> & H2 & ->).
    apply holds_tk in H1 as (t1 & -> & K1 & V1); [|reflexivity]. apply holds_tk in H2 as (t2 & -> & K2 & V2); [|reflexivity].
    change (186 =? 1) with false. cbv iota.
    split; [reflexivity|]. exists N_ObjectIdentifierType. split; [reflexivity|].
    change (rule 186) with rule_186. refine (cast _ _ _ _ _ (G_186 t1 t2 K1 K2) _). unfold act_186. val.
  Qed.

  (* asn1.y:827 *)
  Lemma sound_187 : Sound 187 (act_187).
  Proof.
    intros d its H. change (rhs 187) with [26; -28; 27] in H. cbn [matches] in H.
    destruct H as (i1 & its1 & -> & H1 & i2 & its2 & -> & H2 & i3 & its3 & -> & H3 & ->).
    apply holds_tk in H1 as (t1 & -> & K1 & V1); [|reflexivity]. apply (holds_nt N_ObjIdComponentsList) in H2; [|reflexivity|reflexivity]; subst i2. apply holds_tk in H3 as (t3 & -> & K3 & V3); [|reflexivity].
    change (187 =? 1) with false. cbv iota.
    split; [reflexivity|]. exists N_ObjectIdentifierValue. split; [reflexivity|].
    change (rule 187) with rule_187. refine (cast _ _ _ _ _ (G_187 t1 _ t3 K1 K3) _). unfold act_187. val.
  Qed.

  (* asn1.y:828 *)
  Lemma sound_188 : Sound 188 (act_188 mkR).
  Proof.
    intros d its H. change (rhs 188) with [26; -15; -28; 27] in H. cbn [matches] in H.
    destruct H as (i1 & its1 & -> & H1 & i2 & its2 & -> & H2 & i3 & its3 & -> & H3 & i4 & its4 & -> & H4 & ->).
    apply holds_tk in H1 as (t1 & -> & K1 & V1); [|reflexivity]. apply (holds_nt N_DefinedValue) in H2; [|reflexivity|reflexivity]; subst i2. apply (holds_nt N_ObjIdComponentsList) in H3; [|reflexivity|reflexivity]; subst i3. apply holds_tk in H4 as (t4 & -> & K4 & V4); [|reflexivity].
    change (188 =? 1) with false. cbv iota.
    split; [reflexivity|]. exists N_ObjectIdentifierValue. split; [reflexivity|].
    change (rule 188) with rule_188. refine (cast _ _ _ _ _ (G_188 t1 _ _ t4 K1 K4) _). unfold act_188. val.
  Qed.

  (* asn1.y:831 *)
  Lemma sound_189 : Sound 189 (act_189).
  Proof.
    intros d its H. change (rhs 189) with [-27] in H. cbn [matches] in H.
    destruct H as (i1 & its1 & -> & H1 & ->).
    apply (holds_nt N_ObjIdComponents) in H1; [|reflexivity|reflexivity]; subst i1.
    change (189 =? 1) with false. cbv iota.
    split; [reflexivity|]. exists N_ObjIdComponentsList. split; [reflexivity|].
    change (rule 189) with rule_189. refine (cast _ _ _ _ _ (G_189 _) _). unfold act_189. val.
  Qed.

  (* asn1.y:832 *)
  Lemma sound_190 : Sound 190 (act_190).
  Proof.
    intros d its H. change (rhs 190) with [-27; -28] in H. cbn [matches] in H.
    destruct H as (i1 & its1 & -> & H1 & i2 & its2 & -> & H2 & ->).
    apply (holds_nt N_ObjIdComponents) in H1; [|reflexivity|reflexivity]; subst i1. apply (holds_nt N_ObjIdComponentsList) in H2; [|reflexivity|reflexivity]; subst i2.
    change (190 =? 1) with false. cbv iota.
    split; [reflexivity|]. exists N_ObjIdComponentsList. split; [reflexivity|].
    change (rule 190) with rule_190. refine (cast _ _ _ _ _ (G_190 _ _) _). unfold act_190. val.
  Qed.

  (* asn1.y:835 *)
  Lemma sound_191 : Sound 191 (act_191).
  Proof.
    intros d its H. change (rhs 191) with [-14] in H. cbn [matches] in H.
    destruct H as (i1 & its1 & -> & H1 & ->).
    apply (holds_nt N_NameForm) in H1; [|reflexivity|reflexivity]; subst i1.
    change (191 =? 1) with false. cbv iota.
    split; [reflexivity|]. exists N_ObjIdComponents. split; [reflexivity|].
    change (rule 191) with rule_191. refine (cast _ _ _ _ _ (G_191 _) _). unfold act_191. val.
  Qed.

  (* asn1.y:836 *)
  Lemma sound_192 : Sound 192 act_default.
  Proof.
    intros d its H. change (rhs 192) with [-25] in H. cbn [matches] in H.
    destruct H as (i1 & its1 & -> & H1 & ->).
    apply (holds_nt N_NumberForm) in H1; [|reflexivity|reflexivity]; subst i1.
    change (192 =? 1) with false. cbv iota.
    split; [reflexivity|]. exists N_ObjIdComponents. split; [reflexivity|].
    change (rule 192) with rule_192. refine (cast _ _ _ _ _ (G_192 _) _). unfold act_default. val.
  Qed.

  (* asn1.y:837 *)
  Lemma sound_193 : Sound 193 act_default.
  Proof.
    intros d its H. change (rhs 193) with [-26] in H. cbn [matches] in H.
    destruct H as (i1 & its1 & -> & H1 & ->).
    apply (holds_nt N_NameAndNumberForm) in H1; [|reflexivity|reflexivity]; subst i1.
    change (193 =? 1) with false. cbv iota.
    split; [reflexivity|]. exists N_ObjIdComponents. split; [reflexivity|].
    change (rule 193) with rule_193. refine (cast _ _ _ _ _ (G_193 _) _). unfold act_default. val.
  Qed.

  (* asn1.y:838 *)
  Lemma sound_194 : Sound 194 (act_194 mkF).
  Proof.
    intros d its H. change (rhs 194) with [-15] in H. cbn [matches] in H.
    destruct H as (i1 & its1 & -> & H1 & ->).
    apply (holds_nt N_DefinedValue) in H1; [|reflexivity|reflexivity]; subst i1.
    change (194 =? 1) with false. cbv iota.
    split; [reflexivity|]. exists N_ObjIdComponents. split; [reflexivity|].
    change (rule 194) with rule_194. refine (cast _ _ _ _ _ (G_194 _) _). unfold act_194. val.
  Qed.

  (* asn1.y:841 *)
  Lemma sound_195 : Sound 195 (act_195).
  Proof.
    intros d its H. change (rhs 195) with [8] in H. cbn [matches] in H.
    destruct H as (i1 & its1 & -> & H1 & ->).
    apply holds_tk in H1 as (t1 & -> & K1 & V1); [|reflexivity].
    change (195 =? 1) with false. cbv iota.
    split; [reflexivity|]. exists N_NumberForm. split; [reflexivity|].
    change (rule 195) with rule_195. refine (cast _ _ _ _ _ (G_195 t1 K1) _). unfold act_195. val.
  Qed.

  (* asn1.y:842 *)
  Lemma sound_196 : Sound 196 (act_196 mkF).
  Proof.
    intros d its H. change (rhs 196) with [-15] in H. cbn [matches] in H.
    destruct H as (i1 & its1 & -> & H1 & ->).
    apply (holds_nt N_DefinedValue) in H1; [|reflexivity|reflexivity]; subst i1.
    change (196 =? 1) with false. cbv iota.
    split; [reflexivity|]. exists N_NumberForm. split; [reflexivity|].
    change (rule 196) with rule_196. refine (cast _ _ _ _ _ (G_196 _) _). unfold act_196. val.
  Qed.

  (* asn1.y:846 *)
  Lemma sound_197 : Sound 197 (act_197).
  Proof.
    intros d its H. change (rhs 197) with [-5; 32; -25; 33] in H. cbn [matches] in H.
    destruct H as (i1 & its1 & -> & H1 & i2 & its2 & -> & H2 & i3 & its3 & -> & H3 & i4 & its4 & -> & H4 & ->).
    apply (holds_nt N_identifier) in H1; [|reflexivity|reflexivity]; subst i1. apply holds_tk in H2 as (t2 & -> & K2 & V2); [|reflexivity]. apply (holds_nt N_NumberForm) in H3; [|reflexivity|reflexivity]; subst i3. apply holds_tk in H4 as (t4 & -> & K4 & V4); [|reflexivity].
    change (197 =? 1) with false. cbv iota.
    split; [reflexivity|]. exists N_NameAndNumberForm. split; [reflexivity|].
    change (rule 197) with rule_197. refine (cast _ _ _ _ _ (G_197 _ t2 _ t4 K2 K4) _). unfold act_197. val.
  Qed.

  (* asn1.y:849 *)
  Lemma sound_198 : Sound 198 act_default.
  Proof.
    intros d its H. change (rhs 198) with [-5] in H. cbn [matches] in H.
    destruct H as (i1 & its1 & -> & H1 & ->).
    apply (holds_nt N_identifier) in H1; [|reflexivity|reflexivity]; subst i1.
    change (198 =? 1) with false. cbv iota.
    split; [reflexivity|]. exists N_NameForm. split; [reflexivity|].
    change (rule 198) with rule_198. refine (cast _ _ _ _ _ (G_198 _) _). unfold act_default. val.
  Qed.

  (* asn1.y:854 *)
  Lemma sound_199 : Sound 199 act_default.
  Proof.
    intros d its H. change (rhs 199) with [-74] in H. cbn [matches] in H.
    destruct H as (i1 & its1 & -> & H1 & ->).
    apply (holds_nt N_RestrictedCharacterStringType) in H1; [|reflexivity|reflexivity]; subst i1.
    change (199 =? 1) with false. cbv iota.
    split; [reflexivity|]. exists N_CharacterStringType. split; [reflexivity|].
    change (rule 199) with rule_199. refine (cast _ _ _ _ _ (G_199 _) _). unfold act_default. val.
  Qed.

  (* asn1.y:855 *)
  Lemma sound_200 : Sound 200 act_default.
  Proof.
    intros d its H. change (rhs 200) with [-75] in H. cbn [matches] in H.
    destruct H as (i1 & its1 & -> & H1 & ->).
    apply (holds_nt N_UnrestrictedCharacterStringType) in H1; [|reflexivity|reflexivity]; subst i1.
    change (200 =? 1) with false. cbv iota.
    split; [reflexivity|]. exists N_CharacterStringType. split; [reflexivity|].
    change (rule 200) with rule_200. refine (cast _ _ _ _ _ (G_200 _) _). unfold act_default. val.
  Qed.

  (* asn1.y:858 *)
  Lemma sound_201 : Sound 201 (act_201).
  Proof.
    intros d its H. change (rhs 201) with [75] in H. cbn [matches] in H.
    destruct H as (i1 & its1 & -> & H1 & ->).
    apply holds_tk in H1 as (t1 & -> & K1 & V1); [|reflexivity].
    change (201 =? 1) with false. cbv iota.
    split; [reflexivity|]. exists N_RestrictedCharacterStringType. split; [reflexivity|].
    change (rule 201) with rule_201. refine (cast _ _ _ _ _ (G_201 t1 K1) _). unfold act_201. val.
  Qed.

  (* asn1.y:859 *)
  Lemma sound_202 : Sound 202 (act_202).
  Proof.
    intros d its H. change (rhs 202) with [92] in H. cbn [matches] in H.
    destruct H as (i1 & its1 & -> & H1 & ->).
    apply holds_tk in H1 as (t1 & -> & K1 & V1); [|reflexivity].
    change (202 =? 1) with false. cbv iota.
    split; [reflexivity|]. exists N_RestrictedCharacterStringType. split; [reflexivity|].
    change (rule 202) with rule_202. refine (cast _ _ _ _ _ (G_202 t1 K1) _). unfold act_202. val.
  Qed.

  (* asn1.y:860 *)
  Lemma sound_203 : Sound 203 (act_203).
  Proof.
    intros d its H. change (rhs 203) with [96] in H. cbn [matches] in H.
    destruct H as (i1 & its1 & -> & H1 & ->).
    apply holds_tk in H1 as (t1 & -> & K1 & V1); [|reflexivity].
    change (203 =? 1) with false. cbv iota.
    split; [reflexivity|]. exists N_RestrictedCharacterStringType. split; [reflexivity|].
    change (rule 203) with rule_203. refine (cast _ _ _ _ _ (G_203 t1 K1) _). unfold act_203. val.
  Qed.

  (* asn1.y:861 *)
  Lemma sound_204 : Sound 204 (act_204).
  Proof.
    intros d its H. change (rhs 204) with [100] in H. cbn [matches] in H.
    destruct H as (i1 & its1 & -> & H1 & ->).
    apply holds_tk in H1 as (t1 & -> & K1 & V1); [|reflexivity].
    change (204 =? 1) with false. cbv iota.
    split; [reflexivity|]. exists N_RestrictedCharacterStringType. split; [reflexivity|].
    change (rule 204) with rule_204. refine (cast _ _ _ _ _ (G_204 t1 K1) _). unfold act_204. val.
  Qed.

  (* asn1.y:862 *)
  Lemma sound_205 : Sound 205 (act_205).
  Proof.
    intros d its H. change (rhs 205) with [57] in H. cbn [matches] in H.
    destruct H as (i1 & its1 & -> & H1 & ->).
    apply holds_tk in H1 as (t1 & -> & K1 & V1); [|reflexivity].
    change (205 =? 1) with false. cbv iota.
    split; [reflexivity|]. exists N_RestrictedCharacterStringType. split; [reflexivity|].
    change (rule 205) with rule_205. refine (cast _ _ _ _ _ (G_205 t1 K1) _). unfold act_205. val.
  Qed.

  (* asn1.y:863 *)
  Lemma sound_206 : Sound 206 (act_206).
  Proof.
    intros d its H. change (rhs 206) with [77] in H. cbn [matches] in H.
    destruct H as (i1 & its1 & -> & H1 & ->).
    apply holds_tk in H1 as (t1 & -> & K1 & V1); [|reflexivity].
    change (206 =? 1) with false. cbv iota.
    split; [reflexivity|]. exists N_RestrictedCharacterStringType. split; [reflexivity|].
    change (rule 206) with rule_206. refine (cast _ _ _ _ _ (G_206 t1 K1) _). unfold act_206. val.
  Qed.

  (* asn1.y:864 *)
  Lemma sound_207 : Sound 207 (act_207).
  Proof.
    intros d its H. change (rhs 207) with [117] in H. cbn [matches] in H.
    destruct H as (i1 & its1 & -> & H1 & ->).
    apply holds_tk in H1 as (t1 & -> & K1 & V1); [|reflexivity].
    change (207 =? 1) with false. cbv iota.
    split; [reflexivity|]. exists N_RestrictedCharacterStringType. split; [reflexivity|].
    change (rule 207) with rule_207. refine (cast _ _ _ _ _ (G_207 t1 K1) _). unfold act_207. val.
  Qed.

  (* asn1.y:865 *)
  Lemma sound_208 : Sound 208 (act_208).
  Proof.
    intros d its H. change (rhs 208) with [82] in H. cbn [matches] in H.
    destruct H as (i1 & its1 & -> & H1 & ->).
    apply holds_tk in H1 as (t1 & -> & K1 & V1); [|reflexivity].
    change (208 =? 1) with false. cbv iota.
    split; [reflexivity|]. exists N_RestrictedCharacterStringType. split; [reflexivity|].
    change (rule 208) with rule_208. refine (cast _ _ _ _ _ (G_208 t1 K1) _). unfold act_208. val.
  Qed.

  (* asn1.y:866 *)
  Lemma sound_209 : Sound 209 (act_209).
  Proof.
    intros d its H. change (rhs 209) with [74] in H. cbn [matches] in H.
    destruct H as (i1 & its1 & -> & H1 & ->).
    apply holds_tk in H1 as (t1 & -> & K1 & V1); [|reflexivity].
    change (209 =? 1) with false. cbv iota.
    split; [reflexivity|]. exists N_RestrictedCharacterStringType. split; [reflexivity|].
    change (rule 209) with rule_209. refine (cast _ _ _ _ _ (G_209 t1 K1) _). unfold act_209. val.
  Qed.

  (* asn1.y:867 *)
  Lemma sound_210 : Sound 210 (act_210).
  Proof.
    intros d its H. change (rhs 210) with [106] in H. cbn [matches] in H.
    destruct H as (i1 & its1 & -> & H1 & ->).
    apply holds_tk in H1 as (t1 & -> & K1 & V1); [|reflexivity].
    change (210 =? 1) with false. cbv iota.
    split; [reflexivity|]. exists N_RestrictedCharacterStringType. split; [reflexivity|].
    change (rule 210) with rule_210. refine (cast _ _ _ _ _ (G_210 t1 K1) _). unfold act_210. val.
  Qed.

  (* asn1.y:868 *)
  Lemma sound_211 : Sound 211 (act_211).
  Proof.
    intros d its H. change (rhs 211) with [114] in H. cbn [matches] in H.
    destruct H as (i1 & its1 & -> & H1 & ->).
    apply holds_tk in H1 as (t1 & -> & K1 & V1); [|reflexivity].
    change (211 =? 1) with false. cbv iota.
    split; [reflexivity|]. exists N_RestrictedCharacterStringType. split; [reflexivity|].
    change (rule 211) with rule_211. refine (cast _ _ _ _ _ (G_211 t1 K1) _). unfold act_211. val.
  Qed.

  (* asn1.y:869 *)
  Lemma sound_212 : Sound 212 (act_212).
  Proof.
    intros d its H. change (rhs 212) with [118] in H. cbn [matches] in H.
    destruct H as (i1 & its1 & -> & H1 & ->).
    apply holds_tk in H1 as (t1 & -> & K1 & V1); [|reflexivity].
    change (212 =? 1) with false. cbv iota.
    split; [reflexivity|]. exists N_RestrictedCharacterStringType. split; [reflexivity|].
    change (rule 212) with rule_212. refine (cast _ _ _ _ _ (G_212 t1 K1) _). unfold act_212. val.
  Qed.

  (* asn1.y:870 *)
  Lemma sound_213 : Sound 213 (act_213).
  Proof.
    intros d its H. change (rhs 213) with [122] in H. cbn [matches] in H.
    destruct H as (i1 & its1 & -> & H1 & ->).
    apply holds_tk in H1 as (t1 & -> & K1 & V1); [|reflexivity].
    change (213 =? 1) with false. cbv iota.
    split; [reflexivity|]. exists N_RestrictedCharacterStringType. split; [reflexivity|].
    change (rule 213) with rule_213. refine (cast _ _ _ _ _ (G_213 t1 K1) _). unfold act_213. val.
  Qed.

  (* asn1.y:875 *)
  Lemma sound_214 : Sound 214 (act_214).
  Proof.
    intros d its H. change (rhs 214) with [87; 66] in H. cbn [matches] in H.
    destruct H as (i1 & its1 & -> & H1 & i2 & its2 & -> & H2 & ->).
    apply holds_tk in H1 as (t1 & -> & K1 & V1); [|reflexivity]. apply holds_tk in H2 as (t2 & -> & K2 & V2); [|reflexivity].
    change (214 =? 1) with false. cbv iota.
    split; [reflexivity|]. exists N_UnrestrictedCharacterStringType. split; [reflexivity|].
    change (rule 214) with rule_214. refine (cast _ _ _ _ _ (G_214 t1 t2 K1 K2) _). unfold act_214. val.
  Qed.

  (* asn1.y:880 *)
  Lemma sound_215 : Sound 215 (act_215).
  Proof.
    intros d its H. change (rhs 215) with [88] in H. cbn [matches] in H.
    destruct H as (i1 & its1 & -> & H1 & ->).
    apply holds_tk in H1 as (t1 & -> & K1 & V1); [|reflexivity].
    change (215 =? 1) with false. cbv iota.
    split; [reflexivity|]. exists N_UsefulType. split; [reflexivity|].
    change (rule 215) with rule_215. refine (cast _ _ _ _ _ (G_215 t1 K1) _). unfold act_215. val.
  Qed.

  (* asn1.y:881 *)
  Lemma sound_216 : Sound 216 (act_216).
  Proof.
    intros d its H. change (rhs 216) with [110] in H. cbn [matches] in H.
    destruct H as (i1 & its1 & -> & H1 & ->).
    apply holds_tk in H1 as (t1 & -> & K1 & V1); [|reflexivity].
    change (216 =? 1) with false. cbv iota.
    split; [reflexivity|]. exists N_UsefulType. split; [reflexivity|].
    change (rule 216) with rule_216. refine (cast _ _ _ _ _ (G_216 t1 K1) _). unfold act_216. val.
  Qed.

  (* asn1.y:886 *)
  Lemma sound_217 : Sound 217 (act_217).
  Proof.
    intros d its H. change (rhs 217) with [-20; -48] in H. cbn [matches] in H.
    destruct H as (i1 & its1 & -> & H1 & i2 & its2 & -> & H2 & ->).
    apply (holds_nt N_Type) in H1; [|reflexivity|reflexivity]; subst i1. apply (holds_nt N_Constraint) in H2; [|reflexivity|reflexivity]; subst i2.
    change (217 =? 1) with false. cbv iota.
    split; [reflexivity|]. exists N_ConstrainedType. split; [reflexivity|].
    change (rule 217) with rule_217. refine (cast _ _ _ _ _ (G_217 _ _) _). unfold act_217. val.
  Qed.

  (* asn1.y:887 *)
  Lemma sound_218 : Sound 218 act_default.
  Proof.
    intros d its H. change (rhs 218) with [-47] in H. cbn [matches] in H.
    destruct H as (i1 & its1 & -> & H1 & ->).
    apply (holds_nt N_TypeWithConstraint) in H1; [|reflexivity|reflexivity]; subst i1.
    change (218 =? 1) with false. cbv iota.
    split; [reflexivity|]. exists N_ConstrainedType. split; [reflexivity|].
    change (rule 218) with rule_218. refine (cast _ _ _ _ _ (G_218 _) _). unfold act_default. val.
  Qed.

  (* asn1.y:892 *)
  Lemma sound_219 : Sound 219 (act_219).
  Proof.
    intros d its H. change (rhs 219) with [58; -48; 93; -20] in H. cbn [matches] in H.
    destruct H as (i1 & its1 & -> & H1 & i2 & its2 & -> & H2 & i3 & its3 & -> & H3 & i4 & its4 & -> & H4 & ->).
    apply holds_tk in H1 as (t1 & -> & K1 & V1); [|reflexivity]. apply (holds_nt N_Constraint) in H2; [|reflexivity|reflexivity]; subst i2. apply holds_tk in H3 as (t3 & -> & K3 & V3); [|reflexivity]. apply (holds_nt N_Type) in H4; [|reflexivity|reflexivity]; subst i4.
    change (219 =? 1) with false. cbv iota.
    split; [reflexivity|]. exists N_TypeWithConstraint. split; [reflexivity|].
    change (rule 219) with rule_219. refine (cast _ _ _ _ _ (G_219 t1 _ t3 _ K1 K3) _). unfold act_219. val.
  Qed.

  (* asn1.y:893 *)
  Lemma sound_220 : Sound 220 (act_220).
  Proof.
    intros d its H. change (rhs 220) with [58; -68; 93; -20] in H. cbn [matches] in H.
    destruct H as (i1 & its1 & -> & H1 & i2 & its2 & -> & H2 & i3 & its3 & -> & H3 & i4 & its4 & -> & H4 & ->).
    apply holds_tk in H1 as (t1 & -> & K1 & V1); [|reflexivity]. apply (holds_nt N_SizeConstraint) in H2; [|reflexivity|reflexivity]; subst i2. apply holds_tk in H3 as (t3 & -> & K3 & V3); [|reflexivity]. apply (holds_nt N_Type) in H4; [|reflexivity|reflexivity]; subst i4.
    change (220 =? 1) with false. cbv iota.
    split; [reflexivity|]. exists N_TypeWithConstraint. split; [reflexivity|].
    change (rule 220) with rule_220. refine (cast _ _ _ _ _ (G_220 t1 _ t3 _ K1 K3) _). unfold act_220. val.
  Qed.

  (* asn1.y:894 *)
  Lemma sound_221 : Sound 221 (act_221).
  Proof.
    intros d its H. change (rhs 221) with [54; -48; 93; -20] in H. cbn [matches] in H.
    destruct H as (i1 & its1 & -> & H1 & i2 & its2 & -> & H2 & i3 & its3 & -> & H3 & i4 & its4 & -> & H4 & ->).
    apply holds_tk in H1 as (t1 & -> & K1 & V1); [|reflexivity]. apply (holds_nt N_Constraint) in H2; [|reflexivity|reflexivity]; subst i2. apply holds_tk in H3 as (t3 & -> & K3 & V3); [|reflexivity]. apply (holds_nt N_Type) in H4; [|reflexivity|reflexivity]; subst i4.
    change (221 =? 1) with false. cbv iota.
    split; [reflexivity|]. exists N_TypeWithConstraint. split; [reflexivity|].
    change (rule 221) with rule_221. refine (cast _ _ _ _ _ (G_221 t1 _ t3 _ K1 K3) _). unfold act_221. val.
  Qed.

  (* asn1.y:895 *)
  Lemma sound_222 : Sound 222 (act_222).
  Proof.
    intros d its H. change (rhs 222) with [54; -68; 93; -20] in H. cbn [matches] in H.
    destruct H as (i1 & its1 & -> & H1 & i2 & its2 & -> & H2 & i3 & its3 & -> & H3 & i4 & its4 & -> & H4 & ->).
    apply holds_tk in H1 as (t1 & -> & K1 & V1); [|reflexivity]. apply (holds_nt N_SizeConstraint) in H2; [|reflexivity|reflexivity]; subst i2. apply holds_tk in H3 as (t3 & -> & K3 & V3); [|reflexivity]. apply (holds_nt N_Type) in H4; [|reflexivity|reflexivity]; subst i4.
    change (222 =? 1) with false. cbv iota.
    split; [reflexivity|]. exists N_TypeWithConstraint. split; [reflexivity|].
    change (rule 222) with rule_222. refine (cast _ _ _ _ _ (G_222 t1 _ t3 _ K1 K3) _). unfold act_222. val.
  Qed.

  (* asn1.y:896 *)
  Lemma sound_223 : Sound 223 (act_223).
  Proof.
    intros d its H. change (rhs 223) with [58; -48; 93; -24] in H. cbn [matches] in H.
    destruct H as (i1 & its1 & -> & H1 & i2 & its2 & -> & H2 & i3 & its3 & -> & H3 & i4 & its4 & -> & H4 & ->).
    apply holds_tk in H1 as (t1 & -> & K1 & V1); [|reflexivity]. apply (holds_nt N_Constraint) in H2; [|reflexivity|reflexivity]; subst i2. apply holds_tk in H3 as (t3 & -> & K3 & V3); [|reflexivity]. apply (holds_nt N_NamedType) in H4; [|reflexivity|reflexivity]; subst i4.
    change (223 =? 1) with false. cbv iota.
    split; [reflexivity|]. exists N_TypeWithConstraint. split; [reflexivity|].
    change (rule 223) with rule_223. refine (cast _ _ _ _ _ (G_223 t1 _ t3 _ K1 K3) _). unfold act_223. val.
  Qed.

  (* asn1.y:897 *)
  Lemma sound_224 : Sound 224 (act_224).
  Proof.
    intros d its H. change (rhs 224) with [58; -68; 93; -24] in H. cbn [matches] in H.
    destruct H as (i1 & its1 & -> & H1 & i2 & its2 & -> & H2 & i3 & its3 & -> & H3 & i4 & its4 & -> & H4 & ->).
    apply holds_tk in H1 as (t1 & -> & K1 & V1); [|reflexivity]. apply (holds_nt N_SizeConstraint) in H2; [|reflexivity|reflexivity]; subst i2. apply holds_tk in H3 as (t3 & -> & K3 & V3); [|reflexivity]. apply (holds_nt N_NamedType) in H4; [|reflexivity|reflexivity]; subst i4.
    change (224 =? 1) with false. cbv iota.
    split; [reflexivity|]. exists N_TypeWithConstraint. split; [reflexivity|].
    change (rule 224) with rule_224. refine (cast _ _ _ _ _ (G_224 t1 _ t3 _ K1 K3) _). unfold act_224. val.
  Qed.

  (* asn1.y:898 *)
  Lemma sound_225 : Sound 225 (act_225).
  Proof.
    intros d its H. change (rhs 225) with [54; -48; 93; -24] in H. cbn [matches] in H.
    destruct H as (i1 & its1 & -> & H1 & i2 & its2 & -> & H2 & i3 & its3 & -> & H3 & i4 & its4 & -> & H4 & ->).
    apply holds_tk in H1 as (t1 & -> & K1 & V1); [|reflexivity]. apply (holds_nt N_Constraint) in H2; [|reflexivity|reflexivity]; subst i2. apply holds_tk in H3 as (t3 & -> & K3 & V3); [|reflexivity]. apply (holds_nt N_NamedType) in H4; [|reflexivity|reflexivity]; subst i4.
    change (225 =? 1) with false. cbv iota.
    split; [reflexivity|]. exists N_TypeWithConstraint. split; [reflexivity|].
    change (rule 225) with rule_225. refine (cast _ _ _ _ _ (G_225 t1 _ t3 _ K1 K3) _). unfold act_225. val.
  Qed.

  (* asn1.y:899 *)
  Lemma sound_226 : Sound 226 (act_226).
  Proof.
    intros d its H. change (rhs 226) with [54; -68; 93; -24] in H. cbn [matches] in H.
    destruct H as (i1 & its1 & -> & H1 & i2 & its2 & -> & H2 & i3 & its3 & -> & H3 & i4 & its4 & -> & H4 & ->).
    apply holds_tk in H1 as (t1 & -> & K1 & V1); [|reflexivity]. apply (holds_nt N_SizeConstraint) in H2; [|reflexivity|reflexivity]; subst i2. apply holds_tk in H3 as (t3 & -> & K3 & V3); [|reflexivity]. apply (holds_nt N_NamedType) in H4; [|reflexivity|reflexivity]; subst i4.
    change (226 =? 1) with false. cbv iota.
    split; [reflexivity|]. exists N_TypeWithConstraint. split; [reflexivity|].
    change (rule 226) with rule_226. refine (cast _ _ _ _ _ (G_226 t1 _ t3 _ K1 K3) _). unfold act_226. val.
  Qed.

  (* asn1.y:904 *)
  Lemma sound_227 : Sound 227 (act_227).
  Proof.
    intros d its H. change (rhs 227) with [32; -49; -124; 33] in H. cbn [matches] in H.
    destruct H as (i1 & its1 & -> & H1 & i2 & its2 & -> & H2 & i3 & its3 & -> & H3 & i4 & its4 & -> & H4 & ->).
    apply holds_tk in H1 as (t1 & -> & K1 & V1); [|reflexivity]. apply (holds_nt N_ConstraintSpec) in H2; [|reflexivity|reflexivity]; subst i2. apply (holds_nt N_ExceptionSpec) in H3; [|reflexivity|reflexivity]; subst i3. apply holds_tk in H4 as (t4 & -> & K4 & V4); [|reflexivity].
    change (227 =? 1) with false. cbv iota.
    split; [reflexivity|]. exists N_Constraint. split; [reflexivity|].
    change (rule 227) with rule_227. refine (cast _ _ _ _ _ (G_227 t1 _ t4 K1 K4) _). unfold act_227. val.
  Qed.

  (* asn1.y:907 *)
  Lemma sound_228 : Sound 228 (act_228).
  Proof.
    intros d its H. change (rhs 228) with [-50] in H. cbn [matches] in H.
    destruct H as (i1 & its1 & -> & H1 & ->).
    apply (holds_nt N_SubtypeConstraint) in H1; [|reflexivity|reflexivity]; subst i1.
    change (228 =? 1) with false. cbv iota.
    split; [reflexivity|]. exists N_ConstraintSpec. split; [reflexivity|].
    change (rule 228) with rule_228. refine (cast _ _ _ _ _ (G_228 _) _). unfold act_228. val.
  Qed.

  (* asn1.y:911 *)
  Lemma sound_229 : Sound 229 act_default.
  Proof.
    intros d its H. change (rhs 229) with [-51] in H. cbn [matches] in H.
    destruct H as (i1 & its1 & -> & H1 & ->).
    apply (holds_nt N_ElementSetSpecs) in H1; [|reflexivity|reflexivity]; subst i1.
    change (229 =? 1) with false. cbv iota.
    split; [reflexivity|]. exists N_SubtypeConstraint. split; [reflexivity|].
    change (rule 229) with rule_229. refine (cast _ _ _ _ _ (G_229 _) _). unfold act_default. val.
  Qed.

  (* asn1.y:916 *)
  Lemma sound_230 : Sound 230 act_default.
  Proof.
    intros d its H. change (rhs 230) with [-52] in H. cbn [matches] in H.
    destruct H as (i1 & its1 & -> & H1 & ->).
    apply (holds_nt N_RootElementSetSpec) in H1; [|reflexivity|reflexivity]; subst i1.
    change (230 =? 1) with false. cbv iota.
    split; [reflexivity|]. exists N_ElementSetSpecs. split; [reflexivity|].
    change (rule 230) with rule_230. refine (cast _ _ _ _ _ (G_230 _) _). unfold act_default. val.
  Qed.

  (* asn1.y:917 *)
  Lemma sound_231 : Sound 231 (act_231).
  Proof.
    intros d its H. change (rhs 231) with [-52; 30; 17] in H. cbn [matches] in H.
    destruct H as (i1 & its1 & -> & H1 & i2 & its2 & -> & H2 & i3 & its3 & -> & H3 & ->).
    apply (holds_nt N_RootElementSetSpec) in H1; [|reflexivity|reflexivity]; subst i1. apply holds_tk in H2 as (t2 & -> & K2 & V2); [|reflexivity]. apply holds_tk in H3 as (t3 & -> & K3 & V3); [|reflexivity].
    change (231 =? 1) with false. cbv iota.
    split; [reflexivity|]. exists N_ElementSetSpecs. split; [reflexivity|].
    change (rule 231) with rule_231. refine (cast _ _ _ _ _ (G_231 _ t2 t3 K2 K3) _). unfold act_231. val.
  Qed.

  (* asn1.y:918 *)
  Lemma sound_232 : Sound 232 (act_232).
  Proof.
    intros d its H. change (rhs 232) with [-52; 30; 17; 30; -53] in H. cbn [matches] in H.
    destruct H as (i1 & its1 & -> & H1 & i2 & its2 & -> & H2 & i3 & its3 & -> & H3 & i4 & its4 & -> & H4 & i5 & its5 & -> & H5 & ->).
    apply (holds_nt N_RootElementSetSpec) in H1; [|reflexivity|reflexivity]; subst i1. apply holds_tk in H2 as (t2 & -> & K2 & V2); [|reflexivity]. apply holds_tk in H3 as (t3 & -> & K3 & V3); [|reflexivity]. apply holds_tk in H4 as (t4 & -> & K4 & V4); [|reflexivity]. apply (holds_nt N_AdditionalElementSetSpec) in H5; [|reflexivity|reflexivity]; subst i5.
    change (232 =? 1) with false. cbv iota.
    split; [reflexivity|]. exists N_ElementSetSpecs. split; [reflexivity|].
    change (rule 232) with rule_232. refine (cast _ _ _ _ _ (G_232 _ t2 t3 t4 _ K2 K3 K4) _). unfold act_232. val.
  Qed.

  (* asn1.y:921 *)
  Lemma sound_233 : Sound 233 (act_233).
  Proof.
    intros d its H. change (rhs 233) with [-54] in H. cbn [matches] in H.
    destruct H as (i1 & its1 & -> & H1 & ->).
    apply (holds_nt N_ElementSetSpec) in H1; [|reflexivity|reflexivity]; subst i1.
    change (233 =? 1) with false. cbv iota.
    split; [reflexivity|]. exists N_RootElementSetSpec. split; [reflexivity|].
    change (rule 233) with rule_233. refine (cast _ _ _ _ _ (G_233 _) _). unfold act_233. val.
  Qed.

  (* asn1.y:924 *)
  Lemma sound_234 : Sound 234 act_default.
  Proof.
    intros d its H. change (rhs 234) with [-54] in H. cbn [matches] in H.
    destruct H as (i1 & its1 & -> & H1 & ->).
    apply (holds_nt N_ElementSetSpec) in H1; [|reflexivity|reflexivity]; subst i1.
    change (234 =? 1) with false. cbv iota.
    split; [reflexivity|]. exists N_AdditionalElementSetSpec. split; [reflexivity|].
    change (rule 234) with rule_234. refine (cast _ _ _ _ _ (G_234 _) _). unfold act_default. val.
  Qed.

  (* asn1.y:927 *)
  Lemma sound_235 : Sound 235 (act_235).
  Proof.
    intros d its H. change (rhs 235) with [-55] in H. cbn [matches] in H.
    destruct H as (i1 & its1 & -> & H1 & ->).
    apply (holds_nt N_Unions) in H1; [|reflexivity|reflexivity]; subst i1.
    change (235 =? 1) with false. cbv iota.
    split; [reflexivity|]. exists N_ElementSetSpec. split; [reflexivity|].
    change (rule 235) with rule_235. refine (cast _ _ _ _ _ (G_235 _) _). unfold act_235. val.
  Qed.

  (* asn1.y:928 *)
  Lemma sound_236 : Sound 236 (act_236).
  Proof.
    intros d its H. change (rhs 236) with [55; -60] in H. cbn [matches] in H.
    destruct H as (i1 & its1 & -> & H1 & i2 & its2 & -> & H2 & ->).
    apply holds_tk in H1 as (t1 & -> & K1 & V1); [|reflexivity]. apply (holds_nt N_Exclusions) in H2; [|reflexivity|reflexivity]; subst i2.
    change (236 =? 1) with false. cbv iota.
    split; [reflexivity|]. exists N_ElementSetSpec. split; [reflexivity|].
    change (rule 236) with rule_236. refine (cast _ _ _ _ _ (G_236 t1 _ K1) _). unfold act_236. val.
  Qed.

  (* asn1.y:931 *)
  Lemma sound_237 : Sound 237 (act_237).
  Proof.
    intros d its H. change (rhs 237) with [-57] in H. cbn [matches] in H.
    destruct H as (i1 & its1 & -> & H1 & ->).
    apply (holds_nt N_Intersections) in H1; [|reflexivity|reflexivity]; subst i1.
    change (237 =? 1) with false. cbv iota.
    split; [reflexivity|]. exists N_Unions. split; [reflexivity|].
    change (rule 237) with rule_237. refine (cast _ _ _ _ _ (G_237 _) _). unfold act_237. val.
  Qed.

  (* asn1.y:932 *)
  Lemma sound_238 : Sound 238 (act_238).
  Proof.
    intros d its H. change (rhs 238) with [-56; -131; -57] in H. cbn [matches] in H.
    destruct H as (i1 & its1 & -> & H1 & i2 & its2 & -> & H2 & i3 & its3 & -> & H3 & ->).
    apply (holds_nt N_UElems) in H1; [|reflexivity|reflexivity]; subst i1. apply (holds_nt N_UnionMark) in H2; [|reflexivity|reflexivity]; subst i2. apply (holds_nt N_Intersections) in H3; [|reflexivity|reflexivity]; subst i3.
    change (238 =? 1) with false. cbv iota.
    split; [reflexivity|]. exists N_Unions. split; [reflexivity|].
    change (rule 238) with rule_238. refine (cast _ _ _ _ _ (G_238 _ _) _). unfold act_238. val.
  Qed.

  (* asn1.y:935 *)
  Lemma sound_239 : Sound 239 act_default.
  Proof.
    intros d its H. change (rhs 239) with [-55] in H. cbn [matches] in H.
    destruct H as (i1 & its1 & -> & H1 & ->).
    apply (holds_nt N_Unions) in H1; [|reflexivity|reflexivity]; subst i1.
    change (239 =? 1) with false. cbv iota.
    split; [reflexivity|]. exists N_UElems. split; [reflexivity|].
    change (rule 239) with rule_239. refine (cast _ _ _ _ _ (G_239 _) _). unfold act_default. val.
  Qed.

  (* asn1.y:938 *)
  Lemma sound_240 : Sound 240 (act_240).
  Proof.
    intros d its H. change (rhs 240) with [-59] in H. cbn [matches] in H.
    destruct H as (i1 & its1 & -> & H1 & ->).
    apply (holds_nt N_IntersectionElements) in H1; [|reflexivity|reflexivity]; subst i1.
    change (240 =? 1) with false. cbv iota.
    split; [reflexivity|]. exists N_Intersections. split; [reflexivity|].
    change (rule 240) with rule_240. refine (cast _ _ _ _ _ (G_240 _) _). unfold act_240. val.
  Qed.

  (* asn1.y:939 *)
  Lemma sound_241 : Sound 241 (act_241).
  Proof.
    intros d its H. change (rhs 241) with [-58; -132; -59] in H. cbn [matches] in H.
    destruct H as (i1 & its1 & -> & H1 & i2 & its2 & -> & H2 & i3 & its3 & -> & H3 & ->).
    apply (holds_nt N_IElems) in H1; [|reflexivity|reflexivity]; subst i1. apply (holds_nt N_IntersectionMark) in H2; [|reflexivity|reflexivity]; subst i2. apply (holds_nt N_IntersectionElements) in H3; [|reflexivity|reflexivity]; subst i3.
    change (241 =? 1) with false. cbv iota.
    split; [reflexivity|]. exists N_Intersections. split; [reflexivity|].
    change (rule 241) with rule_241. refine (cast _ _ _ _ _ (G_241 _ _) _). unfold act_241. val.
  Qed.

  (* asn1.y:942 *)
  Lemma sound_242 : Sound 242 act_default.
  Proof.
    intros d its H. change (rhs 242) with [-57] in H. cbn [matches] in H.
    destruct H as (i1 & its1 & -> & H1 & ->).
    apply (holds_nt N_Intersections) in H1; [|reflexivity|reflexivity]; subst i1.
    change (242 =? 1) with false. cbv iota.
    split; [reflexivity|]. exists N_IElems. split; [reflexivity|].
    change (rule 242) with rule_242. refine (cast _ _ _ _ _ (G_242 _) _). unfold act_default. val.
  Qed.

  (* asn1.y:945 *)
  Lemma sound_243 : Sound 243 (act_243).
  Proof.
    intros d its H. change (rhs 243) with [-61] in H. cbn [matches] in H.
    destruct H as (i1 & its1 & -> & H1 & ->).
    apply (holds_nt N_Elements) in H1; [|reflexivity|reflexivity]; subst i1.
    change (243 =? 1) with false. cbv iota.
    split; [reflexivity|]. exists N_IntersectionElements. split; [reflexivity|].
    change (rule 243) with rule_243. refine (cast _ _ _ _ _ (G_243 _) _). unfold act_243. val.
  Qed.

  (* asn1.y:946 *)
  Lemma sound_244 : Sound 244 (act_244).
  Proof.
    intros d its H. change (rhs 244) with [-62; -60] in H. cbn [matches] in H.
    destruct H as (i1 & its1 & -> & H1 & i2 & its2 & -> & H2 & ->).
    apply (holds_nt N_Elems) in H1; [|reflexivity|reflexivity]; subst i1. apply (holds_nt N_Exclusions) in H2; [|reflexivity|reflexivity]; subst i2.
    change (244 =? 1) with false. cbv iota.
    split; [reflexivity|]. exists N_IntersectionElements. split; [reflexivity|].
    change (rule 244) with rule_244. refine (cast _ _ _ _ _ (G_244 _ _) _). unfold act_244. val.
  Qed.

  (* asn1.y:949 *)
  Lemma sound_245 : Sound 245 act_default.
  Proof.
    intros d its H. change (rhs 245) with [-61] in H. cbn [matches] in H.
    destruct H as (i1 & its1 & -> & H1 & ->).
    apply (holds_nt N_Elements) in H1; [|reflexivity|reflexivity]; subst i1.
    change (245 =? 1) with false. cbv iota.
    split; [reflexivity|]. exists N_Elems. split; [reflexivity|].
    change (rule 245) with rule_245. refine (cast _ _ _ _ _ (G_245 _) _). unfold act_default. val.
  Qed.

  (* asn1.y:952 *)
  Lemma sound_246 : Sound 246 (act_246).
  Proof.
    intros d its H. change (rhs 246) with [60; -61] in H. cbn [matches] in H.
    destruct H as (i1 & its1 & -> & H1 & i2 & its2 & -> & H2 & ->).
    apply holds_tk in H1 as (t1 & -> & K1 & V1); [|reflexivity]. apply (holds_nt N_Elements) in H2; [|reflexivity|reflexivity]; subst i2.
    change (246 =? 1) with false. cbv iota.
    split; [reflexivity|]. exists N_Exclusions. split; [reflexivity|].
    change (rule 246) with rule_246. refine (cast _ _ _ _ _ (G_246 t1 _ K1) _). unfold act_246. val.
  Qed.

  (* asn1.y:955 *)
  Lemma sound_247 : Sound 247 act_default.
  Proof.
    intros d its H. change (rhs 247) with [44] in H. cbn [matches] in H.
    destruct H as (i1 & its1 & -> & H1 & ->).
    apply holds_tk in H1 as (t1 & -> & K1 & V1); [|reflexivity].
    change (247 =? 1) with false. cbv iota.
    split; [reflexivity|]. exists N_UnionMark. split; [reflexivity|].
    change (rule 247) with rule_247. refine (cast _ _ _ _ _ (G_247 t1 K1) _). unfold act_default. val.
  Qed.

  (* asn1.y:955 *)
  Lemma sound_248 : Sound 248 act_default.
  Proof.
    intros d its H. change (rhs 248) with [94] in H. cbn [matches] in H.
    destruct H as (i1 & its1 & -> & H1 & ->).
    apply holds_tk in H1 as (t1 & -> & K1 & V1); [|reflexivity].
    change (248 =? 1) with false. cbv iota.
    split; [reflexivity|]. exists N_UnionMark. split; [reflexivity|].
    change (rule 248) with rule_248. refine (cast _ _ _ _ _ (G_248 t1 K1) _). unfold act_default. val.
  Qed.

  (* asn1.y:958 *)
  Lemma sound_249 : Sound 249 act_default.
  Proof.
    intros d its H. change (rhs 249) with [46] in H. cbn [matches] in H.
    destruct H as (i1 & its1 & -> & H1 & ->).
    apply holds_tk in H1 as (t1 & -> & K1 & V1); [|reflexivity].
    change (249 =? 1) with false. cbv iota.
    split; [reflexivity|]. exists N_IntersectionMark. split; [reflexivity|].
    change (rule 249) with rule_249. refine (cast _ _ _ _ _ (G_249 t1 K1) _). unfold act_default. val.
  Qed.

  (* asn1.y:958 *)
  Lemma sound_250 : Sound 250 act_default.
  Proof.
    intros d its H. change (rhs 250) with [53] in H. cbn [matches] in H.
    destruct H as (i1 & its1 & -> & H1 & ->).
    apply holds_tk in H1 as (t1 & -> & K1 & V1); [|reflexivity].
    change (250 =? 1) with false. cbv iota.
    split; [reflexivity|]. exists N_IntersectionMark. split; [reflexivity|].
    change (rule 250) with rule_250. refine (cast _ _ _ _ _ (G_250 t1 K1) _). unfold act_default. val.
  Qed.

  (* asn1.y:961 *)
  Lemma sound_251 : Sound 251 (act_251).
  Proof.
    intros d its H. change (rhs 251) with [-65] in H. cbn [matches] in H.
    destruct H as (i1 & its1 & -> & H1 & ->).
    apply (holds_nt N_SubtypeElements) in H1; [|reflexivity|reflexivity]; subst i1.
    change (251 =? 1) with false. cbv iota.
    split; [reflexivity|]. exists N_Elements. split; [reflexivity|].
    change (rule 251) with rule_251. refine (cast _ _ _ _ _ (G_251 _) _). unfold act_251. val.
  Qed.

  (* asn1.y:963 *)
  Lemma sound_252 : Sound 252 (act_252).
  Proof.
    intros d its H. change (rhs 252) with [32; -54; 33] in H. cbn [matches] in H.
    destruct H as (i1 & its1 & -> & H1 & i2 & its2 & -> & H2 & i3 & its3 & -> & H3 & ->).
    apply holds_tk in H1 as (t1 & -> & K1 & V1); [|reflexivity]. apply (holds_nt N_ElementSetSpec) in H2; [|reflexivity|reflexivity]; subst i2. apply holds_tk in H3 as (t3 & -> & K3 & V3); [|reflexivity].
    change (252 =? 1) with false. cbv iota.
    split; [reflexivity|]. exists N_Elements. split; [reflexivity|].
    change (rule 252) with rule_252. refine (cast _ _ _ _ _ (G_252 t1 _ t3 K1 K3) _). unfold act_252. val.
  Qed.

  (* asn1.y:966 *)
  Lemma sound_253 : Sound 253 act_default.
  Proof.
    intros d its H. change (rhs 253) with [-63] in H. cbn [matches] in H.
    destruct H as (i1 & its1 & -> & H1 & ->).
    apply (holds_nt N_SingleValue) in H1; [|reflexivity|reflexivity]; subst i1.
    change (253 =? 1) with false. cbv iota.
    split; [reflexivity|]. exists N_SubtypeElements. split; [reflexivity|].
    change (rule 253) with rule_253. refine (cast _ _ _ _ _ (G_253 _) _). unfold act_default. val.
  Qed.

  (* asn1.y:968 *)
  Lemma sound_254 : Sound 254 act_default.
  Proof.
    intros d its H. change (rhs 254) with [-64] in H. cbn [matches] in H.
    destruct H as (i1 & its1 & -> & H1 & ->).
    apply (holds_nt N_ValueRange) in H1; [|reflexivity|reflexivity]; subst i1.
    change (254 =? 1) with false. cbv iota.
    split; [reflexivity|]. exists N_SubtypeElements. split; [reflexivity|].
    change (rule 254) with rule_254. refine (cast _ _ _ _ _ (G_254 _) _). unfold act_default. val.
  Qed.

  (* asn1.y:970 *)
  Lemma sound_255 : Sound 255 act_default.
  Proof.
    intros d its H. change (rhs 255) with [-68] in H. cbn [matches] in H.
    destruct H as (i1 & its1 & -> & H1 & ->).
    apply (holds_nt N_SizeConstraint) in H1; [|reflexivity|reflexivity]; subst i1.
    change (255 =? 1) with false. cbv iota.
    split; [reflexivity|]. exists N_SubtypeElements. split; [reflexivity|].
    change (rule 255) with rule_255. refine (cast _ _ _ _ _ (G_255 _) _). unfold act_default. val.
  Qed.

  (* asn1.y:971 *)
  Lemma sound_256 : Sound 256 act_default.
  Proof.
    intros d its H. change (rhs 256) with [-66] in H. cbn [matches] in H.
    destruct H as (i1 & its1 & -> & H1 & ->).
    apply (holds_nt N_TypeConstraint) in H1; [|reflexivity|reflexivity]; subst i1.
    change (256 =? 1) with false. cbv iota.
    split; [reflexivity|]. exists N_SubtypeElements. split; [reflexivity|].
    change (rule 256) with rule_256. refine (cast _ _ _ _ _ (G_256 _) _). unfold act_default. val.
  Qed.

  (* asn1.y:972 *)
  Lemma sound_257 : Sound 257 act_default.
  Proof.
    intros d its H. change (rhs 257) with [-67] in H. cbn [matches] in H.
    destruct H as (i1 & its1 & -> & H1 & ->).
    apply (holds_nt N_InnerTypeConstraints) in H1; [|reflexivity|reflexivity]; subst i1.
    change (257 =? 1) with false. cbv iota.
    split; [reflexivity|]. exists N_SubtypeElements. split; [reflexivity|].
    change (rule 257) with rule_257. refine (cast _ _ _ _ _ (G_257 _) _). unfold act_default. val.
  Qed.

  (* asn1.y:978 *)
  Lemma sound_258 : Sound 258 (act_258).
  Proof.
    intros d its H. change (rhs 258) with [-31] in H. cbn [matches] in H.
    destruct H as (i1 & its1 & -> & H1 & ->).
    apply (holds_nt N_Value) in H1; [|reflexivity|reflexivity]; subst i1.
    change (258 =? 1) with false. cbv iota.
    split; [reflexivity|]. exists N_SingleValue. split; [reflexivity|].
    change (rule 258) with rule_258. refine (cast _ _ _ _ _ (G_258 _) _). unfold act_258. val.
  Qed.

  (* asn1.y:983 *)
  Lemma sound_259 : Sound 259 (act_259).
  Proof.
    intros d its H. change (rhs 259) with [-69; 16; -70] in H. cbn [matches] in H.
    destruct H as (i1 & its1 & -> & H1 & i2 & its2 & -> & H2 & i3 & its3 & -> & H3 & ->).
    apply (holds_nt N_LowerEndpoint) in H1; [|reflexivity|reflexivity]; subst i1. apply holds_tk in H2 as (t2 & -> & K2 & V2); [|reflexivity]. apply (holds_nt N_UpperEndpoint) in H3; [|reflexivity|reflexivity]; subst i3.
    change (259 =? 1) with false. cbv iota.
    split; [reflexivity|]. exists N_ValueRange. split; [reflexivity|].
    change (rule 259) with rule_259. refine (cast _ _ _ _ _ (G_259 _ t2 _ K2) _). unfold act_259. val.
  Qed.

  (* asn1.y:986 *)
  Lemma sound_260 : Sound 260 (act_260).
  Proof.
    intros d its H. change (rhs 260) with [-71] in H. cbn [matches] in H.
    destruct H as (i1 & its1 & -> & H1 & ->).
    apply (holds_nt N_LowerEndValue) in H1; [|reflexivity|reflexivity]; subst i1.
    change (260 =? 1) with false. cbv iota.
    split; [reflexivity|]. exists N_LowerEndpoint. split; [reflexivity|].
    change (rule 260) with rule_260. refine (cast _ _ _ _ _ (G_260 _) _). unfold act_260. val.
  Qed.

  (* asn1.y:987 *)
  Lemma sound_261 : Sound 261 (act_261).
  Proof.
    intros d its H. change (rhs 261) with [-71; 28] in H. cbn [matches] in H.
    destruct H as (i1 & its1 & -> & H1 & i2 & its2 & -> & H2 & ->).
    apply (holds_nt N_LowerEndValue) in H1; [|reflexivity|reflexivity]; subst i1. apply holds_tk in H2 as (t2 & -> & K2 & V2); [|reflexivity].
    change (261 =? 1) with false. cbv iota.
    split; [reflexivity|]. exists N_LowerEndpoint. split; [reflexivity|].
    change (rule 261) with rule_261. refine (cast _ _ _ _ _ (G_261 _ t2 K2) _). unfold act_261. val.
  Qed.

  (* asn1.y:990 *)
  Lemma sound_262 : Sound 262 (act_262).
  Proof.
    intros d its H. change (rhs 262) with [-72] in H. cbn [matches] in H.
    destruct H as (i1 & its1 & -> & H1 & ->).
    apply (holds_nt N_UpperEndValue) in H1; [|reflexivity|reflexivity]; subst i1.
    change (262 =? 1) with false. cbv iota.
    split; [reflexivity|]. exists N_UpperEndpoint. split; [reflexivity|].
    change (rule 262) with rule_262. refine (cast _ _ _ _ _ (G_262 _) _). unfold act_262. val.
  Qed.

  (* asn1.y:991 *)
  Lemma sound_263 : Sound 263 (act_263).
  Proof.
    intros d its H. change (rhs 263) with [28; -72] in H. cbn [matches] in H.
    destruct H as (i1 & its1 & -> & H1 & i2 & its2 & -> & H2 & ->).
    apply holds_tk in H1 as (t1 & -> & K1 & V1); [|reflexivity]. apply (holds_nt N_UpperEndValue) in H2; [|reflexivity|reflexivity]; subst i2.
    change (263 =? 1) with false. cbv iota.
    split; [reflexivity|]. exists N_UpperEndpoint. split; [reflexivity|].
    change (rule 263) with rule_263. refine (cast _ _ _ _ _ (G_263 t1 _ K1) _). unfold act_263. val.
  Qed.

  (* asn1.y:994 *)
  Lemma sound_264 : Sound 264 act_default.
  Proof.
    intros d its H. change (rhs 264) with [-31] in H. cbn [matches] in H.
    destruct H as (i1 & its1 & -> & H1 & ->).
    apply (holds_nt N_Value) in H1; [|reflexivity|reflexivity]; subst i1.
    change (264 =? 1) with false. cbv iota.
    split; [reflexivity|]. exists N_LowerEndValue. split; [reflexivity|].
    change (rule 264) with rule_264. refine (cast _ _ _ _ _ (G_264 _) _). unfold act_default. val.
  Qed.

  (* asn1.y:995 *)
  Lemma sound_265 : Sound 265 (act_265).
  Proof.
    intros d its H. change (rhs 265) with [65] in H. cbn [matches] in H.
    destruct H as (i1 & its1 & -> & H1 & ->).
    apply holds_tk in H1 as (t1 & -> & K1 & V1); [|reflexivity].
    change (265 =? 1) with false. cbv iota.
    split; [reflexivity|]. exists N_LowerEndValue. split; [reflexivity|].
    change (rule 265) with rule_265. refine (cast _ _ _ _ _ (G_265 t1 K1) _). unfold act_265. val.
  Qed.

  (* asn1.y:998 *)
  Lemma sound_266 : Sound 266 act_default.
  Proof.
    intros d its H. change (rhs 266) with [-31] in H. cbn [matches] in H.
    destruct H as (i1 & its1 & -> & H1 & ->).
    apply (holds_nt N_Value) in H1; [|reflexivity|reflexivity]; subst i1.
    change (266 =? 1) with false. cbv iota.
    split; [reflexivity|]. exists N_UpperEndValue. split; [reflexivity|].
    change (rule 266) with rule_266. refine (cast _ _ _ _ _ (G_266 _) _). unfold act_default. val.
  Qed.

  (* asn1.y:999 *)
  Lemma sound_267 : Sound 267 (act_267).
  Proof.
    intros d its H. change (rhs 267) with [61] in H. cbn [matches] in H.
    destruct H as (i1 & its1 & -> & H1 & ->).
    apply holds_tk in H1 as (t1 & -> & K1 & V1); [|reflexivity].
    change (267 =? 1) with false. cbv iota.
    split; [reflexivity|]. exists N_UpperEndValue. split; [reflexivity|].
    change (rule 267) with rule_267. refine (cast _ _ _ _ _ (G_267 t1 K1) _). unfold act_267. val.
  Qed.

  (* asn1.y:1004 *)
  Lemma sound_268 : Sound 268 (act_268).
  Proof.
    intros d its H. change (rhs 268) with [62; -48] in H. cbn [matches] in H.
    destruct H as (i1 & its1 & -> & H1 & i2 & its2 & -> & H2 & ->).
    apply holds_tk in H1 as (t1 & -> & K1 & V1); [|reflexivity]. apply (holds_nt N_Constraint) in H2; [|reflexivity|reflexivity]; subst i2.
    change (268 =? 1) with false. cbv iota.
    split; [reflexivity|]. exists N_SizeConstraint. split; [reflexivity|].
    change (rule 268) with rule_268. refine (cast _ _ _ _ _ (G_268 t1 _ K1) _). unfold act_268. val.
  Qed.

  (* asn1.y:1009 *)
  Lemma sound_269 : Sound 269 (act_269).
  Proof.
    intros d its H. change (rhs 269) with [-20] in H. cbn [matches] in H.
    destruct H as (i1 & its1 & -> & H1 & ->).
    apply (holds_nt N_Type) in H1; [|reflexivity|reflexivity]; subst i1.
    change (269 =? 1) with false. cbv iota.
    split; [reflexivity|]. exists N_TypeConstraint. split; [reflexivity|].
    change (rule 269) with rule_269. refine (cast _ _ _ _ _ (G_269 _) _). unfold act_269. val.
  Qed.

  (* asn1.y:1014 *)
  Lemma sound_270 : Sound 270 (act_270).
  Proof.
    intros d its H. change (rhs 270) with [126; 99; -133] in H. cbn [matches] in H.
    destruct H as (i1 & its1 & -> & H1 & i2 & its2 & -> & H2 & i3 & its3 & -> & H3 & ->).
    apply holds_tk in H1 as (t1 & -> & K1 & V1); [|reflexivity]. apply holds_tk in H2 as (t2 & -> & K2 & V2); [|reflexivity]. apply (holds_nt N_SingleTypeConstraint) in H3; [|reflexivity|reflexivity]; subst i3.
    change (270 =? 1) with false. cbv iota.
    split; [reflexivity|]. exists N_InnerTypeConstraints. split; [reflexivity|].
    change (rule 270) with rule_270. refine (cast _ _ _ _ _ (G_270 t1 t2 K1 K2) _). unfold act_270. val.
  Qed.

  (* asn1.y:1015 *)
  Lemma sound_271 : Sound 271 (act_271).
  Proof.
    intros d its H. change (rhs 271) with [126; 103; -134] in H. cbn [matches] in H.
    destruct H as (i1 & its1 & -> & H1 & i2 & its2 & -> & H2 & i3 & its3 & -> & H3 & ->).
    apply holds_tk in H1 as (t1 & -> & K1 & V1); [|reflexivity]. apply holds_tk in H2 as (t2 & -> & K2 & V2); [|reflexivity]. apply (holds_nt N_MultipleTypeConstraints) in H3; [|reflexivity|reflexivity]; subst i3.
    change (271 =? 1) with false. cbv iota.
    split; [reflexivity|]. exists N_InnerTypeConstraints. split; [reflexivity|].
    change (rule 271) with rule_271. refine (cast _ _ _ _ _ (G_271 t1 t2 K1 K2) _). unfold act_271. val.
  Qed.

  (* asn1.y:1018 *)
  Lemma sound_272 : Sound 272 act_default.
  Proof.
    intros d its H. change (rhs 272) with [-48] in H. cbn [matches] in H.
    destruct H as (i1 & its1 & -> & H1 & ->).
    apply (holds_nt N_Constraint) in H1; [|reflexivity|reflexivity]; subst i1.
    change (272 =? 1) with false. cbv iota.
    split; [reflexivity|]. exists N_SingleTypeConstraint. split; [reflexivity|].
    change (rule 272) with rule_272. refine (cast _ _ _ _ _ (G_272 _) _). unfold act_default. val.
  Qed.

  (* asn1.y:1021 *)
  Lemma sound_273 : Sound 273 act_default.
  Proof.
    intros d its H. change (rhs 273) with [-135] in H. cbn [matches] in H.
    destruct H as (i1 & its1 & -> & H1 & ->).
    apply (holds_nt N_FullSpecification) in H1; [|reflexivity|reflexivity]; subst i1.
    change (273 =? 1) with false. cbv iota.
    split; [reflexivity|]. exists N_MultipleTypeConstraints. split; [reflexivity|].
    change (rule 273) with rule_273. refine (cast _ _ _ _ _ (G_273 ) _). unfold act_default. val.
  Qed.

  (* asn1.y:1022 *)
  Lemma sound_274 : Sound 274 act_default.
  Proof.
    intros d its H. change (rhs 274) with [-136] in H. cbn [matches] in H.
    destruct H as (i1 & its1 & -> & H1 & ->).
    apply (holds_nt N_PartialSpecification) in H1; [|reflexivity|reflexivity]; subst i1.
    change (274 =? 1) with false. cbv iota.
    split; [reflexivity|]. exists N_MultipleTypeConstraints. split; [reflexivity|].
    change (rule 274) with rule_274. refine (cast _ _ _ _ _ (G_274 ) _). unfold act_default. val.
  Qed.

  (* asn1.y:1025 *)
  Lemma sound_275 : Sound 275 act_default.
  Proof.
    intros d its H. change (rhs 275) with [26; -137; 27] in H. cbn [matches] in H.
    destruct H as (i1 & its1 & -> & H1 & i2 & its2 & -> & H2 & i3 & its3 & -> & H3 & ->).
    apply holds_tk in H1 as (t1 & -> & K1 & V1); [|reflexivity]. apply (holds_nt N_TypeConstraints) in H2; [|reflexivity|reflexivity]; subst i2. apply holds_tk in H3 as (t3 & -> & K3 & V3); [|reflexivity].
    change (275 =? 1) with false. cbv iota.
    split; [reflexivity|]. exists N_FullSpecification. split; [reflexivity|].
    change (rule 275) with rule_275. refine (cast _ _ _ _ _ (G_275 t1 t3 K1 K3) _). unfold act_default. val.
  Qed.

  (* asn1.y:1028 *)
  Lemma sound_276 : Sound 276 act_default.
  Proof.
    intros d its H. change (rhs 276) with [26; 17; 30; -137; 27] in H. cbn [matches] in H.
    destruct H as (i1 & its1 & -> & H1 & i2 & its2 & -> & H2 & i3 & its3 & -> & H3 & i4 & its4 & -> & H4 & i5 & its5 & -> & H5 & ->).
    apply holds_tk in H1 as (t1 & -> & K1 & V1); [|reflexivity]. apply holds_tk in H2 as (t2 & -> & K2 & V2); [|reflexivity]. apply holds_tk in H3 as (t3 & -> & K3 & V3); [|reflexivity]. apply (holds_nt N_TypeConstraints) in H4; [|reflexivity|reflexivity]; subst i4. apply holds_tk in H5 as (t5 & -> & K5 & V5); [|reflexivity].
    change (276 =? 1) with false. cbv iota.
    split; [reflexivity|]. exists N_PartialSpecification. split; [reflexivity|].
    change (rule 276) with rule_276. refine (cast _ _ _ _ _ (G_276 t1 t2 t3 t5 K1 K2 K3 K5) _). unfold act_default. val.
  Qed.

  (* asn1.y:1031 *)
  Lemma sound_277 : Sound 277 act_default.
  Proof.
    intros d its H. change (rhs 277) with [-138] in H. cbn [matches] in H.
    destruct H as (i1 & its1 & -> & H1 & ->).
    apply (holds_nt N_NamedConstraint) in H1; [|reflexivity|reflexivity]; subst i1.
    change (277 =? 1) with false. cbv iota.
    split; [reflexivity|]. exists N_TypeConstraints. split; [reflexivity|].
    change (rule 277) with rule_277. refine (cast _ _ _ _ _ (G_277 ) _). unfold act_default. val.
  Qed.

  (* asn1.y:1032 *)
  Lemma sound_278 : Sound 278 act_default.
  Proof.
    intros d its H. change (rhs 278) with [-138; 30; -137] in H. cbn [matches] in H.
    destruct H as (i1 & its1 & -> & H1 & i2 & its2 & -> & H2 & i3 & its3 & -> & H3 & ->).
    apply (holds_nt N_NamedConstraint) in H1; [|reflexivity|reflexivity]; subst i1. apply holds_tk in H2 as (t2 & -> & K2 & V2); [|reflexivity]. apply (holds_nt N_TypeConstraints) in H3; [|reflexivity|reflexivity]; subst i3.
    change (278 =? 1) with false. cbv iota.
    split; [reflexivity|]. exists N_TypeConstraints. split; [reflexivity|].
    change (rule 278) with rule_278. refine (cast _ _ _ _ _ (G_278 t2 K2) _). unfold act_default. val.
  Qed.

  (* asn1.y:1034 *)
  Lemma sound_279 : Sound 279 act_default.
  Proof.
    intros d its H. change (rhs 279) with [-5; -139] in H. cbn [matches] in H.
    destruct H as (i1 & its1 & -> & H1 & i2 & its2 & -> & H2 & ->).
    apply (holds_nt N_identifier) in H1; [|reflexivity|reflexivity]; subst i1. apply (holds_nt N_ComponentConstraint) in H2; [|reflexivity|reflexivity]; subst i2.
    change (279 =? 1) with false. cbv iota.
    split; [reflexivity|]. exists N_NamedConstraint. split; [reflexivity|].
    change (rule 279) with rule_279. refine (cast _ _ _ _ _ (G_279 _) _). unfold act_default. val.
  Qed.

  (* asn1.y:1037 *)
  Lemma sound_280 : Sound 280 act_default.
  Proof.
    intros d its H. change (rhs 280) with [-140; -141] in H. cbn [matches] in H.
    destruct H as (i1 & its1 & -> & H1 & i2 & its2 & -> & H2 & ->).
    apply (holds_nt N_ValueConstraint) in H1; [|reflexivity|reflexivity]; subst i1. apply (holds_nt N_PresenceConstraint) in H2; [|reflexivity|reflexivity]; subst i2.
    change (280 =? 1) with false. cbv iota.
    split; [reflexivity|]. exists N_ComponentConstraint. split; [reflexivity|].
    change (rule 280) with rule_280. refine (cast _ _ _ _ _ (G_280 ) _). unfold act_default. val.
  Qed.

  (* asn1.y:1040 *)
  Lemma sound_281 : Sound 281 act_default.
  Proof.
    intros d its H. change (rhs 281) with [-48] in H. cbn [matches] in H.
    destruct H as (i1 & its1 & -> & H1 & ->).
    apply (holds_nt N_Constraint) in H1; [|reflexivity|reflexivity]; subst i1.
    change (281 =? 1) with false. cbv iota.
    split; [reflexivity|]. exists N_ValueConstraint. split; [reflexivity|].
    change (rule 281) with rule_281. refine (cast _ _ _ _ _ (G_281 _) _). unfold act_default. val.
  Qed.

  (* asn1.y:1041 *)
  Lemma sound_282 : Sound 282 act_default.
  Proof.
    intros d its H. change (rhs 282) with (@nil Z) in H. cbn [matches] in H.
    subst its.
    
    change (282 =? 1) with false. cbv iota.
    split; [reflexivity|]. exists N_ValueConstraint. split; [reflexivity|].
    change (rule 282) with rule_282. refine (cast _ _ _ _ _ (G_282 ) _). unfold act_default. val.
  Qed.

  (* asn1.y:1043 *)
  Lemma sound_283 : Sound 283 act_default.
  Proof.
    intros d its H. change (rhs 283) with [113] in H. cbn [matches] in H.
    destruct H as (i1 & its1 & -> & H1 & ->).
    apply holds_tk in H1 as (t1 & -> & K1 & V1); [|reflexivity].
    change (283 =? 1) with false. cbv iota.
    split; [reflexivity|]. exists N_PresenceConstraint. split; [reflexivity|].
    change (rule 283) with rule_283. refine (cast _ _ _ _ _ (G_283 t1 K1) _). unfold act_default. val.
  Qed.

  (* asn1.y:1043 *)
  Lemma sound_284 : Sound 284 act_default.
  Proof.
    intros d its H. change (rhs 284) with [47] in H. cbn [matches] in H.
    destruct H as (i1 & its1 & -> & H1 & ->).
    apply holds_tk in H1 as (t1 & -> & K1 & V1); [|reflexivity].
    change (284 =? 1) with false. cbv iota.
    split; [reflexivity|]. exists N_PresenceConstraint. split; [reflexivity|].
    change (rule 284) with rule_284. refine (cast _ _ _ _ _ (G_284 t1 K1) _). unfold act_default. val.
  Qed.

  (* asn1.y:1043 *)
  Lemma sound_285 : Sound 285 act_default.
  Proof.
    intros d its H. change (rhs 285) with [97] in H. cbn [matches] in H.
    destruct H as (i1 & its1 & -> & H1 & ->).
    apply holds_tk in H1 as (t1 & -> & K1 & V1); [|reflexivity].
    change (285 =? 1) with false. cbv iota.
    split; [reflexivity|]. exists N_PresenceConstraint. split; [reflexivity|].
    change (rule 285) with rule_285. refine (cast _ _ _ _ _ (G_285 t1 K1) _). unfold act_default. val.
  Qed.

  (* asn1.y:1044 *)
  Lemma sound_286 : Sound 286 act_default.
  Proof.
    intros d its H. change (rhs 286) with (@nil Z) in H. cbn [matches] in H.
    subst its.
    
    change (286 =? 1) with false. cbv iota.
    split; [reflexivity|]. exists N_PresenceConstraint. split; [reflexivity|].
    change (rule 286) with rule_286. refine (cast _ _ _ _ _ (G_286 ) _). unfold act_default. val.
  Qed.

  (* asn1.y:1048 *)
  Lemma sound_287 : Sound 287 act_default.
  Proof.
    intros d its H. change (rhs 287) with [45; -142] in H. cbn [matches] in H.
    destruct H as (i1 & its1 & -> & H1 & i2 & its2 & -> & H2 & ->).
    apply holds_tk in H1 as (t1 & -> & K1 & V1); [|reflexivity]. apply (holds_nt N_ExceptionIdentification) in H2; [|reflexivity|reflexivity]; subst i2.
    change (287 =? 1) with false. cbv iota.
    split; [reflexivity|]. exists N_ExceptionSpec. split; [reflexivity|].
    change (rule 287) with rule_287. refine (cast _ _ _ _ _ (G_287 t1 K1) _). unfold act_default. val.
  Qed.

  (* asn1.y:1050 *)
  Lemma sound_288 : Sound 288 act_default.
  Proof.
    intros d its H. change (rhs 288) with (@nil Z) in H. cbn [matches] in H.
    subst its.
    
    change (288 =? 1) with false. cbv iota.
    split; [reflexivity|]. exists N_ExceptionSpec. split; [reflexivity|].
    change (rule 288) with rule_288. refine (cast _ _ _ _ _ (G_288 ) _). unfold act_default. val.
  Qed.

  (* asn1.y:1052 *)
  Lemma sound_289 : Sound 289 act_default.
  Proof.
    intros d its H. change (rhs 289) with [-38] in H. cbn [matches] in H.
    destruct H as (i1 & its1 & -> & H1 & ->).
    apply (holds_nt N_SignedNumber) in H1; [|reflexivity|reflexivity]; subst i1.
    change (289 =? 1) with false. cbv iota.
    split; [reflexivity|]. exists N_ExceptionIdentification. split; [reflexivity|].
    change (rule 289) with rule_289. refine (cast _ _ _ _ _ (G_289 _) _). unfold act_default. val.
  Qed.

  (* asn1.y:1053 *)
  Lemma sound_290 : Sound 290 act_default.
  Proof.
    intros d its H. change (rhs 290) with [-15] in H. cbn [matches] in H.
    destruct H as (i1 & its1 & -> & H1 & ->).
    apply (holds_nt N_DefinedValue) in H1; [|reflexivity|reflexivity]; subst i1.
    change (290 =? 1) with false. cbv iota.
    split; [reflexivity|]. exists N_ExceptionIdentification. split; [reflexivity|].
    change (rule 290) with rule_290. refine (cast _ _ _ _ _ (G_290 _) _). unfold act_default. val.
  Qed.

  (* asn1.y:1054 *)
  Lemma sound_291 : Sound 291 act_default.
  Proof.
    intros d its H. change (rhs 291) with [-20; 37; -31] in H. cbn [matches] in H.
    destruct H as (i1 & its1 & -> & H1 & i2 & its2 & -> & H2 & i3 & its3 & -> & H3 & ->).
    apply (holds_nt N_Type) in H1; [|reflexivity|reflexivity]; subst i1. apply holds_tk in H2 as (t2 & -> & K2 & V2); [|reflexivity]. apply (holds_nt N_Value) in H3; [|reflexivity|reflexivity]; subst i3.
    change (291 =? 1) with false. cbv iota.
    split; [reflexivity|]. exists N_ExceptionIdentification. split; [reflexivity|].
    change (rule 291) with rule_291. refine (cast _ _ _ _ _ (G_291 _ t2 _ K2) _). unfold act_default. val.
  Qed.

  Lemma all_sound n act : 0 < n < 292 ->
    nth_error (actions mkP mkR mkF) (Z.to_nat n) = Some act -> Sound n act.
  Proof.
    intros Hn Ha.
    assert (Q : Forall (fun p => Sound (fst p) (snd p))
      (combine (map Z.of_nat (seq 1 291)) (tl (actions mkP mkR mkF)))).
    { cbn [seq map combine tl actions].
      exact (
        Forall_cons (1, (act_1)) sound_1 (
        Forall_cons (2, (act_2)) sound_2 (
        Forall_cons (3, act_default) sound_3 (
        Forall_cons (4, (act_4)) sound_4 (
        Forall_cons (5, act_default) sound_5 (
        Forall_cons (6, act_default) sound_6 (
        Forall_cons (7, (act_7)) sound_7 (
        Forall_cons (8, (act_8)) sound_8 (
        Forall_cons (9, (act_9)) sound_9 (
        Forall_cons (10, (act_10)) sound_10 (
        Forall_cons (11, (act_11)) sound_11 (
        Forall_cons (12, (act_12)) sound_12 (
        Forall_cons (13, (act_13)) sound_13 (
        Forall_cons (14, (act_14)) sound_14 (
        Forall_cons (15, (act_15)) sound_15 (
        Forall_cons (16, (act_16)) sound_16 (
        Forall_cons (17, (act_17)) sound_17 (
        Forall_cons (18, (act_18)) sound_18 (
        Forall_cons (19, (act_19)) sound_19 (
        Forall_cons (20, (act_20)) sound_20 (
        Forall_cons (21, (act_21)) sound_21 (
        Forall_cons (22, (act_22)) sound_22 (
        Forall_cons (23, (act_23)) sound_23 (
        Forall_cons (24, (act_24)) sound_24 (
        Forall_cons (25, act_default) sound_25 (
        Forall_cons (26, act_default) sound_26 (
        Forall_cons (27, act_default) sound_27 (
        Forall_cons (28, act_default) sound_28 (
        Forall_cons (29, act_default) sound_29 (
        Forall_cons (30, (act_30)) sound_30 (
        Forall_cons (31, (act_31)) sound_31 (
        Forall_cons (32, (act_32)) sound_32 (
        Forall_cons (33, (act_33)) sound_33 (
        Forall_cons (34, (act_34)) sound_34 (
        Forall_cons (35, (act_35)) sound_35 (
        Forall_cons (36, (act_36)) sound_36 (
        Forall_cons (37, (act_37)) sound_37 (
        Forall_cons (38, (act_38)) sound_38 (
        Forall_cons (39, (act_39)) sound_39 (
        Forall_cons (40, (act_40)) sound_40 (
        Forall_cons (41, (act_41)) sound_41 (
        Forall_cons (42, (act_42)) sound_42 (
        Forall_cons (43, act_default) sound_43 (
        Forall_cons (44, (act_44)) sound_44 (
        Forall_cons (45, (act_45)) sound_45 (
        Forall_cons (46, (act_46)) sound_46 (
        Forall_cons (47, (act_47)) sound_47 (
        Forall_cons (48, (act_48)) sound_48 (
        Forall_cons (49, act_default) sound_49 (
        Forall_cons (50, act_default) sound_50 (
        Forall_cons (51, (act_51)) sound_51 (
        Forall_cons (52, (act_52)) sound_52 (
        Forall_cons (53, (act_53)) sound_53 (
        Forall_cons (54, (act_54)) sound_54 (
        Forall_cons (55, (act_55)) sound_55 (
        Forall_cons (56, act_default) sound_56 (
        Forall_cons (57, act_default) sound_57 (
        Forall_cons (58, act_default) sound_58 (
        Forall_cons (59, act_default) sound_59 (
        Forall_cons (60, act_default) sound_60 (
        Forall_cons (61, act_default) sound_61 (
        Forall_cons (62, act_default) sound_62 (
        Forall_cons (63, act_default) sound_63 (
        Forall_cons (64, act_default) sound_64 (
        Forall_cons (65, act_default) sound_65 (
        Forall_cons (66, act_default) sound_66 (
        Forall_cons (67, act_default) sound_67 (
        Forall_cons (68, act_default) sound_68 (
        Forall_cons (69, act_default) sound_69 (
        Forall_cons (70, act_default) sound_70 (
        Forall_cons (71, act_default) sound_71 (
        Forall_cons (72, act_default) sound_72 (
        Forall_cons (73, act_default) sound_73 (
        Forall_cons (74, act_default) sound_74 (
        Forall_cons (75, act_default) sound_75 (
        Forall_cons (76, act_default) sound_76 (
        Forall_cons (77, (act_77)) sound_77 (
        Forall_cons (78, act_default) sound_78 (
        Forall_cons (79, act_default) sound_79 (
        Forall_cons (80, act_default) sound_80 (
        Forall_cons (81, (act_81)) sound_81 (
        Forall_cons (82, act_default) sound_82 (
        Forall_cons (83, (act_83)) sound_83 (
        Forall_cons (84, (act_84)) sound_84 (
        Forall_cons (85, (act_85)) sound_85 (
        Forall_cons (86, (act_86)) sound_86 (
        Forall_cons (87, (act_87)) sound_87 (
        Forall_cons (88, (act_88)) sound_88 (
        Forall_cons (89, (act_89)) sound_89 (
        Forall_cons (90, (act_90)) sound_90 (
        Forall_cons (91, (act_91)) sound_91 (
        Forall_cons (92, (act_92)) sound_92 (
        Forall_cons (93, (act_93)) sound_93 (
        Forall_cons (94, (act_94)) sound_94 (
        Forall_cons (95, (act_95)) sound_95 (
        Forall_cons (96, (act_96)) sound_96 (
        Forall_cons (97, (act_97)) sound_97 (
        Forall_cons (98, (act_98)) sound_98 (
        Forall_cons (99, (act_99)) sound_99 (
        Forall_cons (100, act_default) sound_100 (
        Forall_cons (101, act_default) sound_101 (
        Forall_cons (102, (act_102)) sound_102 (
        Forall_cons (103, (act_103)) sound_103 (
        Forall_cons (104, (act_104)) sound_104 (
        Forall_cons (105, (act_105)) sound_105 (
        Forall_cons (106, (act_106)) sound_106 (
        Forall_cons (107, act_default) sound_107 (
        Forall_cons (108, act_default) sound_108 (
        Forall_cons (109, (act_109)) sound_109 (
        Forall_cons (110, (act_110)) sound_110 (
        Forall_cons (111, (act_111)) sound_111 (
        Forall_cons (112, (act_112)) sound_112 (
        Forall_cons (113, (act_113)) sound_113 (
        Forall_cons (114, (act_114)) sound_114 (
        Forall_cons (115, (act_115)) sound_115 (
        Forall_cons (116, (act_116)) sound_116 (
        Forall_cons (117, act_default) sound_117 (
        Forall_cons (118, (act_118)) sound_118 (
        Forall_cons (119, (act_119)) sound_119 (
        Forall_cons (120, (act_120)) sound_120 (
        Forall_cons (121, (act_121)) sound_121 (
        Forall_cons (122, (act_122)) sound_122 (
        Forall_cons (123, (act_123)) sound_123 (
        Forall_cons (124, (act_124)) sound_124 (
        Forall_cons (125, (act_125)) sound_125 (
        Forall_cons (126, (act_126)) sound_126 (
        Forall_cons (127, (act_127)) sound_127 (
        Forall_cons (128, (act_128)) sound_128 (
        Forall_cons (129, (act_129)) sound_129 (
        Forall_cons (130, act_default) sound_130 (
        Forall_cons (131, act_default) sound_131 (
        Forall_cons (132, act_default) sound_132 (
        Forall_cons (133, act_default) sound_133 (
        Forall_cons (134, (act_134)) sound_134 (
        Forall_cons (135, (act_135)) sound_135 (
        Forall_cons (136, (act_136)) sound_136 (
        Forall_cons (137, act_default) sound_137 (
        Forall_cons (138, act_default) sound_138 (
        Forall_cons (139, (act_139)) sound_139 (
        Forall_cons (140, (act_140)) sound_140 (
        Forall_cons (141, (act_141)) sound_141 (
        Forall_cons (142, (act_142)) sound_142 (
        Forall_cons (143, (act_143)) sound_143 (
        Forall_cons (144, (act_144)) sound_144 (
        Forall_cons (145, act_default) sound_145 (
        Forall_cons (146, act_default) sound_146 (
        Forall_cons (147, act_default) sound_147 (
        Forall_cons (148, (act_148)) sound_148 (
        Forall_cons (149, (act_149)) sound_149 (
        Forall_cons (150, (act_150)) sound_150 (
        Forall_cons (151, (act_151)) sound_151 (
        Forall_cons (152, (act_152 mkP)) sound_152 (
        Forall_cons (153, (act_153)) sound_153 (
        Forall_cons (154, (act_154)) sound_154 (
        Forall_cons (155, (act_155)) sound_155 (
        Forall_cons (156, (act_156)) sound_156 (
        Forall_cons (157, (act_157)) sound_157 (
        Forall_cons (158, (act_158)) sound_158 (
        Forall_cons (159, (act_159)) sound_159 (
        Forall_cons (160, (act_160)) sound_160 (
        Forall_cons (161, (act_161)) sound_161 (
        Forall_cons (162, (act_162)) sound_162 (
        Forall_cons (163, (act_163)) sound_163 (
        Forall_cons (164, (act_164)) sound_164 (
        Forall_cons (165, act_default) sound_165 (
        Forall_cons (166, (act_166)) sound_166 (
        Forall_cons (167, (act_167)) sound_167 (
        Forall_cons (168, (act_168)) sound_168 (
        Forall_cons (169, (act_169)) sound_169 (
        Forall_cons (170, (act_170)) sound_170 (
        Forall_cons (171, act_default) sound_171 (
        Forall_cons (172, (act_172)) sound_172 (
        Forall_cons (173, (act_173)) sound_173 (
        Forall_cons (174, (act_174)) sound_174 (
        Forall_cons (175, (act_175)) sound_175 (
        Forall_cons (176, (act_176)) sound_176 (
        Forall_cons (177, (act_177)) sound_177 (
        Forall_cons (178, (act_178)) sound_178 (
        Forall_cons (179, (act_179)) sound_179 (
        Forall_cons (180, (act_180)) sound_180 (
        Forall_cons (181, (act_181)) sound_181 (
        Forall_cons (182, (act_182)) sound_182 (
        Forall_cons (183, (act_183)) sound_183 (
        Forall_cons (184, (act_184)) sound_184 (
        Forall_cons (185, (act_185)) sound_185 (
        Forall_cons (186, (act_186)) sound_186 (
        Forall_cons (187, (act_187)) sound_187 (
        Forall_cons (188, (act_188 mkR)) sound_188 (
        Forall_cons (189, (act_189)) sound_189 (
        Forall_cons (190, (act_190)) sound_190 (
        Forall_cons (191, (act_191)) sound_191 (
        Forall_cons (192, act_default) sound_192 (
        Forall_cons (193, act_default) sound_193 (
        Forall_cons (194, (act_194 mkF)) sound_194 (
        Forall_cons (195, (act_195)) sound_195 (
        Forall_cons (196, (act_196 mkF)) sound_196 (
        Forall_cons (197, (act_197)) sound_197 (
        Forall_cons (198, act_default) sound_198 (
        Forall_cons (199, act_default) sound_199 (
        Forall_cons (200, act_default) sound_200 (
        Forall_cons (201, (act_201)) sound_201 (
        Forall_cons (202, (act_202)) sound_202 (
        Forall_cons (203, (act_203)) sound_203 (
        Forall_cons (204, (act_204)) sound_204 (
        Forall_cons (205, (act_205)) sound_205 (
        Forall_cons (206, (act_206)) sound_206 (
        Forall_cons (207, (act_207)) sound_207 (
        Forall_cons (208, (act_208)) sound_208 (
        Forall_cons (209, (act_209)) sound_209 (
        Forall_cons (210, (act_210)) sound_210 (
        Forall_cons (211, (act_211)) sound_211 (
        Forall_cons (212, (act_212)) sound_212 (
        Forall_cons (213, (act_213)) sound_213 (
        Forall_cons (214, (act_214)) sound_214 (
        Forall_cons (215, (act_215)) sound_215 (
        Forall_cons (216, (act_216)) sound_216 (
        Forall_cons (217, (act_217)) sound_217 (
        Forall_cons (218, act_default) sound_218 (
        Forall_cons (219, (act_219)) sound_219 (
        Forall_cons (220, (act_220)) sound_220 (
        Forall_cons (221, (act_221)) sound_221 (
        Forall_cons (222, (act_222)) sound_222 (
        Forall_cons (223, (act_223)) sound_223 (
        Forall_cons (224, (act_224)) sound_224 (
        Forall_cons (225, (act_225)) sound_225 (
        Forall_cons (226, (act_226)) sound_226 (
        Forall_cons (227, (act_227)) sound_227 (
        Forall_cons (228, (act_228)) sound_228 (
        Forall_cons (229, act_default) sound_229 (
        Forall_cons (230, act_default) sound_230 (
        Forall_cons (231, (act_231)) sound_231 (
        Forall_cons (232, (act_232)) sound_232 (
        Forall_cons (233, (act_233)) sound_233 (
        Forall_cons (234, act_default) sound_234 (
        Forall_cons (235, (act_235)) sound_235 (
        Forall_cons (236, (act_236)) sound_236 (
        Forall_cons (237, (act_237)) sound_237 (
        Forall_cons (238, (act_238)) sound_238 (
        Forall_cons (239, act_default) sound_239 (
        Forall_cons (240, (act_240)) sound_240 (
        Forall_cons (241, (act_241)) sound_241 (
        Forall_cons (242, act_default) sound_242 (
        Forall_cons (243, (act_243)) sound_243 (
        Forall_cons (244, (act_244)) sound_244 (
        Forall_cons (245, act_default) sound_245 (
        Forall_cons (246, (act_246)) sound_246 (
        Forall_cons (247, act_default) sound_247 (
        Forall_cons (248, act_default) sound_248 (
        Forall_cons (249, act_default) sound_249 (
        Forall_cons (250, act_default) sound_250 (
        Forall_cons (251, (act_251)) sound_251 (
        Forall_cons (252, (act_252)) sound_252 (
        Forall_cons (253, act_default) sound_253 (
        Forall_cons (254, act_default) sound_254 (
        Forall_cons (255, act_default) sound_255 (
        Forall_cons (256, act_default) sound_256 (
        Forall_cons (257, act_default) sound_257 (
        Forall_cons (258, (act_258)) sound_258 (
        Forall_cons (259, (act_259)) sound_259 (
        Forall_cons (260, (act_260)) sound_260 (
        Forall_cons (261, (act_261)) sound_261 (
        Forall_cons (262, (act_262)) sound_262 (
        Forall_cons (263, (act_263)) sound_263 (
        Forall_cons (264, act_default) sound_264 (
        Forall_cons (265, (act_265)) sound_265 (
        Forall_cons (266, act_default) sound_266 (
        Forall_cons (267, (act_267)) sound_267 (
        Forall_cons (268, (act_268)) sound_268 (
        Forall_cons (269, (act_269)) sound_269 (
        Forall_cons (270, (act_270)) sound_270 (
        Forall_cons (271, (act_271)) sound_271 (
        Forall_cons (272, act_default) sound_272 (
        Forall_cons (273, act_default) sound_273 (
        Forall_cons (274, act_default) sound_274 (
        Forall_cons (275, act_default) sound_275 (
        Forall_cons (276, act_default) sound_276 (
        Forall_cons (277, act_default) sound_277 (
        Forall_cons (278, act_default) sound_278 (
        Forall_cons (279, act_default) sound_279 (
        Forall_cons (280, act_default) sound_280 (
        Forall_cons (281, act_default) sound_281 (
        Forall_cons (282, act_default) sound_282 (
        Forall_cons (283, act_default) sound_283 (
        Forall_cons (284, act_default) sound_284 (
        Forall_cons (285, act_default) sound_285 (
        Forall_cons (286, act_default) sound_286 (
        Forall_cons (287, act_default) sound_287 (
        Forall_cons (288, act_default) sound_288 (
        Forall_cons (289, act_default) sound_289 (
        Forall_cons (290, act_default) sound_290 (
        Forall_cons (291, act_default) sound_291 (
        Forall_nil _)))))))))))))))))))))))))))))))))))))))))))))))))))))))))))))))))))))))))))))))))))))))))))))))))))))))))))))))))))))))))))))))))))))))))))))))))))))))))))))))))))))))))))))))))))))))))))))))))))))))))))))))))))))))))))))))))))))))))))))))))))))))))))))))))))))))))))))))))))))))))))))))))))). }
    rewrite Forall_forall in Q. apply (Q (n, act)).
    replace n with (Z.of_nat (Z.to_nat n)) by lia. revert Ha.
    assert (Hk : (1 <= Z.to_nat n <= 291)%nat) by lia.
    generalize dependent (Z.to_nat n). intros k Hk Ha. destruct k as [|k]; [lia|].
    clear -Ha Hk.
    assert (E : nth_error (combine (map Z.of_nat (seq 1 291)) (tl (actions mkP mkR mkF))) k
                = Some (Z.of_nat (S k), act)).
    { change (nth_error (actions mkP mkR mkF) (S k)) with (nth_error (tl (actions mkP mkR mkF)) k) in Ha.
      assert (E1 : nth_error (map Z.of_nat (seq 1 291)) k = Some (Z.of_nat (S k))).
      { rewrite nth_error_map. rewrite nth_error_nth' with (d := 0%nat) by (rewrite seq_length; lia).
        rewrite seq_nth by lia. reflexivity. }
      revert E1 Ha. generalize (map Z.of_nat (seq 1 291)) as l1, (tl (actions mkP mkR mkF)) as l2.
      clear. generalize (Z.of_nat (S k)) as z. induction k; intros z [|a l1] [|b l2] H1 H2; cbn in *; try discriminate.
      - congruence.
      - now apply IHk. }
    now apply nth_error_In in E.
  Qed.
End Sound.
