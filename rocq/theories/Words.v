(** The words of a text and the words of a tree: specification for C56 and C46.

    The words of a text are its names and those keywords that leave a trace in the
    tree (types, values, OPTIONAL, DEFAULT, SIZE, ...).  The words of a tree are the
    words one has to write to get the tree.  Keywords that leave none (BEGIN, END,
    TAGS, IMPORTS, MIN, DEFINED, ...), EXPLICIT (TAGS), symbols and numbers are not
    counted. *)
From Coq Require Import ZArith String List Bool.
From Verif Require Import GoBase Tokens Ast Grammar.
Import ListNotations.
Local Open Scope string_scope.
Local Open Scope list_scope.
Local Open Scope Z_scope.

(** Keywords that are counted. *)
Definition counted : list (Z * string) :=
  [(T_NULL, "NULL"); (T_OBJECT, "OBJECT"); (T_IDENTIFIER, "IDENTIFIER"); (T_INTEGER, "INTEGER");
   (T_ENUMERATED, "ENUMERATED"); (T_REAL, "REAL"); (T_BOOLEAN, "BOOLEAN"); (T_CHOICE, "CHOICE");
   (T_CHARACTER, "CHARACTER"); (T_STRING, "STRING"); (T_OCTET, "OCTET"); (T_BIT, "BIT");
   (T_SEQUENCE, "SEQUENCE"); (T_SET, "SET"); (T_OF, "OF"); (T_ANY, "ANY");
   (T_BMPString, "BMPString"); (T_GeneralString, "GeneralString"); (T_GraphicString, "GraphicString");
   (T_IA5String, "IA5String"); (T_ISO646String, "ISO646String"); (T_NumericString, "NumericString");
   (T_PrintableString, "PrintableString"); (T_TeletexString, "TeletexString"); (T_T61String, "T61String");
   (T_UniversalString, "UniversalString"); (T_UTF8String, "UTF8String");
   (T_VideotexString, "VideotexString"); (T_VisibleString, "VisibleString");
   (T_GeneralizedTime, "GeneralizedTime"); (T_UTCTime, "UTCTime");
   (T_UNIVERSAL, "UNIVERSAL"); (T_APPLICATION, "APPLICATION"); (T_PRIVATE, "PRIVATE");
   (T_IMPLICIT, "IMPLICIT"); (T_AUTOMATIC, "AUTOMATIC"); (T_EXTENSIBILITY, "EXTENSIBILITY");
   (T_OPTIONAL, "OPTIONAL"); (T_DEFAULT, "DEFAULT"); (T_COMPONENTS, "COMPONENTS");
   (T_TRUE, "TRUE"); (T_FALSE, "FALSE"); (T_SIZE, "SIZE"); (T_EXCEPT, "EXCEPT"); (T_FROM, "FROM")].

(** The word of a keyword token. *)
Definition keyword (k : Z) : list string :=
  match find (fun p => fst p =? k) counted with
  | Some (_, s) => [s]
  | None => []
  end.

(** The words of a token: a name, or a counted keyword. *)
Definition token_words (t : token) : list string :=
  if (tk_kind t =? T_VALUEIDENTIFIER) || (tk_kind t =? T_TYPEORMODULEREFERENCE) then [tk_name t]
  else keyword (tk_kind t).

(** The words of a token list. *)
Definition text_words (ts : list token) : list string := flat_map token_words ts.

(** Tokens of constructs that leave no trace in the tree: export lists, exceptions,
    WITH COMPONENT(S), extension groups. *)
Definition traceless (t : token) : bool :=
  existsb (Z.eqb (tk_kind t)) [T_EXPORTS; T_EXCLAMATION; T_WITH; T_LEFT_VERSION_BRACKETS].

(** How often a word occurs. *)
Definition occurrences (x : string) (l : list string) : nat := count_occ string_dec l x.

(** A word if a flag is set. *)
Definition if_word (b : bool) (s : string) : list string := if b then [s] else [].

(** What a tag type keyword leaves. *)
Definition tagging_words (n : Z) : list string :=
  if_word (n =? TAGS_IMPLICIT) "IMPLICIT" ++ if_word (n =? TAGS_AUTOMATIC) "AUTOMATIC".

Section TreeWords.
  (** The words behind the two kinds of pointers. *)
  Context {P R : Type} (p : P -> list string) (r : R -> list string).

  (** A pointer that may be nil. *)
  Definition opt_words {A} (f : A -> list string) (o : option A) : list string :=
    match o with Some a => f a | None => [] end.

  Definition defined_words (d : DefinedValue) : list string := [dv_ModuleName d; dv_ValueName d].
  Definition oe_words (e : ObjectIdElement R) : list string := oe_Name e :: opt_words r (oe_Reference e).
  Definition value_words (v : value R) : list string :=
    match v with
    | VNil | VNumber _ | VReal _ => []
    | VBoolean b => [if b then "TRUE" else "FALSE"]
    | VDefined d => defined_words d
    | VIdentifiedInteger s => [s]
    | VObjectIdentifier l => flat_map oe_words l
    end.
  Definition nn_words (n : NamedNumber) : list string :=
    nn_Name n :: match nn_Value n with NDefined d => defined_words d | _ => [] end.
  Definition ei_words (e : EnumerationItem) : list string :=
    match e with EINil => [] | EINumber n => nn_words n | EIIdentifier s => [s] end.
  Definition et_words (e : EnumeratedType) : list string :=
    flat_map ei_words (et_RootEnumeration e) ++ flat_map ei_words (et_AdditionalEnumeration e).
  Definition nb_words (b : NamedBit R) : list string := nb_Name b :: value_words (nb_Index b).
  Definition class_words (c : Z) : list string :=
    if_word (c =? CLASS_UNIVERSAL) "UNIVERSAL" ++ if_word (c =? CLASS_APPLICATION) "APPLICATION" ++
    if_word (c =? CLASS_PRIVATE) "PRIVATE".
  Definition tag_words (t : Tag R) : list string := class_words (tag_Class t) ++ value_words (tag_ClassNumber t).
  Definition re_words (e : RangeEndpoint R) : list string := value_words (re_Value e).

  (** An intersection element without exclusions has the zero value of
      Exclusions, whose Elements is the nil interface. *)
  Definition except_word (x : Elements P R) : list string :=
    match x with ENil => [] | _ => ["EXCEPT"] end.
  Fixpoint type_words (t : atype P R) : list string :=
    match t with
    | TNil => []
    | TReference s => [s]
    | TNamed n => named_words n
    | TNull => ["NULL"]
    | TObjectIdentifier => ["OBJECT"; "IDENTIFIER"]
    | TInteger l => "INTEGER" :: flat_map nn_words l
    | TEnumerated e => "ENUMERATED" :: et_words e
    | TReal => ["REAL"]
    | TBoolean => ["BOOLEAN"]
    | TChoice a e => "CHOICE" :: flat_map named_words a ++ flat_map (opt_words named_words) e
    | TRestrictedString k => keyword k
    | TCharacterString => ["CHARACTER"; "STRING"]
    | TOctetString => ["OCTET"; "STRING"]
    | TSequence c e => "SEQUENCE" :: flat_map component_words c ++ flat_map component_words e
    | TSet c e => "SET" :: flat_map component_words c ++ flat_map component_words e
    | TTagged g t z b => tag_words g ++ (if b then tagging_words z else []) ++ type_words t
    | TSequenceOf t => "SEQUENCE" :: "OF" :: type_words t
    | TSetOf t => "SET" :: "OF" :: type_words t
    | TAny s => ["ANY"; s]
    | TBitString l => "BIT" :: "STRING" :: flat_map nb_words l
    | TConstrained t c => type_words t ++ constraint_words c
    end
  with named_words (n : NamedType P R) : list string :=
    match n with Named s t => s :: type_words t end
  with component_words (c : component P R) : list string :=
    match c with
    | CNil => []
    | CNamed n o d => named_words n ++ if_word o "OPTIONAL" ++ match d with Some v => "DEFAULT" :: p v | None => [] end
    | CComponentsOf t => "COMPONENTS" :: "OF" :: type_words t
    end
  with constraint_words (c : ConstraintSpec P R) : list string :=
    match c with
    | CSSubtype l => flat_map elements_words l
    | _ => []
    end
  with elements_words (e : Elements P R) : list string :=
    match e with
    | ENil | EInner => []
    | EUnions l => flat_map (flat_map intersection_words) l
    | EExclusions e => "EXCEPT" :: elements_words e
    | ESingleValue v => value_words v
    | EValueRange a b => re_words a ++ re_words b
    | EType t => type_words t
    | ESize c => "SIZE" :: constraint_words c
    end
  with intersection_words (i : IntersectionElements P R) : list string :=
    match i with Intersect e x => elements_words e ++ except_word x ++ elements_words x end.

  Definition symbol_words (s : Symbol) : list string :=
    match s with SymNil => [] | SymType n | SymModule n | SymValue n => [n] end.
  Definition gmr_words (g : GlobalModuleReference R) : list string :=
    gmr_Reference g :: value_words (gmr_AssignedIdentifier g).
  Definition sfm_words (s : SymbolsFromModule R) : list string :=
    flat_map symbol_words (sfm_SymbolList s) ++ "FROM" :: gmr_words (sfm_Module s).
  Definition assignment_words (a : assignment P R) : list string :=
    match a with
    | ANil => []
    | AType n t => n :: type_words t
    | AValue n t v => n :: type_words t ++ value_words v
    end.
  Definition mi_words (i : ModuleIdentifier) : list string :=
    mi_Reference i :: map doc_Name (mi_DefinitiveIdentifier i).
  Definition mb_words (b : ModuleBody P R) : list string :=
    flat_map sfm_words (mb_Imports b) ++ flat_map assignment_words (mb_AssignmentList b).

  (** The words of a module. *)
  Definition module_words (m : ModuleDefinition P R) : list string :=
    mi_words (md_ModuleIdentifier m) ++ tagging_words (md_TagDefault m) ++
    if_word (md_ExtensibilityImplied m) "EXTENSIBILITY" ++ mb_words (md_ModuleBody m).
End TreeWords.

(** The words of a module as a caller sees it: with what the pointers point to. *)
Definition words (m : Module_) : list string := module_words (value_words defined_words) defined_words m.

(** ** Components: specification for C46 and C06 *)

(** A component: its name, whether it is OPTIONAL, whether it has a DEFAULT. *)
Definition component_entry : Type := string * bool * bool.

(** The name of the first token of a list of trees. *)
Definition first_name (l : list tree) : string :=
  match flat_map leaves l with t :: _ => tk_name t | [] => "" end.

(** What a node of a derivation tree says about a component: productions 150-152 are
    the three productions of ComponentType with a name, asn1.y:736-738. *)
Definition node_component (n : Z) (l : list tree) : list component_entry :=
  if n =? 150 then [(first_name l, false, false)]
  else if n =? 151 then [(first_name l, true, false)]
  else if n =? 152 then [(first_name l, false, true)]
  else [].

(** The components written in a text with the derivation tree [T]. *)
Fixpoint written_components (T : tree) : list component_entry :=
  match T with
  | Leaf _ => []
  | Node n l => node_component n l ++ flat_map written_components l
  end.

Section TreeComponents.
  Context {P R : Type}.

  (** The components of the SEQUENCE and SET types in a type, at every depth. *)
  Fixpoint type_components (t : atype P R) : list component_entry :=
    match t with
    | TNamed n => named_components n
    | TChoice a e => flat_map named_components a ++ flat_map (fun o => match o with Some n => named_components n | None => [] end) e
    | TSequence c e | TSet c e => flat_map components_of c ++ flat_map components_of e
    | TTagged _ t _ _ | TSequenceOf t | TSetOf t => type_components t
    | TConstrained t c => type_components t ++ constraint_components c
    | _ => []
    end
  with named_components (n : NamedType P R) : list component_entry :=
    match n with Named _ t => type_components t end
  with components_of (c : component P R) : list component_entry :=
    match c with
    | CNil => []
    | CNamed (Named s t) o d => (s, o, match d with Some _ => true | None => false end) :: type_components t
    | CComponentsOf t => type_components t
    end
  with constraint_components (c : ConstraintSpec P R) : list component_entry :=
    match c with
    | CSSubtype l => flat_map elements_components l
    | _ => []
    end
  with elements_components (e : Elements P R) : list component_entry :=
    match e with
    | EUnions l => flat_map (flat_map intersection_components) l
    | EExclusions e => elements_components e
    | EType t => type_components t
    | ESize c => constraint_components c
    | _ => []
    end
  with intersection_components (i : IntersectionElements P R) : list component_entry :=
    match i with Intersect e x => elements_components e ++ elements_components x end.

  Definition assignment_components (a : assignment P R) : list component_entry :=
    match a with
    | ANil => []
    | AType _ t | AValue _ t _ => type_components t
    end.

  (** The components of a module. *)
  Definition module_components (m : ModuleDefinition P R) : list component_entry :=
    flat_map assignment_components (mb_AssignmentList (md_ModuleBody m)).
End TreeComponents.

(** How often a component occurs. *)
Definition component_count (x : component_entry) (l : list component_entry) : nat :=
  count_occ (fun a b : component_entry => ltac:(repeat decide equality) : {a = b} + {a <> b}) l x.
