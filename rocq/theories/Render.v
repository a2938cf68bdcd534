(** A printer for modules: specification for the round-trip property (no Go
    counterpart; the package has no printer).  A module is printed as a list of words
    and symbols, separated by one space each.  [None]: the module is outside of what
    is printed, because no text means it (an empty import list, a tagging mode that
    does not exist) or because the parser reads no text as it (see [closed],
    [import_words] and [value_words]).

    The notation of each construct is that of X.680, not that of asn1.y. *)
From Coq Require Import ZArith String List Bool SpecFloat.
From Verif Require Import GoBase Unicode Tokens Reserved Ast LexWords.
Import ListNotations.
Local Open Scope string_scope.
Local Open Scope list_scope.
Local Open Scope Z_scope.

(** ** Words *)

Definition words : Type := option (list string).

(** One text after the other. *)
Definition app_words (a b : words) : words :=
  match a, b with Some x, Some y => Some (x ++ y) | _, _ => None end.
Infix "+++" := app_words (at level 61, right associativity).

Definition lit (l : list string) : words := Some l.

(** The texts [l], which are at least one, with [s] between them. *)
Fixpoint between (s : list string) (l : list words) : words :=
  match l with
  | [] => None
  | [x] => x
  | x :: l' => x +++ lit s +++ between s l'
  end.

Definition commas : list words -> words := between [","].

(** In brackets, if the list is not empty. *)
Definition listed {A} (open : list string) (f : list A -> words) (close : list string) (l : list A) : words :=
  match l with [] => lit [] | _ => lit open +++ f l +++ lit close end.

(** ** Names and numbers *)

(** An identifier of X.680 11.3: begins with a lower-case letter. *)
Definition is_ident (s : string) : bool :=
  word ascii_tables (bytes_of_string s) && ascii_lower (hd 0 (bytes_of_string s)).

(** A type or module reference of X.680 11.2 and 11.5: begins with an upper-case
    letter and is no reserved word. *)
Definition is_typeref (s : string) : bool :=
  word ascii_tables (bytes_of_string s) && ascii_upper (hd 0 (bytes_of_string s))
  && negb (existsb (String.eqb s) (map fst RESERVED_WORDS)).

Definition ident (s : string) : words := if is_ident s then lit [s] else None.
Definition typeref (s : string) : words := if is_typeref s then lit [s] else None.

(** A number that is not negative, in decimal. *)
Definition number (n : Z) : words :=
  if (0 <=? n) && (n <? 2 ^ 63) then lit [sprint_int n] else None.

Definition signed (n : Z) : words :=
  if n <? 0 then lit ["-"] +++ number (- n) else number n.

(** ** Values *)

(** A value reference, X.680 14.1. *)
Definition defined_words (d : DefinedValue) : words :=
  if String.eqb (dv_ModuleName d) "" then ident (dv_ValueName d)
  else typeref (dv_ModuleName d) +++ lit ["."] +++ ident (dv_ValueName d).

(** A component of an object identifier, X.680 32.3; a name alone is not printed,
    because the parser takes it for a value reference. *)
Definition oid_words (e : ObjectIdElement DefinedValue) : words :=
  match oe_Reference e with
  | None => (if String.eqb (oe_Name e) "" then number (oe_ID e)
             else ident (oe_Name e) +++ lit ["("] +++ number (oe_ID e) +++ lit [")"])
  | Some d =>
      if oe_ID e =? 0 then
        if String.eqb (oe_Name e) "" then defined_words d
        else ident (oe_Name e) +++ lit ["("] +++ defined_words d +++ lit [")"]
      else None
  end.

Definition oids_words (l : list (ObjectIdElement DefinedValue)) : words :=
  lit ["{"] +++ between [] (map oid_words l) +++ lit ["}"].

(** Values; finite reals are left out. *)
Definition value_words (v : Value) : words :=
  match v with
  | VNumber n => signed n
  | VBoolean b => lit [if b then "TRUE" else "FALSE"]
  | VIdentifiedInteger s => ident s
  | VObjectIdentifier l => oids_words l
  | VReal (S754_infinity s) => lit [if s then "MINUS-INFINITY" else "PLUS-INFINITY"]
  | _ => None
  end.

(** ** Types *)

Definition named_number_words (n : NamedNumber) : words :=
  ident (nn_Name n) +++ lit ["("]
  +++ match nn_Value n with
      | NNumber z => signed z
      | NDefined d => defined_words d
      | NNil => None
      end +++ lit [")"].

Definition enum_item_words (i : EnumerationItem) : words :=
  match i with
  | EINumber n => named_number_words n
  | EIIdentifier s => ident s
  | EINil => None
  end.

Definition named_bit_words (b : NamedBit DefinedValue) : words :=
  ident (nb_Name b) +++ lit ["("]
  +++ match nb_Index b with
      | VNumber z => number z
      | VDefined d => defined_words d
      | _ => None
      end +++ lit [")"].

(** X.680 31.2 *)
Definition tag_words (t : Tag DefinedValue) : words :=
  lit ["["]
  +++ (if tag_Class t =? CLASS_UNIVERSAL then lit ["UNIVERSAL"]
       else if tag_Class t =? CLASS_APPLICATION then lit ["APPLICATION"]
       else if tag_Class t =? CLASS_PRIVATE then lit ["PRIVATE"]
       else if tag_Class t =? CLASS_CONTEXT_SPECIFIC then lit []
       else None)
  +++ match tag_ClassNumber t with
      | VNumber z => number z
      | VDefined d => defined_words d
      | _ => None
      end +++ lit ["]"].

(** The tagging mode of a tag (TagType, HasTagType). *)
Definition tag_mode_words (mode : Z) (has : bool) : words :=
  if has then
    if mode =? TAGS_IMPLICIT then lit ["IMPLICIT"]
    else if mode =? TAGS_EXPLICIT then lit ["EXPLICIT"]
    else None
  else if mode =? 0 then lit [] else None.

(** X.680 41.1: names of restricted character string types. *)
Definition string_types : list (Z * string) :=
  [(T_BMPString, "BMPString"); (T_GeneralString, "GeneralString"); (T_GraphicString, "GraphicString");
   (T_IA5String, "IA5String"); (T_ISO646String, "ISO646String"); (T_NumericString, "NumericString");
   (T_PrintableString, "PrintableString"); (T_TeletexString, "TeletexString"); (T_T61String, "T61String");
   (T_UniversalString, "UniversalString"); (T_UTF8String, "UTF8String"); (T_VideotexString, "VideotexString");
   (T_VisibleString, "VisibleString")].

Definition string_type_words (k : Z) : words :=
  match find (fun p => fst p =? k) string_types with Some p => lit [snd p] | None => None end.

(** X.680 51.4: an end point of a range; [ext] is MIN or MAX. *)
Definition end_words (ext : string) (v : Value) : words :=
  match v with VNil => lit [ext] | _ => value_words v end.

Definition range_words (lo hi : RangeEndpoint DefinedValue) : words :=
  end_words "MIN" (re_Value lo) +++ lit (if re_IsOpen lo then ["<"] else [])
  +++ lit [".."]
  +++ lit (if re_IsOpen hi then ["<"] else []) +++ end_words "MAX" (re_Value hi).

(** Components and extensions of a SEQUENCE or SET, alternatives and extensions of a
    CHOICE. *)
Definition extensible (root exts : list words) : words :=
  match exts with
  | [] => commas root
  | _ => commas root +++ lit [","; "..."; ","] +++ commas exts
  end.

Definition components_words (comps exts : list words) : words :=
  match comps, exts with
  | [], [] => lit []
  | _, _ => extensible comps exts
  end.

Definition alternatives_words (alts exts : list words) : words :=
  match alts with
  | [] => lit ["..."; ","] +++ commas exts
  | _ => extensible alts exts
  end.

(** Unions of intersections, X.680 50.1. *)
Definition unions_words (l : list (list words)) : words := between ["|"] (map (between ["^"]) l).

(** Types after which an opening parenthesis belongs to the type itself and not to a
    type inside it. *)
Fixpoint closed {P R} (t : atype P R) : bool :=
  match t with
  | TSequenceOf _ | TSetOf _ | TTagged _ _ _ _ => false
  | TConstrained t' _ => closed t'
  | _ => true
  end.

(** [named]: a name before the type is allowed (after OF). *)
Fixpoint type_words (named : bool) (t : AType_) : words :=
  match t with
  | TReference s => if String.eqb s "GeneralizedTime" || String.eqb s "UTCTime" then lit [s] else typeref s
  | TNamed n => if named then named_words n else None
  | TNull => lit ["NULL"]
  | TObjectIdentifier => lit ["OBJECT"; "IDENTIFIER"]
  | TInteger l => lit ["INTEGER"] +++ listed ["{"] (fun l => commas (map named_number_words l)) ["}"] l
  | TEnumerated e =>
      match et_AdditionalEnumeration e with
      | [] => lit ["ENUMERATED"; "{"] +++ commas (map enum_item_words (et_RootEnumeration e)) +++ lit ["}"]
      | _ => None
      end
  | TReal => lit ["REAL"]
  | TBoolean => lit ["BOOLEAN"]
  | TChoice alts exts =>
      lit ["CHOICE"; "{"]
      +++ alternatives_words (map named_words alts)
            (map (fun o => match o with Some n => named_words n | None => None end) exts)
      +++ lit ["}"]
  | TRestrictedString k => string_type_words k
  | TCharacterString => lit ["CHARACTER"; "STRING"]
  | TOctetString => lit ["OCTET"; "STRING"]
  | TSequence comps exts =>
      lit ["SEQUENCE"; "{"] +++ components_words (map component_words comps) (map component_words exts) +++ lit ["}"]
  | TSet comps exts =>
      lit ["SET"; "{"] +++ components_words (map component_words comps) (map component_words exts) +++ lit ["}"]
  | TTagged tag t' mode has => tag_words tag +++ tag_mode_words mode has +++ type_words false t'
  | TSequenceOf t' => lit ["SEQUENCE"; "OF"] +++ type_words true t'
  | TSetOf t' => lit ["SET"; "OF"] +++ type_words true t'
  | TAny s => if String.eqb s "" then lit ["ANY"] else lit ["ANY"; "DEFINED"; "BY"] +++ ident s
  | TBitString l => lit ["BIT"; "STRING"] +++ listed ["{"] (fun l => commas (map named_bit_words l)) ["}"] l
  | TConstrained (TSequenceOf t') c => lit ["SEQUENCE"] +++ constraint_words c +++ lit ["OF"] +++ type_words true t'
  | TConstrained (TSetOf t') c => lit ["SET"] +++ constraint_words c +++ lit ["OF"] +++ type_words true t'
  | TConstrained t' c => if closed t' then type_words false t' +++ constraint_words c else None
  | TNil => None
  end
with named_words (n : NamedType Value DefinedValue) : words :=
  match n with Named s t => ident s +++ type_words false t end
with component_words (c : component Value DefinedValue) : words :=
  match c with
  | CNamed n true None => named_words n +++ lit ["OPTIONAL"]
  | CNamed n false None => named_words n
  | CNamed n false (Some v) => named_words n +++ lit ["DEFAULT"] +++ value_words v
  | CComponentsOf t => lit ["COMPONENTS"; "OF"] +++ type_words false t
  | CNamed _ true (Some _) | CNil => None
  end
with constraint_words (c : ConstraintSpec Value DefinedValue) : words :=
  match c with
  | CSSubtype [e] => lit ["("] +++ spec_words e +++ lit [")"]
  | CSSubtype [e; x] => lit ["("] +++ spec_words e +++ lit [","; "..."; ","] +++ spec_words x +++ lit [")"]
  | _ => None
  end
with spec_words (e : Elements Value DefinedValue) : words :=
  match e with
  | EUnions l => unions_words (map (map intersection_words) l)
  | EExclusions x => lit ["ALL"; "EXCEPT"] +++ element_words x
  | _ => None
  end
with element_words (e : Elements Value DefinedValue) : words :=
  match e with
  | EUnions l => lit ["("] +++ unions_words (map (map intersection_words) l) +++ lit [")"]
  | EExclusions x => lit ["("; "ALL"; "EXCEPT"] +++ element_words x +++ lit [")"]
  | ESingleValue v => value_words v
  | EValueRange lo hi => range_words lo hi
  | EType t => type_words false t
  | ESize c => lit ["SIZE"] +++ constraint_words c
  | ENil | EInner => None
  end
with intersection_words (i : IntersectionElements Value DefinedValue) : words :=
  match i with
  | Intersect e ENil => element_words e
  | Intersect e x => element_words e +++ lit ["EXCEPT"] +++ element_words x
  end.

(** ** Modules *)

Definition assignment_words (a : Assignment_) : words :=
  match a with
  | AType s t => typeref s +++ lit ["::="] +++ type_words false t
  | AValue s t v => ident s +++ type_words false t +++ lit ["::="] +++ value_words v
  | ANil => None
  end.

Definition symbol_words (s : Symbol) : words :=
  match s with
  | SymType n => typeref n
  | SymValue n => ident n
  | SymModule _ | SymNil => None
  end.

(** X.680 13.1; without an object identifier only the last module of an import list
    is printed: the parser would take the next symbol for the identifier of the
    module. *)
Definition import_words (last : bool) (s : SymbolsFromModule DefinedValue) : words :=
  commas (map symbol_words (sfm_SymbolList s)) +++ lit ["FROM"]
  +++ typeref (gmr_Reference (sfm_Module s))
  +++ match gmr_AssignedIdentifier (sfm_Module s) with
      | VNil => if last then lit [] else None
      | VObjectIdentifier l => oids_words l
      | VDefined d => defined_words d
      | _ => None
      end.

Fixpoint imports_words (l : list (SymbolsFromModule DefinedValue)) : words :=
  match l with
  | [] => None
  | [s] => import_words true s
  | s :: l' => import_words false s +++ imports_words l'
  end.

Definition definitive_words (c : DefinitiveObjIdComponent) : words :=
  if String.eqb (doc_Name c) "" then number (doc_Id c)
  else if doc_Id c =? 0 then ident (doc_Name c)
  else ident (doc_Name c) +++ lit ["("] +++ number (doc_Id c) +++ lit [")"].

Definition tag_default_words (z : Z) : words :=
  if z =? TAGS_EXPLICIT then lit ["EXPLICIT"; "TAGS"]
  else if z =? TAGS_IMPLICIT then lit ["IMPLICIT"; "TAGS"]
  else if z =? TAGS_AUTOMATIC then lit ["AUTOMATIC"; "TAGS"]
  else None.

(** A module without assignments is printed without imports. *)
Definition body_words (b : ModuleBody Value DefinedValue) : words :=
  match mb_AssignmentList b, mb_Imports b with
  | [], [] => lit []
  | l, i => listed ["IMPORTS"] imports_words [";"] i +++ between [] (map assignment_words l)
  end.

Definition module_words (m : Module_) : words :=
  typeref (mi_Reference (md_ModuleIdentifier m))
  +++ listed ["{"] (fun l => between [] (map definitive_words l)) ["}"] (mi_DefinitiveIdentifier (md_ModuleIdentifier m))
  +++ lit ["DEFINITIONS"]
  +++ tag_default_words (md_TagDefault m)
  +++ lit (if md_ExtensibilityImplied m then ["EXTENSIBILITY"; "IMPLIED"] else [])
  +++ lit ["::="; "BEGIN"]
  +++ body_words (md_ModuleBody m)
  +++ lit ["END"].

(** The text of a module. *)
Definition render (m : Module_) : option string :=
  option_map (String.concat " ") (module_words m).

(** No component of the module has a default value and no object identifier in it
    refers to a value: the places where the tree has pointers (ast.go:415, 717). *)
Definition no_pointers (m : Module_) : Prop :=
  exists m' : ModuleDefinition Empty_set Empty_set,
    m = md_map (fun e : Empty_set => match e with end) (fun e : Empty_set => match e with end) m'.
