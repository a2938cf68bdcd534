(** The tags of a text and of a tree: specification for C84. *)
From Coq Require Import ZArith String List Bool.
From Verif Require Import GoBase Tokens Ast Grammar.
Import ListNotations.
Local Open Scope string_scope.
Local Open Scope list_scope.
Local Open Scope Z_scope.

(** The number of a tag: digits, or the name of a value. *)
Inductive tag_number : Type :=
| ByNumber (n : Z)
| ByValue (d : DefinedValue)
| NoNumber.

(** A tag as it is written: its class, its number, and whether IMPLICIT or EXPLICIT
    (ast.go:31-35) stands behind it. *)
Record stamp : Type := Stamp { st_class : Z; st_number : tag_number; st_mode : option Z }.

(** What a tag is put on: another tag, a named type, or a type that starts with a word. *)
Inductive bearer : Type :=
| OnTag (s : stamp)
| OnName (name : string)
| OnWord (kind : Z)
| OnNothing.

Lemma stamp_dec (a b : stamp) : {a = b} + {a <> b}.
Proof. repeat decide equality. Defined.
Lemma bearer_dec (a b : bearer) : {a = b} + {a <> b}.
Proof. repeat decide equality. Defined.
Lemma tagging_dec (a b : stamp * bearer) : {a = b} + {a <> b}.
Proof. decide equality; [apply bearer_dec|apply stamp_dec]. Defined.

(** ** Of a text *)

(** X.680 30.1: the class words; without one the tag is context-specific. *)
Definition class_word (k : Z) : option Z :=
  if k =? T_UNIVERSAL then Some CLASS_UNIVERSAL
  else if k =? T_APPLICATION then Some CLASS_APPLICATION
  else if k =? T_PRIVATE then Some CLASS_PRIVATE
  else None.
Definition read_class (l : list token) : Z * list token :=
  match l with
  | t :: r => match class_word (tk_kind t) with Some c => (c, r) | None => (CLASS_CONTEXT_SPECIFIC, l) end
  | [] => (CLASS_CONTEXT_SPECIFIC, l)
  end.

(** A number, a value name, or Module.value, and what follows. *)
Definition read_number (l : list token) : tag_number * list token :=
  match l with
  | t :: r =>
      if tk_kind t =? T_NUMBER then (ByNumber (tk_number t), r)
      else if tk_kind t =? T_VALUEIDENTIFIER then (ByValue {| dv_ModuleName := ""; dv_ValueName := tk_name t |}, r)
      else match r with
           | _ :: v :: r' => (ByValue {| dv_ModuleName := tk_name t; dv_ValueName := tk_name v |}, r')
           | _ => (NoNumber, r)
           end
  | [] => (NoNumber, l)
  end.

(** IMPLICIT or EXPLICIT, if it is there, and what follows. *)
Definition read_mode (l : list token) : option Z * list token :=
  match l with
  | t :: r =>
      if tk_kind t =? T_IMPLICIT then (Some TAGS_IMPLICIT, r)
      else if tk_kind t =? T_EXPLICIT then (Some TAGS_EXPLICIT, r)
      else (None, l)
  | [] => (None, l)
  end.

(** The tag whose "[" the tokens [l] follow, and what follows the tag. *)
Definition read_stamp (l : list token) : stamp * list token :=
  let (c, l1) := read_class l in
  let (n, l2) := read_number l1 in
  let (m, l3) := read_mode (tl l2) in
  (Stamp c n m, l3).

(** What the tokens [l] start with.  GeneralizedTime and UTCTime are reserved words for
    named types (X.680 42.1, 43.1). *)
Definition read_bearer (l : list token) : bearer :=
  match l with
  | t :: r =>
      if tk_kind t =? T_OPEN_SQUARE then OnTag (fst (read_stamp r))
      else if tk_kind t =? T_TYPEORMODULEREFERENCE then OnName (tk_name t)
      else if tk_kind t =? T_GeneralizedTime then OnName "GeneralizedTime"
      else if tk_kind t =? T_UTCTime then OnName "UTCTime"
      else OnWord (tk_kind t)
  | [] => OnNothing
  end.

(** The tags of a text, each with what it is put on. *)
Fixpoint text_tags (ts : list token) : list (stamp * bearer) :=
  match ts with
  | [] => []
  | t :: after =>
      (if tk_kind t =? T_OPEN_SQUARE
       then [let (s, rest) := read_stamp after in (s, read_bearer rest)]
       else []) ++ text_tags after
  end.

(** ** Of a tree *)
Section TreeTags.
  Context {P R : Type}.

  Definition number_of (v : value R) : tag_number :=
    match v with VNumber n => ByNumber n | VDefined d => ByValue d | _ => NoNumber end.
  Definition stamp_of (g : Tag R) (z : Z) (has : bool) : stamp :=
    Stamp (tag_Class g) (number_of (tag_ClassNumber g)) (if has then Some z else None).

  (** What a type starts with.  Constraints are written behind the type, or inside
      SEQUENCE ... OF and SET ... OF. *)
  Fixpoint type_bearer (t : atype P R) : bearer :=
    match t with
    | TTagged g _ z has => OnTag (stamp_of g z has)
    | TReference s => OnName s
    | TConstrained t _ => type_bearer t
    | TNull => OnWord T_NULL
    | TObjectIdentifier => OnWord T_OBJECT
    | TInteger _ => OnWord T_INTEGER
    | TEnumerated _ => OnWord T_ENUMERATED
    | TReal => OnWord T_REAL
    | TBoolean => OnWord T_BOOLEAN
    | TChoice _ _ => OnWord T_CHOICE
    | TRestrictedString k => OnWord k
    | TCharacterString => OnWord T_CHARACTER
    | TOctetString => OnWord T_OCTET
    | TSequence _ _ | TSequenceOf _ => OnWord T_SEQUENCE
    | TSet _ _ | TSetOf _ => OnWord T_SET
    | TAny _ => OnWord T_ANY
    | TBitString _ => OnWord T_BIT
    | TNil | TNamed _ => OnNothing
    end.

  Fixpoint type_tags (t : atype P R) : list (stamp * bearer) :=
    match t with
    | TNamed n => named_tags n
    | TChoice a e => flat_map named_tags a ++ flat_map (fun o => match o with Some n => named_tags n | None => [] end) e
    | TSequence c e | TSet c e => flat_map component_tags c ++ flat_map component_tags e
    | TTagged g t z has => (stamp_of g z has, type_bearer t) :: type_tags t
    | TSequenceOf t | TSetOf t => type_tags t
    | TConstrained t c => type_tags t ++ constraint_tags c
    | TNil | TReference _ | TNull | TObjectIdentifier | TInteger _ | TEnumerated _ | TReal | TBoolean | TRestrictedString _
    | TCharacterString | TOctetString | TAny _ | TBitString _ => []
    end
  with named_tags (n : NamedType P R) : list (stamp * bearer) :=
    match n with Named _ t => type_tags t end
  with component_tags (c : component P R) : list (stamp * bearer) :=
    match c with
    | CNil => []
    | CNamed n _ _ => named_tags n
    | CComponentsOf t => type_tags t
    end
  with constraint_tags (c : ConstraintSpec P R) : list (stamp * bearer) :=
    match c with
    | CSSubtype l => flat_map elements_tags l
    | _ => []
    end
  with elements_tags (e : Elements P R) : list (stamp * bearer) :=
    match e with
    | ENil | EInner | ESingleValue _ | EValueRange _ _ => []
    | EUnions l => flat_map (flat_map intersection_tags) l
    | EExclusions e => elements_tags e
    | EType t => type_tags t
    | ESize c => constraint_tags c
    end
  with intersection_tags (i : IntersectionElements P R) : list (stamp * bearer) :=
    match i with Intersect e x => elements_tags e ++ elements_tags x end.

  Definition assignment_tags (a : assignment P R) : list (stamp * bearer) :=
    match a with ANil => [] | AType _ t | AValue _ t _ => type_tags t end.

  (** The tags of a module. *)
  Definition module_tags (m : ModuleDefinition P R) : list (stamp * bearer) :=
    flat_map assignment_tags (mb_AssignmentList (md_ModuleBody m)).
End TreeTags.
