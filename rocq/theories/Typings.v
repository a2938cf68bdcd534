(** What has which type, in a text and in a tree: specification for C88. *)
From Coq Require Import ZArith String List Bool.
From Verif Require Import GoBase Tokens Ast Grammar Words WrittenTags.
Import ListNotations.
Local Open Scope string_scope.
Local Open Scope list_scope.
Local Open Scope Z_scope.

(** What a type is given for: an assigned type, an assigned value, a component or
    alternative, the elements of a SEQUENCE OF or SET OF, COMPONENTS OF, or a type in a
    constraint. *)
Inductive subject : Type :=
| TypeCalled (name : string)
| ValueCalled (name : string)
| FieldCalled (name : string)
| ElementsOf (is_set : bool)
| TheComponentsOf
| Constraining.

(** A subject and what its type starts with: a tag, a type name, or a word. *)
Definition typing : Type := (subject * bearer)%type.

Lemma typing_dec (a b : typing) : {a = b} + {a <> b}.
Proof. decide equality; [apply bearer_dec|repeat decide equality]. Defined.

(** ** In a text *)

(** The tokens of the last part of a phrase. *)
Definition last_part (l : list tree) : list token := match rev l with T :: _ => leaves T | [] => [] end.

(** The type given in a phrase.  Productions of asn1.y: 54 is TypeAssignment (489), 55
    ValueAssignment (492), 77 NamedType (539), 153 COMPONENTS OF (739); 157 and 158 are
    SET OF (751-752), 184 and 185 SEQUENCE OF (816-817), 219-226 those with a constraint
    (892-899), 158, 185 and 223-226 with a NamedType; 269 is TypeConstraint (1009). *)
Definition node_typing (n : Z) (l : list tree) : list typing :=
  let ts := flat_map leaves l in
  if n =? 54 then [(TypeCalled (first_name l), read_bearer (skipn 2 ts))]
  else if n =? 55 then [(ValueCalled (first_name l), read_bearer (skipn 1 ts))]
  else if n =? 77 then [(FieldCalled (first_name l), read_bearer (skipn 1 ts))]
  else if n =? 153 then [(TheComponentsOf, read_bearer (last_part l))]
  else if (n =? 157) || (n =? 219) || (n =? 220) then [(ElementsOf true, read_bearer (last_part l))]
  else if (n =? 184) || (n =? 221) || (n =? 222) then [(ElementsOf false, read_bearer (last_part l))]
  else if (n =? 158) || (n =? 223) || (n =? 224) then [(ElementsOf true, OnNothing)]
  else if (n =? 185) || (n =? 225) || (n =? 226) then [(ElementsOf false, OnNothing)]
  else if n =? 269 then [(Constraining, read_bearer ts)]
  else [].

(** The types given in a text with the derivation tree [T]. *)
Fixpoint written_typings (T : tree) : list typing :=
  match T with
  | Leaf _ => []
  | Node n l => node_typing n l ++ flat_map written_typings l
  end.

(** ** In a tree *)
Section TreeTypings.
  Context {P R : Type}.

  (** The elements of SEQUENCE OF NamedType are typed by their own name. *)
  Fixpoint type_typings (t : atype P R) : list typing :=
    match t with
    | TNamed n => named_typings n
    | TChoice a e => flat_map named_typings a ++ flat_map (fun o => match o with Some n => named_typings n | None => [] end) e
    | TSequence c e | TSet c e => flat_map component_typings c ++ flat_map component_typings e
    | TTagged _ t _ _ => type_typings t
    | TSequenceOf t => (ElementsOf false, type_bearer t) :: type_typings t
    | TSetOf t => (ElementsOf true, type_bearer t) :: type_typings t
    | TConstrained t c => type_typings t ++ constraint_typings c
    | TNil | TReference _ | TNull | TObjectIdentifier | TInteger _ | TEnumerated _ | TReal | TBoolean | TRestrictedString _
    | TCharacterString | TOctetString | TAny _ | TBitString _ => []
    end
  with named_typings (n : NamedType P R) : list typing :=
    match n with Named s t => (FieldCalled s, type_bearer t) :: type_typings t end
  with component_typings (c : component P R) : list typing :=
    match c with
    | CNil => []
    | CNamed n _ _ => named_typings n
    | CComponentsOf t => (TheComponentsOf, type_bearer t) :: type_typings t
    end
  with constraint_typings (c : ConstraintSpec P R) : list typing :=
    match c with
    | CSSubtype l => flat_map elements_typings l
    | _ => []
    end
  with elements_typings (e : Elements P R) : list typing :=
    match e with
    | ENil | EInner | ESingleValue _ | EValueRange _ _ => []
    | EUnions l => flat_map (flat_map intersection_typings) l
    | EExclusions e => elements_typings e
    | EType t => (Constraining, type_bearer t) :: type_typings t
    | ESize c => constraint_typings c
    end
  with intersection_typings (i : IntersectionElements P R) : list typing :=
    match i with Intersect e x => elements_typings e ++ elements_typings x end.

  Definition assignment_typings (a : assignment P R) : list typing :=
    match a with
    | ANil => []
    | AType s t => (TypeCalled s, type_bearer t) :: type_typings t
    | AValue s t _ => (ValueCalled s, type_bearer t) :: type_typings t
    end.

  (** The types given in a module. *)
  Definition module_typings (m : ModuleDefinition P R) : list typing :=
    flat_map assignment_typings (mb_AssignmentList (md_ModuleBody m)).
End TreeTypings.
