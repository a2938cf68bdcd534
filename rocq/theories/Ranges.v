(** The value ranges of a text and of a tree: RangeEndpoint.IsUnspecified and the
    specification for C80. *)
From Coq Require Import ZArith String List Bool.
From Verif Require Import GoBase Tokens Ast Grammar.
Import ListNotations.
Local Open Scope list_scope.
Local Open Scope Z_scope.

(** * Model *)

(** ast.go:626-629 *)
Definition IsUnspecified {R} (e : RangeEndpoint R) : bool :=
  match re_Value e with VNil => true | _ => false end.

(** * Specification *)

(** What a caller can ask of a range besides its values: is the lower end MIN
    (IsUnspecified)?  Is it open ("<")?  The same of the upper end. *)
Record range : Type := Range { lower_min : bool; lower_open : bool; upper_open : bool; upper_max : bool }.

Lemma range_dec (a b : range) : {a = b} + {a <> b}.
Proof. decide equality; apply bool_dec. Defined.

(** ** Of a text *)

(** The kind of the first token; 0, which is no kind, if there is none. *)
Definition first_kind (l : list token) : Z := match l with t :: _ => tk_kind t | [] => 0 end.

(** One end of a range, given the tokens next to "..", the nearest first: a "<" next to
    it, and the word [k] (MIN or MAX) next to it or behind the "<". *)
Definition end_open (l : list token) : bool := first_kind l =? T_LESS.
Definition end_word (k : Z) (l : list token) : bool := first_kind (if end_open l then tl l else l) =? k.

(** The ranges of [ts], behind the tokens [before] (the last first). *)
Fixpoint ranges_behind (before ts : list token) : list range :=
  match ts with
  | [] => []
  | t :: after =>
      (if tk_kind t =? T_RANGE_SEPARATOR
       then [Range (end_word T_MIN before) (end_open before) (end_open after) (end_word T_MAX after)]
       else []) ++ ranges_behind (t :: before) after
  end.
Definition text_ranges (ts : list token) : list range := ranges_behind [] ts.

(** ** Of a tree *)
Section TreeRanges.
  Context {P R : Type}.

  Fixpoint type_ranges (t : atype P R) : list range :=
    match t with
    | TNamed n => named_ranges n
    | TChoice a e => flat_map named_ranges a ++ flat_map (fun o => match o with Some n => named_ranges n | None => [] end) e
    | TSequence c e | TSet c e => flat_map component_ranges c ++ flat_map component_ranges e
    | TTagged _ t _ _ => type_ranges t
    | TSequenceOf t | TSetOf t => type_ranges t
    | TConstrained t c => type_ranges t ++ constraint_ranges c
    | TNil | TReference _ | TNull | TObjectIdentifier | TInteger _ | TEnumerated _ | TReal | TBoolean | TRestrictedString _
    | TCharacterString | TOctetString | TAny _ | TBitString _ => []
    end
  with named_ranges (n : NamedType P R) : list range :=
    match n with Named _ t => type_ranges t end
  with component_ranges (c : component P R) : list range :=
    match c with
    | CNil => []
    | CNamed n _ _ => named_ranges n
    | CComponentsOf t => type_ranges t
    end
  with constraint_ranges (c : ConstraintSpec P R) : list range :=
    match c with
    | CSSubtype l => flat_map elements_ranges l
    | _ => []
    end
  with elements_ranges (e : Elements P R) : list range :=
    match e with
    | ENil | EInner | ESingleValue _ => []
    | EUnions l => flat_map (flat_map intersection_ranges) l
    | EExclusions e => elements_ranges e
    | EValueRange a b => [Range (IsUnspecified a) (re_IsOpen a) (re_IsOpen b) (IsUnspecified b)]
    | EType t => type_ranges t
    | ESize c => constraint_ranges c
    end
  with intersection_ranges (i : IntersectionElements P R) : list range :=
    match i with Intersect e x => elements_ranges e ++ elements_ranges x end.

  Definition assignment_ranges (a : assignment P R) : list range :=
    match a with ANil => [] | AType _ t | AValue _ t _ => type_ranges t end.

  (** The ranges of a module. *)
  Definition module_ranges (m : ModuleDefinition P R) : list range :=
    flat_map assignment_ranges (mb_AssignmentList (md_ModuleBody m)).
End TreeRanges.
