(** Values as they are written, in a text and in a tree: specification for C89. *)
From Coq Require Import ZArith String List Bool SpecFloat.
From Verif Require Import GoBase Tokens Ast RealNum Grammar Words Typings.
Import ListNotations.
Local Open Scope string_scope.
Local Open Scope list_scope.
Local Open Scope Z_scope.

(** What is said of a value.  A component of an object identifier: its name, its number,
    and whether it refers to a value (whose name is the subject of C07). *)
Inductive said : Type :=
| SaidNothing
| SaidNumber (n : Z)
| SaidReal (f : spec_float)
| SaidBoolean (b : bool)
| SaidName (name : string)
| SaidObject (l : list (string * Z * bool)).

(** A value that is assigned, a single value in a constraint, the ends of a range. *)
Inductive use : Type :=
| Assigned (name : string) (v : said)
| Allowed (v : said)
| Between (low high : said).

Lemma use_dec (a b : use) : {a = b} + {a <> b}.
Proof. repeat decide equality. Defined.

(** ** In a text *)

(** A number, with a minus sign or without. *)
Definition read_signed (l : list token) : Z :=
  match l with
  | [t] => tk_number t
  | [_; t] => - tk_number t
  | _ => 0
  end.

(** i, i.f, i.fEx, iEx; [parseRealNumber] (parser.go:41) is the subject of C19. *)
Definition read_unsigned (l : list token) : said :=
  match l with
  | [i] => if tk_kind i =? T_NUMBER then SaidNumber (tk_number i) else SaidNothing
  | [i; p; f] => if tk_kind p =? T_DOT then SaidReal (parseRealNumber (tk_number i) (tk_number f) 0)
                 else SaidReal (parseRealNumber (tk_number i) 0 (read_signed [f]))
  | i :: p :: f :: x => if tk_kind p =? T_DOT then SaidReal (parseRealNumber (tk_number i) (tk_number f) (read_signed (tl x)))
                        else SaidReal (parseRealNumber (tk_number i) 0 (read_signed (f :: x)))
  | _ => SaidNothing
  end.
Definition negative (v : said) : said :=
  match v with
  | SaidNumber n => SaidNumber (- n)
  | SaidReal f => SaidReal (SFopp f)
  | v => v
  end.

(** The components of an object identifier: a number, name(number), a value, name(value);
    a value is "name" or "Module.name". *)
Fixpoint read_object (l : list token) : list (string * Z * bool) :=
  match l with
  | [] => []
  | t :: r =>
      if tk_kind t =? T_NUMBER then ("", tk_number t, false) :: read_object r
      else if tk_kind t =? T_VALUEIDENTIFIER then
        match r with
        | p :: x :: q :: r' =>
            if tk_kind p =? T_OPEN_ROUND then
              if tk_kind x =? T_NUMBER then (tk_name t, tk_number x, false) :: read_object r'
              else if tk_kind x =? T_VALUEIDENTIFIER then (tk_name t, 0, true) :: read_object r'
              else match r' with _ :: _ :: r'' => (tk_name t, 0, true) :: read_object r'' | _ => [] end
            else ("", 0, true) :: read_object r
        | _ => ("", 0, true) :: read_object r
        end
      else match r with _ :: _ :: r' => ("", 0, true) :: read_object r' | _ => [] end
  end.

Definition read_value (l : list token) : said :=
  match l with
  | [] => SaidNothing
  | t :: r =>
      if tk_kind t =? T_TRUE then SaidBoolean true
      else if tk_kind t =? T_FALSE then SaidBoolean false
      else if tk_kind t =? T_PLUS_INFINITY then SaidReal (S754_infinity false)
      else if tk_kind t =? T_MINUS_INFINITY then SaidReal (S754_infinity true)
      else if tk_kind t =? T_VALUEIDENTIFIER then SaidName (tk_name t)
      else if tk_kind t =? T_OPEN_CURLY then SaidObject (read_object (removelast r))
      else if tk_kind t =? T_MINUS then negative (read_unsigned r)
      else read_unsigned l
  end.

(** The value of an end of a range: its first or its last part, the other being "<". *)
Definition lower_end (T : tree) : said :=
  match T with Node _ (V :: _) => read_value (leaves V) | _ => SaidNothing end.
Definition upper_end (T : tree) : said :=
  match T with Node _ l => read_value (last_part l) | _ => SaidNothing end.

(** Productions of asn1.y: 55 is ValueAssignment (492), 258 SingleValue (978), 259
    ValueRange (983). *)
Definition node_use (n : Z) (l : list tree) : list use :=
  if n =? 55 then [Assigned (first_name l) (read_value (last_part l))]
  else if n =? 258 then [Allowed (read_value (flat_map leaves l))]
  else if n =? 259 then match l with [A; _; B] => [Between (lower_end A) (upper_end B)] | _ => [] end
  else [].

(** The values of a text with the derivation tree [T]. *)
Fixpoint written_values (T : tree) : list use :=
  match T with
  | Leaf _ => []
  | Node n l => node_use n l ++ flat_map written_values l
  end.

(** ** In a tree *)
Section TreeValues.
  Context {P R : Type}.

  Definition object_part (e : ObjectIdElement R) : string * Z * bool :=
    (oe_Name e, oe_ID e, match oe_Reference e with Some _ => true | None => false end).
  Definition said_of (v : value R) : said :=
    match v with
    | VNil => SaidNothing
    | VNumber n => SaidNumber n
    | VReal f => SaidReal f
    | VBoolean b => SaidBoolean b
    | VDefined d => SaidName (dv_ValueName d)
    | VIdentifiedInteger s => SaidName s
    | VObjectIdentifier l => SaidObject (map object_part l)
    end.

  Fixpoint type_values (t : atype P R) : list use :=
    match t with
    | TNamed n => named_values n
    | TChoice a e => flat_map named_values a ++ flat_map (fun o => match o with Some n => named_values n | None => [] end) e
    | TSequence c e | TSet c e => flat_map component_values c ++ flat_map component_values e
    | TTagged _ t _ _ | TSequenceOf t | TSetOf t => type_values t
    | TConstrained t c => type_values t ++ constraint_values c
    | TNil | TReference _ | TNull | TObjectIdentifier | TInteger _ | TEnumerated _ | TReal | TBoolean | TRestrictedString _
    | TCharacterString | TOctetString | TAny _ | TBitString _ => []
    end
  with named_values (n : NamedType P R) : list use :=
    match n with Named _ t => type_values t end
  with component_values (c : component P R) : list use :=
    match c with
    | CNil => []
    | CNamed n _ _ => named_values n
    | CComponentsOf t => type_values t
    end
  with constraint_values (c : ConstraintSpec P R) : list use :=
    match c with
    | CSSubtype l => flat_map elements_values l
    | _ => []
    end
  with elements_values (e : Elements P R) : list use :=
    match e with
    | ENil | EInner => []
    | ESingleValue v => [Allowed (said_of v)]
    | EValueRange a b => [Between (said_of (re_Value a)) (said_of (re_Value b))]
    | EUnions l => flat_map (flat_map intersection_values) l
    | EExclusions e => elements_values e
    | EType t => type_values t
    | ESize c => constraint_values c
    end
  with intersection_values (i : IntersectionElements P R) : list use :=
    match i with Intersect e x => elements_values e ++ elements_values x end.

  Definition assignment_values (a : assignment P R) : list use :=
    match a with
    | ANil => []
    | AType _ t => type_values t
    | AValue s t v => Assigned s (said_of v) :: type_values t
    end.

  (** The values of a module, other than defaults (C06). *)
  Definition module_values (m : ModuleDefinition P R) : list use :=
    flat_map assignment_values (mb_AssignmentList (md_ModuleBody m)).
End TreeValues.
