(** The lists of items in braces of a text and of a tree: the named numbers of an INTEGER,
    the items of an ENUMERATED, the named bits of a BIT STRING, and the alternatives of a
    CHOICE.  Specification for C87. *)
From Coq Require Import ZArith String List Bool.
From Verif Require Import GoBase Tokens Ast Grammar Words.
Import ListNotations.
Local Open Scope string_scope.
Local Open Scope list_scope.
Local Open Scope Z_scope.

(** What stands in round brackets behind the name of an item. *)
Inductive label : Type :=
| Bare
| Numbered (n : Z)
| Valued (d : DefinedValue).

(** A list: the word it stands behind, its items in order, and those behind "...". *)
Record listing : Type := Listing { li_word : Z; li_items : list (string * label); li_added : list (string * label) }.

Lemma listing_dec (a b : listing) : {a = b} + {a <> b}.
Proof. repeat decide equality. Defined.

(** ** Of a text *)

(** An item: its name, and a number, a negative number, a value, or Module.value in
    round brackets. *)
Definition read_item (l : list token) : list (string * label) :=
  match l with
  | [n] => [(tk_name n, Bare)]
  | [n; _; x; _] =>
      [(tk_name n, if tk_kind x =? T_NUMBER then Numbered (tk_number x)
                   else Valued {| dv_ModuleName := ""; dv_ValueName := tk_name x |})]
  | [n; _; _; x; _] => [(tk_name n, Numbered (- tk_number x))]
  | [n; _; q; _; x; _] => [(tk_name n, Valued {| dv_ModuleName := tk_name q; dv_ValueName := tk_name x |})]
  | _ => []
  end.

(** What stands between commas. *)
Fixpoint between_commas (l : list token) : list (list token) :=
  match l with
  | [] => [[]]
  | t :: r =>
      if tk_kind t =? T_COMMA then [] :: between_commas r
      else match between_commas r with c :: cs => (t :: c) :: cs | [] => [[t]] end
  end.
Definition read_items (l : list token) : list (string * label) := flat_map read_item (between_commas l).

Fixpoint before_ellipsis (l : list token) : list token :=
  match l with
  | [] => []
  | t :: r => if tk_kind t =? T_ELLIPSIS then [] else t :: before_ellipsis r
  end.
Fixpoint after_ellipsis (l : list token) : list token :=
  match l with
  | [] => []
  | t :: r => if tk_kind t =? T_ELLIPSIS then r else after_ellipsis r
  end.

(** The list between the braces of [l], of which the first is behind [k] words. *)
Definition read_list (word : Z) (k : nat) (l : list token) : listing :=
  let inside := removelast (skipn k l) in
  Listing word (read_items (before_ellipsis inside)) (read_items (after_ellipsis inside)).

(** The alternatives below a node, not those of types of alternatives: all, those before
    and those in the extension.  Production 77 is that of NamedType, asn1.y:539; 166 that
    of ExtensionAdditionAlternatives, asn1.y:774. *)
Fixpoint all_names (T : tree) : list (string * label) :=
  match T with
  | Leaf _ => []
  | Node n l => if n =? 77 then [(first_name l, Bare)] else flat_map all_names l
  end.
Fixpoint root_names (T : tree) : list (string * label) :=
  match T with
  | Leaf _ => []
  | Node n l => if n =? 77 then [(first_name l, Bare)] else if n =? 166 then [] else flat_map root_names l
  end.
Fixpoint added_names (T : tree) : list (string * label) :=
  match T with
  | Leaf _ => []
  | Node n l => if n =? 77 then [] else if n =? 166 then flat_map all_names l else flat_map added_names l
  end.

(** Production 87 is that of INTEGER with braces, asn1.y:585; 96 that of ENUMERATED,
    asn1.y:608; 120 that of BIT STRING with braces, asn1.y:663; 161 that of CHOICE,
    asn1.y:762. *)
Definition node_list (n : Z) (l : list tree) : list listing :=
  if n =? 87 then [read_list T_INTEGER 2 (flat_map leaves l)]
  else if n =? 96 then [read_list T_ENUMERATED 2 (flat_map leaves l)]
  else if n =? 120 then [read_list T_BIT 3 (flat_map leaves l)]
  else if n =? 161 then [Listing T_CHOICE (flat_map root_names l) (flat_map added_names l)]
  else [].

(** The lists written in a text with the derivation tree [T]. *)
Fixpoint written_lists (T : tree) : list listing :=
  match T with
  | Leaf _ => []
  | Node n l => node_list n l ++ flat_map written_lists l
  end.

(** ** Of a tree *)
Definition number_item (n : NamedNumber) : string * label :=
  (nn_Name n, match nn_Value n with NNil => Bare | NNumber z => Numbered z | NDefined d => Valued d end).
Definition enumeration_item (i : EnumerationItem) : string * label :=
  match i with
  | EINil => ("", Bare)
  | EINumber n => number_item n
  | EIIdentifier s => (s, Bare)
  end.

Section TreeLists.
  Context {P R : Type}.

  Definition bit_item (b : NamedBit R) : string * label :=
    (nb_Name b, match nb_Index b with VNumber z => Numbered z | VDefined d => Valued d | _ => Bare end).
  Definition alternative_item (n : NamedType P R) : string * label :=
    match n with Named s _ => (s, Bare) end.
  Definition added_item (o : option (NamedType P R)) : list (string * label) :=
    match o with Some n => [alternative_item n] | None => [] end.

  (** INTEGER and BIT STRING may have no list. *)
  Definition listing_of (word : Z) (l : list (string * label)) : list listing :=
    match l with [] => [] | _ => [Listing word l []] end.

  Fixpoint type_lists (t : atype P R) : list listing :=
    match t with
    | TInteger l => listing_of T_INTEGER (map number_item l)
    | TEnumerated e =>
        [Listing T_ENUMERATED (map enumeration_item (et_RootEnumeration e)) (map enumeration_item (et_AdditionalEnumeration e))]
    | TBitString l => listing_of T_BIT (map bit_item l)
    | TChoice a e =>
        Listing T_CHOICE (map alternative_item a) (flat_map added_item e) ::
        flat_map named_lists a ++ flat_map (fun o => match o with Some n => named_lists n | None => [] end) e
    | TNamed n => named_lists n
    | TSequence c e | TSet c e => flat_map component_lists c ++ flat_map component_lists e
    | TTagged _ t _ _ | TSequenceOf t | TSetOf t => type_lists t
    | TConstrained t c => type_lists t ++ constraint_lists c
    | TNil | TReference _ | TNull | TObjectIdentifier | TReal | TBoolean | TRestrictedString _
    | TCharacterString | TOctetString | TAny _ => []
    end
  with named_lists (n : NamedType P R) : list listing :=
    match n with Named _ t => type_lists t end
  with component_lists (c : component P R) : list listing :=
    match c with
    | CNil => []
    | CNamed n _ _ => named_lists n
    | CComponentsOf t => type_lists t
    end
  with constraint_lists (c : ConstraintSpec P R) : list listing :=
    match c with
    | CSSubtype l => flat_map elements_lists l
    | _ => []
    end
  with elements_lists (e : Elements P R) : list listing :=
    match e with
    | ENil | EInner | ESingleValue _ | EValueRange _ _ => []
    | EUnions l => flat_map (flat_map intersection_lists) l
    | EExclusions e => elements_lists e
    | EType t => type_lists t
    | ESize c => constraint_lists c
    end
  with intersection_lists (i : IntersectionElements P R) : list listing :=
    match i with Intersect e x => elements_lists e ++ elements_lists x end.

  Definition assignment_lists (a : assignment P R) : list listing :=
    match a with ANil => [] | AType _ t | AValue _ t _ => type_lists t end.

  (** The lists of a module. *)
  Definition module_lists (m : ModuleDefinition P R) : list listing :=
    flat_map assignment_lists (mb_AssignmentList (md_ModuleBody m)).
End TreeLists.
