(** The SEQUENCE and SET types of a text and of a tree, with their components in order:
    specification for C69. *)
From Coq Require Import ZArith String List Bool.
From Verif Require Import GoBase Tokens Ast Grammar Words.
Import ListNotations.
Local Open Scope string_scope.
Local Open Scope list_scope.
Local Open Scope Z_scope.

(** A component as written: its name, whether it is OPTIONAL, whether it has a DEFAULT;
    or COMPONENTS OF. *)
Inductive entry : Type :=
| Component (name : string) (optional default : bool)
| ComponentsOf.

(** A SEQUENCE (or, if [is_set], a SET) with braces and its components. *)
Record struct : Type := { is_set : bool; entries : list entry }.

Definition struct_dec (a b : struct) : {a = b} + {a <> b}.
Proof. repeat decide equality. Defined.

Definition struct_count (x : struct) (l : list struct) : nat := count_occ struct_dec l x.

(** ** In a text *)

(** The components below a node, from left to right, not those of types of components.
    Productions 150-153 are those of ComponentType, asn1.y:736-739. *)
Fixpoint own (T : tree) : list entry :=
  match T with
  | Leaf _ => []
  | Node n l =>
      if n =? 150 then [Component (first_name l) false false]
      else if n =? 151 then [Component (first_name l) true false]
      else if n =? 152 then [Component (first_name l) false true]
      else if n =? 153 then [ComponentsOf]
      else flat_map own l
  end.

(** Productions 127-129 are those of SequenceType, asn1.y:686-688; 154-156 those of
    SetType, asn1.y:744-746. *)
Definition node_struct (n : Z) (l : list tree) : list struct :=
  if (127 <=? n) && (n <=? 129) then [{| is_set := false; entries := flat_map own l |}]
  else if (154 <=? n) && (n <=? 156) then [{| is_set := true; entries := flat_map own l |}]
  else [].

(** The types written in a text with the derivation tree [T]. *)
Fixpoint written_structs (T : tree) : list struct :=
  match T with
  | Leaf _ => []
  | Node n l => node_struct n l ++ flat_map written_structs l
  end.

(** ** In a module *)

Section TreeStructs.
  Context {P R : Type}.

  Definition entries_of (c : component P R) : list entry :=
    match c with
    | CNil => []
    | CNamed (Named s _) o d => [Component s o (match d with Some _ => true | None => false end)]
    | CComponentsOf _ => [ComponentsOf]
    end.

  (** The SEQUENCE and SET types in a type, at every depth.  The extension additions
      of a type come after its other components. *)
  Fixpoint type_structs (t : atype P R) : list struct :=
    match t with
    | TNamed n => named_structs n
    | TChoice a e => flat_map named_structs a ++ flat_map (fun o => match o with Some n => named_structs n | None => [] end) e
    | TSequence c e =>
        {| is_set := false; entries := flat_map entries_of c ++ flat_map entries_of e |}
          :: flat_map component_structs c ++ flat_map component_structs e
    | TSet c e =>
        {| is_set := true; entries := flat_map entries_of c ++ flat_map entries_of e |}
          :: flat_map component_structs c ++ flat_map component_structs e
    | TTagged _ t _ _ | TSequenceOf t | TSetOf t => type_structs t
    | TConstrained t c => type_structs t ++ constraint_structs c
    | _ => []
    end
  with named_structs (n : NamedType P R) : list struct :=
    match n with Named _ t => type_structs t end
  with component_structs (c : component P R) : list struct :=
    match c with
    | CNil => []
    | CNamed n _ _ => named_structs n
    | CComponentsOf t => type_structs t
    end
  with constraint_structs (c : ConstraintSpec P R) : list struct :=
    match c with
    | CSSubtype l => flat_map elements_structs l
    | _ => []
    end
  with elements_structs (e : Elements P R) : list struct :=
    match e with
    | EUnions l => flat_map (flat_map intersection_structs) l
    | EExclusions e => elements_structs e
    | EType t => type_structs t
    | ESize c => constraint_structs c
    | _ => []
    end
  with intersection_structs (i : IntersectionElements P R) : list struct :=
    match i with Intersect e x => elements_structs e ++ elements_structs x end.

  Definition assignment_structs (a : assignment P R) : list struct :=
    match a with
    | ANil => []
    | AType _ t | AValue _ t _ => type_structs t
    end.

  (** The types of a module. *)
  Definition module_structs (m : ModuleDefinition P R) : list struct :=
    flat_map assignment_structs (mb_AssignmentList (md_ModuleBody m)).
End TreeStructs.
