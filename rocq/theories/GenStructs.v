(** The struct types of generated code, compared with the SEQUENCE and SET types of a text
    (Structs.v): specification for C83. *)
From Coq Require Import ZArith String List Bool.
From Verif Require Import GoBase Unicode Ast GoAst Codegen CodegenSpec Structs.
Import ListNotations.
Local Open Scope string_scope.
Local Open Scope list_scope.

(** The name of a field. *)
Definition field_name (f : gofield) : string := match f with Field n _ _ => n end.

(** The struct types in a type expression, at every depth, as the lists of their field names. *)
Fixpoint expr_structs (e : goexpr) : list (list string) :=
  match e with
  | EStar x | EArray x => expr_structs x
  | EStruct fs => map field_name fs :: flat_map field_structs fs
  | _ => []
  end
with field_structs (f : gofield) : list (list string) :=
  match f with Field _ e _ => expr_structs e end.

(** The struct types in the type declarations of a file. *)
Definition file_structs (f : gofile) : list (list string) :=
  flat_map (fun d => match gd_tok d with
                     | TokType => flat_map (fun s => match s with TypeSpec _ _ e => expr_structs e | _ => [] end) (gd_specs d)
                     | _ => []
                     end) (gf_decls f).

(** The names of the components written in a SEQUENCE or SET. *)
Definition entry_names (s : struct) : list string :=
  flat_map (fun x => match x with Component n _ _ => [n] | ComponentsOf => [] end) (entries s).

(** The field names for a SEQUENCE or SET. *)
Definition go_names (U : unicode_tables) (s : struct) : list string := map (goifyName U) (entry_names s).

(** No SEQUENCE or SET with braces in a CHOICE or a constraint. *)
Fixpoint open_type (t : AType_) : bool :=
  match t with
  | TTagged _ t _ _ | TSequenceOf t | TSetOf t => open_type t
  | TConstrained t c => open_type t && match constraint_structs c with [] => true | _ => false end
  | TSequence c e | TSet c e => forallb open_component c && forallb open_component e
  | TChoice _ _ => match type_structs t with [] => true | _ => false end
  | _ => true
  end
with open_component (c : component Value DefinedValue) : bool :=
  match c with CNamed (Named _ t) _ _ => open_type t | _ => true end.

(** No SEQUENCE or SET with braces in a CHOICE, a constraint or the type of a value. *)
Definition open_module (m : Module_) : bool :=
  forallb (fun a => match a with
                    | AType _ t => open_type t
                    | AValue _ t _ => match type_structs t with [] => true | _ => false end
                    | ANil => true
                    end) (mb_AssignmentList (md_ModuleBody m)).

(** The SEQUENCE and SET types with braces that the generator gets to see in a type, in
    order: not those in constraints, nor those in a CHOICE, unless the CHOICE has a single
    alternative, which is not tagged. *)
Section Seen.
  Context (asg : list Assignment_).

  Inductive seen : AType_ -> list struct -> Prop :=
  | seen_tagged g t z b l : seen t l -> seen (TTagged g t z b) l
  | seen_constrained t c l : seen t l -> seen (TConstrained t c) l
  | seen_sequence_of t l : seen t l -> seen (TSequenceOf t) l
  | seen_set_of t l : seen t l -> seen (TSetOf t) l
  | seen_sequence c x l : seen_components (c ++ x) l ->
      seen (TSequence c x) ({| is_set := false; entries := flat_map entries_of c ++ flat_map entries_of x |} :: l)
  | seen_set c x l : seen_components (c ++ x) l ->
      seen (TSet c x) ({| is_set := true; entries := flat_map entries_of c ++ flat_map entries_of x |} :: l)
  | seen_one n t x l : ~ tagged_alt asg t -> seen t l -> seen (TChoice [Named n t] x) l
  | seen_choice a x : tagged_choice asg a \/ length a <> 1%nat -> seen (TChoice a x) []
  | seen_other t : match t with
      | TTagged _ _ _ _ | TConstrained _ _ | TSequenceOf _ | TSetOf _ | TSequence _ _ | TSet _ _ | TChoice _ _ | TNamed _ | TNil => False
      | _ => True
      end -> seen t []
  with seen_components : list (component Value DefinedValue) -> list struct -> Prop :=
  | seen_nil : seen_components [] []
  | seen_cons n t o d c l l' : seen t l -> seen_components c l' -> seen_components (CNamed (Named n t) o d :: c) (l ++ l')
  | seen_absent c l : seen_components c l -> seen_components (CNil :: c) l.

  (** What is seen of an assignment: nothing of the type of a value. *)
  Definition seen_assignment (a : Assignment_) (l : list struct) : Prop :=
    match a with AType _ t => seen t l | _ => l = [] end.
End Seen.
