(** The names in a tree that end up in generated code are names of the text. *)
From Coq Require Import ZArith String List Bool Lia.
From Verif Require Import GoBase Tokens Tables Ast RealNum Grammar GrammarFacts AstInd ParserFacts ComponentFacts.
Import ListNotations.
Local Open Scope string_scope.
Local Open Scope list_scope.
Local Open Scope Z_scope.

(** A name: does it start upper case (types, modules), and its text. *)
Definition named : Type := bool * string.

Section TreeNames.
  Context {P R : Type}.

  (** Names of components and of named numbers in a type, at every depth. *)
  Fixpoint type_names (t : atype P R) : list named :=
    match t with
    | TNamed n => named_names n
    | TInteger l => map (fun n => (false, nn_Name n)) l
    | TChoice a e => flat_map named_names a
    | TSequence c e | TSet c e => flat_map component_names c ++ flat_map component_names e
    | TTagged _ t _ _ | TSequenceOf t | TSetOf t | TConstrained t _ => type_names t
    | _ => []
    end
  with named_names (n : NamedType P R) : list named :=
    match n with Named s t => (false, s) :: type_names t end
  with component_names (c : component P R) : list named :=
    match c with
    | CNil => []
    | CNamed n _ _ => named_names n
    | CComponentsOf t => type_names t
    end.

  Definition assignment_names (a : assignment P R) : list named :=
    match a with
    | ANil => []
    | AType n t => (true, n) :: type_names t
    | AValue n t _ => (false, n) :: type_names t
    end.

  Definition module_names (m : ModuleDefinition P R) : list named :=
    (true, mi_Reference (md_ModuleIdentifier m)) :: flat_map assignment_names (mb_AssignmentList (md_ModuleBody m)).
End TreeNames.

(** The names in a value of the grammar. *)
Definition sem_names (N : nonterm) (v : sem) : list named :=
  match v with
  | S_module x => module_names x
  | S_TypeReference x => [(true, x)]
  | S_ValueReference x => [(false, x)]
  | S_name x => match N with N_modulereference => [(true, x)] | _ => [(false, x)] end
  | S_ModuleIdentifier x => [(true, mi_Reference x)]
  | S_ModuleBody x => flat_map assignment_names (mb_AssignmentList x)
  | S_AssignmentList x => flat_map assignment_names x
  | S_Assignment x => assignment_names x
  | S_Type x => type_names x
  | S_NamedType x => named_names x
  | S_NamedNumberList x => map (fun n => (false, nn_Name n)) x
  | S_NamedNumber x => [(false, nn_Name x)]
  | S_ComponentTypeLists x =>
      flat_map component_names (ctl_Components x) ++ flat_map component_names (ctl_ExtensionAdditions x) ++
      flat_map component_names (ctl_TrailingComponents x)
  | S_ComponentTypeList x | S_ExtensionAdditions x => flat_map component_names x
  | S_ComponentType x => component_names x
  | S_ChoiceType x => flat_map named_names (ct_AlternativeTypeList x)
  | S_AlternativeTypeList x => flat_map named_names x
  | _ => []
  end.

Section Names.
  Context (G : named -> Prop).

  (** The token is a name with the property. *)
  Definition good_token (t : token) : Prop :=
    (tk_kind t = T_TYPEORMODULEREFERENCE -> G (true, tk_name t)) /\
    (tk_kind t = T_VALUEIDENTIFIER -> G (false, tk_name t)).

  Definition nfact (i : item) : Prop :=
    match i with Tk t => good_token t | Nt N v => Forall G (sem_names N v) end.

  Ltac nfacts :=
    repeat match goal with
    | [ F : Forall nfact [] |- _ ] => clear F
    | [ F : Forall nfact (_ :: _) |- _ ] => inversion_clear F
    | [ F : nfact (Tk _) |- _ ] => destruct F
    | [ F : nfact (Nt _ _) |- _ ] => unfold nfact in F
    end.

  Ltac nsplit :=
    repeat first [assumption | rewrite flat_map_app | rewrite map_app | rewrite Forall_app | apply Forall_nil | split |
      apply Forall_cons | rewrite app_nil_r].

  Lemma names_table : Forall (fun R : nonterm -> list item -> sem -> Prop => forall N its v,
    R N its v -> Forall nfact its -> Forall G (sem_names N v)) rule_table.
  Proof.
    unfold rule_table. apply Forall_cons; [contradiction|].
    repeat (apply Forall_cons; [
      let N := fresh in let its := fresh in let v := fresh in let H := fresh in let F := fresh in
      intros N its v H F; destruct H; nfacts;
      try (cbn in *; nsplit; auto; fail)|]).
    all: try apply Forall_nil.
    all: cbn -[type_names named_names component_names] in *;
      repeat match goal with [ F : Forall G (_ ++ _) |- _ ] => apply Forall_app in F; destruct F end;
      repeat match goal with [ F : Forall G [_] |- _ ] => inversion_clear F end; try rewrite flat_map_app;
      cbn -[type_names named_names component_names]; nsplit; auto.
    all: change (Forall G (flat_map component_names (ctl_Components v3 ++ ctl_TrailingComponents v3) ++ flat_map component_names (ctl_ExtensionAdditions v3))); nsplit.
  Qed.

  Lemma tree_names T i : yields T i -> Forall good_token (leaves T) -> nfact i.
  Proof.
    revert T i. apply (yields_rect (fun T i => Forall good_token (leaves T) -> nfact i)).
    - intros t H. now inversion_clear H.
    - intros n N its v l R _ IH H. cbn [leaves] in H.
      assert (F : Forall nfact its).
      { clear R. induction IH as [|T i l its P _ IHl]; constructor.
        - apply P. cbn [flat_map] in H. now apply Forall_app in H.
        - apply IHl. cbn [flat_map] in H. now apply Forall_app in H. }
      destruct (rule_numbered n N its v R) as (Q & I & HQ & _).
      pose proof names_table as C. rewrite Forall_forall in C. apply (C Q) with (its := its); [|exact HQ|exact F].
      apply in_combine_r in I. exact I.
  Qed.
End Names.

Section Map.
  Context {P R P' R' : Type} (f : P -> P') (g : R -> R').

  Lemma names_cases : @cases P R
    (fun t => type_names (tmap f g t) = type_names t)
    (fun n => named_names (nmap f g n) = named_names n)
    (fun c => component_names (cmap f g c) = component_names c)
    (fun c => True) (fun e => True) (fun i => True).
  Proof.
    constructor; try reflexivity; try (intros; exact I).
    - intros n H. exact H.
    - intros a e A B. cbn. rewrite !flat_map_map. now apply flat_map_same.
    - intros c e A B. cbn. rewrite !flat_map_map. f_equal; apply flat_map_same; assumption.
    - intros c e A B. cbn. rewrite !flat_map_map. f_equal; apply flat_map_same; assumption.
    - intros tg t z b H. exact H.
    - intros t H. exact H.
    - intros t H. exact H.
    - intros t c A B. exact A.
    - intros s t H. cbn. f_equal. exact H.
    - intros n o d H. exact H.
    - intros t H. exact H.
  Qed.

  Lemma module_names_map m : module_names (md_map f g m) = module_names m.
  Proof.
    destruct m as [i t e [l s]]. unfold module_names. cbn. f_equal. rewrite flat_map_map. apply flat_map_same.
    apply Forall_forall. intros [|n a|n a v] _; [reflexivity| |]; cbn; f_equal; apply (type_ind2 _ _ _ _ _ _ names_cases).
  Qed.
End Map.

Lemma shape_names (m m' : Module_) : shape m = shape m' -> module_names m = module_names m'.
Proof.
  intros E. rewrite <- (module_names_map (fun _ => tt) (fun _ => tt) m), <- (module_names_map (fun _ => tt) (fun _ => tt) m').
  unfold shape in E. now rewrite E.
Qed.
