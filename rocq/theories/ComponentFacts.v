(** The components of a derivation tree are the components of its value. *)
From Coq Require Import ZArith String List Bool Lia.
From Verif Require Import GoBase Tokens Tables Ast RealNum Grammar GrammarFacts AstInd ParserFacts Words Forgotten ForgottenFacts WordsFacts.
Import ListNotations.
Local Open Scope string_scope.
Local Open Scope list_scope.
Local Open Scope Z_scope.

(** The components of a value of the grammar. *)
Definition sem_components (v : sem) : list component_entry :=
  match v with
  | S_module x => module_components x
  | S_ModuleBody x => flat_map assignment_components (mb_AssignmentList x)
  | S_AssignmentList x => flat_map assignment_components x
  | S_Assignment x => assignment_components x
  | S_Type x => type_components x
  | S_NamedType x => named_components x
  | S_ComponentTypeLists x =>
      flat_map components_of (ctl_Components x) ++
      flat_map components_of (ctl_ExtensionAdditions x) ++
      flat_map components_of (ctl_TrailingComponents x)
  | S_ComponentTypeList x | S_ExtensionAdditions x => flat_map components_of x
  | S_ComponentType x => components_of x
  | S_ChoiceType x =>
      flat_map named_components (ct_AlternativeTypeList x) ++
      flat_map (fun o => match o with Some n => named_components n | None => [] end) (ct_ExtensionTypes x)
  | S_AlternativeTypeList x => flat_map named_components x
  | S_ExtensionAdditionAlternativesList x =>
      flat_map (fun o => match o with Some n => named_components n | None => [] end) x
  | S_ExtensionAdditionAlternative x => match x with Some n => named_components n | None => [] end
  | S_Constraint x | S_ConstraintSpec x => constraint_components x
  | S_SubtypeConstraint x => flat_map elements_components x
  | S_ElementSetSpec x | S_Elements x | S_Exclusions x => elements_components x
  | S_Unions x => flat_map (flat_map intersection_components) x
  | S_Intersections x => flat_map intersection_components x
  | S_IntersectionElements x => intersection_components x
  | _ => []
  end.

Section Count.
  Context (x : component_entry).
  Notation cnt := (component_count x).

  Lemma ccnt_app a b : cnt (a ++ b) = (cnt a + cnt b)%nat.
  Proof. apply count_occ_app. Qed.
  Lemma ccnt_cons a b : cnt (a :: b) = (cnt [a] + cnt b)%nat.
  Proof. exact (ccnt_app [a] b). Qed.
  Lemma ccnt_nil : cnt [] = 0%nat.
  Proof. reflexivity. Qed.
  Lemma ccnt_one {A} (f : A -> list component_entry) a : cnt (flat_map f [a]) = cnt (f a).
  Proof. cbn [flat_map]. now rewrite app_nil_r. Qed.

  Lemma written_node n l : written_components (Node n l) = node_component n l ++ flat_map written_components l.
  Proof. reflexivity. Qed.
  Lemma written_leaf t : written_components (Leaf t) = [].
  Proof. reflexivity. Qed.

  (** An identifier and a NamedType start with their name. *)
  Definition heads (N : nonterm) (v : sem) (T : tree) : Prop :=
    match N, v with
    | N_identifier, S_name s | N_NamedType, S_NamedType (Named s _) => exists t r, leaves T = t :: r /\ tk_name t = s
    | _, _ => True
    end.

  (** What is known of a symbol of a right side and its tree. *)
  Definition cfact (i : item) (T : tree) : Prop :=
    match i with
    | Tk t => T = Leaf t
    | Nt N v => (dead N = false -> cnt (written_components T) = cnt (sem_components v)) /\ heads N v T
    end.

  Ltac cfacts :=
    repeat match goal with
    | [ F : Forall2 cfact [] _ |- _ ] => inversion_clear F
    | [ F : Forall2 cfact (_ :: _) _ |- _ ] => inversion_clear F
    | [ F : cfact (Tk _) ?T |- _ ] => cbn [cfact] in F; subst T
    | [ F : cfact (Nt _ _) _ |- _ ] => destruct F
    | [ F : false = false -> _ |- _ ] => specialize (F eq_refl)
    | [ F : dead _ = false -> _ |- _ ] => cbn [dead] in F
    | [ F : true = false -> _ |- _ ] => clear F
    | [ K : tk_kind _ = _ |- _ ] => clear K
    end.

  Ltac ccounts :=
    repeat first [rewrite ccnt_one | rewrite ccnt_app | rewrite flat_map_app | rewrite app_nil_r | rewrite ccnt_nil |
      match goal with |- context [cnt (?a :: ?b)] => lazymatch b with nil => fail | _ => rewrite (ccnt_cons a b) end end].

  Ltac crefold :=
    fold (@type_components (value DefinedValue) DefinedValue) (@named_components (value DefinedValue) DefinedValue)
      (@components_of (value DefinedValue) DefinedValue) (@constraint_components (value DefinedValue) DefinedValue)
      (@elements_components (value DefinedValue) DefinedValue) (@intersection_components (value DefinedValue) DefinedValue).

  Ltac crule :=
    let N := fresh in let its := fresh in let v := fresh in let l := fresh in let H := fresh in let F := fresh in let G := fresh in
    intros N its v l G H F; cbn [fst snd] in *; first [discriminate G | clear G]; destruct H; cfacts;
    (split; [first [discriminate|intros _]; rewrite written_node; cbn [node_component Z.eqb Pos.eqb app flat_map]; rewrite ?written_leaf; ccounts;
       repeat match goal with [ H : cnt (written_components _) = _ |- _ ] => rewrite H; clear H end|try exact I]);
    cbn -[component_count written_components heads]; crefold;
    unfold module_components, SingleElementConstraint;
    cbn -[component_count type_components named_components components_of constraint_components elements_components intersection_components
          written_components];
    ccounts; try lia.

  Ltac name_of :=
    match goal with [ H : heads N_NamedType (S_NamedType ?w) _ |- _ ] => destruct w as [s t0]; destruct H as (t & r & E & <-) end.

  Lemma components_table : Forall (fun p : Z * (nonterm -> list item -> sem -> Prop) => forall N its v l,
    forgotten (fst p) = false -> snd p N its v -> Forall2 cfact its l ->
    (dead N = false -> cnt (written_components (Node (fst p) l)) = cnt (sem_components v)) /\ heads N v (Node (fst p) l)) (tl numbered).
  Proof.
    unfold numbered. cbn [seq map combine rule_table Z.of_nat Pos.of_succ_nat Pos.succ tl].
    repeat (apply Forall_cons; [try (solve [crule])|]); try apply Forall_nil.
    - crule. eauto.
    - crule. match goal with [ H : heads N_identifier _ _ |- _ ] => destruct H as (t & r & -> & E) end. cbn [app]. eauto.
    - crule. name_of. unfold first_name. cbn [flat_map]. rewrite E. cbn [app]. rewrite (ccnt_cons _ (type_components t0)). change (named_components (Named (tk_name t) t0)) with (type_components t0). lia.
    - crule. name_of. unfold first_name. cbn [flat_map]. rewrite E. cbn [app]. rewrite (ccnt_cons _ (type_components t0)). change (named_components (Named (tk_name t) t0)) with (type_components t0). lia.
    - crule. name_of. unfold first_name. cbn [flat_map]. rewrite E. cbn [app]. rewrite (ccnt_cons _ (type_components t0)). change (named_components (Named (tk_name t) t0)) with (type_components t0). lia.
  Qed.

  Lemma tree_components T i : recalls T i -> cfact i T.
  Proof.
    revert T i. apply (recalls_rect (fun T i => cfact i T)); [reflexivity| |].
    - intros n N its v l R G _ IH.
      assert (F : Forall2 cfact its l) by (clear R; induction IH; constructor; auto).
      destruct (rule_numbered n N its v R) as (Q & I & HQ & B). apply in_tail in I; [|lia].
      pose proof components_table as C. rewrite Forall_forall in C. exact (C (n, Q) I N its v l G HQ F).
    - intros n N its v R G. pose proof (forgotten_void n N its v R G) as V.
      assert (E : written_components (Node n []) = []).
      { cbn [written_components flat_map]. rewrite app_nil_r. unfold node_component.
        destruct (Z.eqb_spec n 150) as [->|_]; [discriminate G|]. destruct (Z.eqb_spec n 151) as [->|_]; [discriminate G|].
        destruct (Z.eqb_spec n 152) as [->|_]; [discriminate G|reflexivity]. }
      unfold cfact. rewrite E. destruct N; try contradiction V; cbn [void] in V; subst v; split; try exact I; reflexivity.
  Qed.
End Count.

(** The components of a module text outside of what is forgotten are those of its value. *)
Lemma module_component_count x T m : yields T (Nt N_ModuleDefinition (S_module m)) ->
  component_count x (written_components (remembered T)) = component_count x (module_components m).
Proof. intros Y. exact (proj1 (tree_components x _ _ (remembered_recalls T _ Y)) eq_refl). Qed.

(** ** Components do not depend on what pointers point to *)

Section Map.
  Context {P R P' R' : Type} (f : P -> P') (g : R -> R').

  Lemma flat_map_map {A B D} (h : A -> B) (k : B -> list D) l : flat_map k (map h l) = flat_map (fun a => k (h a)) l.
  Proof. induction l as [|a l IH]; [reflexivity|]. cbn [map flat_map]. now rewrite IH. Qed.
  Lemma flat_map_same {A D} (h k : A -> list D) l : Forall (fun a => h a = k a) l -> flat_map h l = flat_map k l.
  Proof. induction 1 as [|a l E _ IH]; [reflexivity|]. cbn [flat_map]. now rewrite E, IH. Qed.

  Lemma components_cases : @cases P R
    (fun t => type_components (tmap f g t) = type_components t)
    (fun n => named_components (nmap f g n) = named_components n)
    (fun c => components_of (cmap f g c) = components_of c /\
       forall n o d, c = CNamed n o d -> named_components (nmap f g n) = named_components n)
    (fun c => constraint_components (csmap f g c) = constraint_components c)
    (fun e => elements_components (emap f g e) = elements_components e)
    (fun i => intersection_components (imap f g i) = intersection_components i).
  Proof.
    constructor; try reflexivity; try (split; [reflexivity|congruence]).
    - intros n H. exact H.
    - intros a e A B. cbn. rewrite !flat_map_map. f_equal; apply flat_map_same; [exact A|].
      eapply Forall_impl; [|exact B]. intros [n|] H; [exact H|reflexivity].
    - intros c e A B. cbn. rewrite !flat_map_map. f_equal; apply flat_map_same; (eapply Forall_impl; [|eassumption]); now intros ? (H & _).
    - intros c e A B. cbn. rewrite !flat_map_map. f_equal; apply flat_map_same; (eapply Forall_impl; [|eassumption]); now intros ? (H & _).
    - intros tg t z b H. exact H.
    - intros t H. exact H.
    - intros t H. exact H.
    - intros t c A B. cbn. f_equal; assumption.
    - intros s t H. exact H.
    - intros [s t] o d H. split.
      + cbn. f_equal; [destruct d; reflexivity|]. exact H.
      + intros n' o' d' E. injection E as <- _ _. exact H.
    - intros t H. split; [exact H|congruence].
    - intros l H. cbn. rewrite flat_map_map. now apply flat_map_same.
    - intros l H. cbn. rewrite flat_map_map. apply flat_map_same. eapply Forall_impl; [|exact H].
      intros a A. rewrite flat_map_map. now apply flat_map_same.
    - intros e H. exact H.
    - intros t H. exact H.
    - intros c H. exact H.
    - intros e x A B. cbn. f_equal; assumption.
  Qed.

  Lemma module_components_map m : module_components (md_map f g m) = module_components m.
  Proof.
    destruct m as [i t e [l s]]. unfold module_components. cbn. rewrite flat_map_map. apply flat_map_same.
    apply Forall_forall. intros [|n a|n a v] _; [reflexivity| |]; apply (type_ind2 _ _ _ _ _ _ components_cases).
  Qed.
End Map.

Lemma shape_components (m m' : Module_) : shape m = shape m' -> module_components m = module_components m'.
Proof.
  intros E. rewrite <- (module_components_map (fun _ => tt) (fun _ => tt) m), <- (module_components_map (fun _ => tt) (fun _ => tt) m').
  unfold shape in E. now rewrite E.
Qed.
