(** What has which type in a derivation tree is as in its value. *)
From Coq Require Import ZArith String List Bool Arith Lia SpecFloat Permutation.
From Verif Require Import GoBase Tokens Tables Ast RealNum AstInd ParserFacts ComponentFacts Words Forgotten WordsFacts Numbers NumbersFacts WrittenTags WrittenTagsFacts ItemLists ItemListsFacts Typings.
From Verif Require Import Grammar GrammarFacts ForgottenFacts.
Import ListNotations.
Local Open Scope string_scope.
Local Open Scope list_scope.
Local Open Scope Z_scope.

(** The typings of a value of the grammar. *)
Definition sem_typings (v : sem) : list typing :=
  match v with
  | S_module x => module_typings x
  | S_ModuleBody x => flat_map assignment_typings (mb_AssignmentList x)
  | S_AssignmentList x => flat_map assignment_typings x
  | S_Assignment x => assignment_typings x
  | S_Type x => type_typings x
  | S_NamedType x => named_typings x
  | S_ComponentTypeLists x =>
      flat_map component_typings (ctl_Components x) ++
      flat_map component_typings (ctl_ExtensionAdditions x) ++
      flat_map component_typings (ctl_TrailingComponents x)
  | S_ComponentTypeList x | S_ExtensionAdditions x => flat_map component_typings x
  | S_ComponentType x => component_typings x
  | S_ChoiceType x =>
      flat_map named_typings (ct_AlternativeTypeList x) ++
      flat_map (fun o => match o with Some n => named_typings n | None => [] end) (ct_ExtensionTypes x)
  | S_AlternativeTypeList x => flat_map named_typings x
  | S_ExtensionAdditionAlternativesList x => flat_map (fun o => match o with Some n => named_typings n | None => [] end) x
  | S_ExtensionAdditionAlternative x => match x with Some n => named_typings n | None => [] end
  | S_Constraint x | S_ConstraintSpec x => constraint_typings x
  | S_SubtypeConstraint x => flat_map elements_typings x
  | S_ElementSetSpec x | S_Elements x | S_Exclusions x => elements_typings x
  | S_Unions x => flat_map (flat_map intersection_typings) x
  | S_Intersections x => flat_map intersection_typings x
  | S_IntersectionElements x => intersection_typings x
  | _ => []
  end.

(** ** How often a typing occurs *)

Section Count.
  Context (x : typing).
  Notation cnt l := (count_occ typing_dec l x).

  (** What is known of a symbol of a right side with the tree [T]. *)
  Definition tfact (i : item) (T : tree) : Prop :=
    tree_says i T /\ tree_starts i (leaves T) /\
    match i with
    | Tk t => True
    | Nt N v => dead N = false -> cnt (written_typings T) = cnt (sem_typings v)
    end.

  Lemma ycnt_app a b : cnt (a ++ b) = (cnt a + cnt b)%nat.
  Proof. apply count_occ_app. Qed.
  Lemma ycnt_cons a b : cnt (a :: b) = (cnt [a] + cnt b)%nat.
  Proof. exact (ycnt_app [a] b). Qed.
  Lemma ycnt_nil : cnt [] = 0%nat.
  Proof. reflexivity. Qed.
  Lemma ycnt_one {A} (f : A -> list typing) a : cnt (flat_map f [a]) = cnt (f a).
  Proof. cbn [flat_map]. now rewrite app_nil_r. Qed.
  Lemma typings_node n l : written_typings (Node n l) = node_typing n l ++ flat_map written_typings l.
  Proof. reflexivity. Qed.
  Lemma typings_leaf t : written_typings (Leaf t) = [].
  Proof. reflexivity. Qed.

  Ltac refold :=
    fold (@type_typings (value DefinedValue) DefinedValue) (@named_typings (value DefinedValue) DefinedValue)
      (@component_typings (value DefinedValue) DefinedValue) (@constraint_typings (value DefinedValue) DefinedValue)
      (@elements_typings (value DefinedValue) DefinedValue) (@intersection_typings (value DefinedValue) DefinedValue).
  Ltac ycounts :=
    repeat first [rewrite ycnt_one | rewrite ycnt_app | rewrite flat_map_app | rewrite app_nil_r | rewrite ycnt_nil |
      match goal with |- context [cnt (?a :: ?b)] => lazymatch b with nil => fail | _ => rewrite (ycnt_cons a b) end end].
  Ltac parts :=
    repeat match goal with
    | [ F : Forall2 _ [] _ |- _ ] => inversion_clear F
    | [ F : Forall2 _ (_ :: _) _ |- _ ] => inversion_clear F
    | [ F : tfact (Tk ?t) ?l |- _ ] => destruct F as [[-> _] _]
    | [ F : tfact (Nt _ _) _ |- _ ] => let Sy := fresh "Sy" in let St := fresh "St" in destruct F as (Sy & St & F)
    | [ F : dead _ = false -> _ |- _ ] => cbn [dead] in F
    | [ F : false = false -> _ |- _ ] => specialize (F eq_refl)
    | [ F : true = false -> _ |- _ ] => clear F
    end.
  Ltac bearers :=
    cbn [tree_says says tree_starts starts] in *; unfold single, one_token in *;
    repeat match goal with
    | [ F : exists t, _ /\ _ /\ tk_name t = _ |- _ ] => let t := fresh "t" in let E := fresh "E" in destruct F as (t & E & _ & <-)
    end;
    repeat match goal with [ E : leaves ?y = [?a], F : leaves ?y = [?b] |- _ ] => rewrite E in F; injection F as -> end;
    unfold last_part, first_name; cbn [rev app flat_map leaves]; rewrite ?app_nil_r;
    repeat match goal with [ E : leaves _ = [_] |- _ ] => rewrite E; clear E end; cbn [app skipn];
    repeat match goal with
    | [ F : forall after, read_bearer (leaves ?y ++ after) = _ /\ _ |- context [read_bearer (leaves ?y ++ ?a)] ] => rewrite (proj1 (F a)); clear F
    | [ F : forall after, read_bearer (leaves ?y ++ after) = _ /\ _ |- context [read_bearer (leaves ?y)] ] =>
        let G := fresh in pose proof (proj1 (F [])) as G; rewrite app_nil_r in G; rewrite G; clear F G
    end.
  Ltac yrule :=
    let N := fresh in let its := fresh in let v := fresh in let l := fresh in let G := fresh in let H := fresh in let F := fresh in
    intros N its v l G H F; cbn [fst snd] in *; first [discriminate G | clear G]; destruct H; cbn [dead]; first [discriminate | intros _]; parts;
    rewrite typings_node; cbn [node_typing Z.eqb Pos.eqb orb]; bearers; cbn [app flat_map]; rewrite ?typings_leaf; ycounts;
    repeat match goal with [ H : cnt (written_typings _) = _ |- _ ] => rewrite H; clear H end;
    cbn -[count_occ written_typings type_bearer]; refold; unfold module_typings, SingleElementConstraint;
    cbn -[count_occ type_typings named_typings component_typings constraint_typings elements_typings intersection_typings written_typings type_bearer];
    ycounts; repeat match goal with |- context [type_bearer (TNamed ?n)] => change (type_bearer (TNamed n)) with OnNothing end;
    try (etransitivity; [|symmetry; exact (ycnt_cons _ _)]); try lia.

  Lemma rules_typings : Forall (fun p : Z * (nonterm -> list item -> sem -> Prop) => forall N its v l,
    forgotten (fst p) = false -> snd p N its v -> Forall2 tfact its l ->
    dead N = false -> cnt (written_typings (Node (fst p) l)) = cnt (sem_typings v)) (tl numbered).
  Proof.
    unfold numbered. cbn [seq map combine rule_table Z.of_nat Pos.of_succ_nat Pos.succ tl].
    repeat (apply Forall_cons; [try solve [yrule]|]); try apply Forall_nil.
  Qed.

  Lemma typing_none n : forgotten n = true -> node_typing n [] = [].
  Proof.
    intros G. unfold forgotten in G. apply existsb_exists in G as (k & Ik & Ek). apply Z.eqb_eq in Ek. subst k.
    repeat (destruct Ik as [<-|Ik]; [reflexivity|]). contradiction.
  Qed.

  Lemma recalls_typings T i : recalls T i -> Forall clean (leaves T) -> tfact i T.
  Proof.
    revert T i. apply (recalls_rect (fun T i => Forall clean (leaves T) -> tfact i T)).
    - intros t H. split; [|split; [reflexivity|exact I]]. inversion_clear H as [|? ? H2 _]. split; [reflexivity|exact H2].
    - intros n N its v l R G Y IH H. split; [exact (recalls_says (Node n l) (Nt N v) (recalls_node n N its v l R G Y) H)|].
      split; [exact (recalls_starts (Node n l) (Nt N v) (recalls_node n N its v l R G Y))|].
      cbn [leaves] in H. destruct (rule_numbered n N its v R) as (Q & I & HQ & B). apply in_tail in I; [|lia].
      pose proof rules_typings as C. rewrite Forall_forall in C. apply (C (n, Q) I N its v l G HQ).
      clear -IH H. induction IH as [|T i l its P _ IHl]; constructor; cbn [flat_map] in H; apply Forall_app in H as [A B]; auto.
    - intros n N its v R G H. split; [exact (recalls_says (Node n []) (Nt N v) (recalls_nothing n N its v R G) H)|].
      split; [exact (recalls_starts (Node n []) (Nt N v) (recalls_nothing n N its v R G))|].
      pose proof (forgotten_void n N its v R G) as V. rewrite typings_node, (typing_none n G).
      destruct N; try contradiction V; cbn [void] in V; subst v; reflexivity.
  Qed.
End Count.

(** The typings of a phrase, outside of what is forgotten, are those of its value. *)
Lemma phrase_typings T N v : recalls T (Nt N v) -> Forall clean (leaves T) -> dead N = false ->
  Permutation (written_typings T) (sem_typings v).
Proof. intros Y C D. apply (Permutation_count_occ typing_dec). intros x. exact (proj2 (proj2 (recalls_typings x T _ Y C)) D). Qed.

Lemma module_typings_all T m : yields T (Nt N_ModuleDefinition (S_module m)) -> Forall clean (leaves T) ->
  Permutation (written_typings (remembered T)) (module_typings m).
Proof.
  intros Y C. assert (C' : Forall clean (outside T)).
  { rewrite Forall_forall in *. intros t I. apply C. now apply outside_incl. }
  exact (phrase_typings _ _ _ (remembered_recalls T _ Y) C' eq_refl).
Qed.

(** Typings do not depend on what pointers point to. *)
Section Map.
  Context {P R P' R' : Type} (f : P -> P') (g : R -> R').

  Lemma typings_cases : @cases P R
    (fun t => type_typings (tmap f g t) = type_typings t)
    (fun n => named_typings (nmap f g n) = named_typings n)
    (fun c => component_typings (cmap f g c) = component_typings c)
    (fun c => constraint_typings (csmap f g c) = constraint_typings c)
    (fun e => elements_typings (emap f g e) = elements_typings e)
    (fun i => intersection_typings (imap f g i) = intersection_typings i).
  Proof.
    constructor; try reflexivity.
    - intros n H. exact H.
    - intros a e A B. cbn. rewrite !flat_map_map. f_equal; apply flat_map_same; [assumption|].
      eapply Forall_impl; [|exact B]. intros [n|]; [cbn; auto|reflexivity].
    - intros c e A B. cbn. rewrite !flat_map_map. f_equal; apply flat_map_same; assumption.
    - intros c e A B. cbn. rewrite !flat_map_map. f_equal; apply flat_map_same; assumption.
    - intros h t z b H. exact H.
    - intros t H. change ((ElementsOf false, type_bearer (tmap f g t)) :: type_typings (tmap f g t) = (ElementsOf false, type_bearer t) :: type_typings t).
      now rewrite bearer_map, H.
    - intros t H. change ((ElementsOf true, type_bearer (tmap f g t)) :: type_typings (tmap f g t) = (ElementsOf true, type_bearer t) :: type_typings t).
      now rewrite bearer_map, H.
    - intros t c A B. cbn. f_equal; assumption.
    - intros s t H. change ((FieldCalled s, type_bearer (tmap f g t)) :: type_typings (tmap f g t) = (FieldCalled s, type_bearer t) :: type_typings t).
      now rewrite bearer_map, H.
    - intros n o d H. exact H.
    - intros t H. change ((TheComponentsOf, type_bearer (tmap f g t)) :: type_typings (tmap f g t) = (TheComponentsOf, type_bearer t) :: type_typings t).
      now rewrite bearer_map, H.
    - intros l A. cbn. rewrite flat_map_map. apply flat_map_same; assumption.
    - intros l A. cbn. rewrite flat_map_map. apply flat_map_same. eapply Forall_impl; [|exact A].
      intros k B. rewrite flat_map_map. apply flat_map_same; assumption.
    - intros e H. exact H.
    - intros t H. change ((Constraining, type_bearer (tmap f g t)) :: type_typings (tmap f g t) = (Constraining, type_bearer t) :: type_typings t).
      now rewrite bearer_map, H.
    - intros c H. exact H.
    - intros e x A B. cbn. f_equal; assumption.
  Qed.

  Lemma module_typings_map m : module_typings (md_map f g m) = module_typings m.
  Proof.
    destruct m as [i t e [l s]]. unfold module_typings. cbn [md_map mb_map md_ModuleBody mb_AssignmentList].
    rewrite !flat_map_map. apply flat_map_same; apply Forall_forall.
    intros [|n a|n a v] _; [reflexivity| |]; cbn; rewrite bearer_map; f_equal; apply (type_ind2 _ _ _ _ _ _ typings_cases).
  Qed.
End Map.

Lemma shape_typings (m m' : Module_) : shape m = shape m' -> module_typings m = module_typings m'.
Proof.
  intros E. rewrite <- (module_typings_map (fun _ => tt) (fun _ => tt) m), <- (module_typings_map (fun _ => tt) (fun _ => tt) m').
  unfold shape in E. now rewrite E.
Qed.
