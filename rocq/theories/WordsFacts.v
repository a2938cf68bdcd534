(** The words of a derivation tree are the words of its value. *)
From Coq Require Import ZArith String List Bool Lia.
From Verif Require Import GoBase Tokens Tables Ast RealNum Grammar GrammarFacts Words Forgotten ForgottenFacts.
Import ListNotations.
Local Open Scope string_scope.
Local Open Scope list_scope.
Local Open Scope Z_scope.

Notation vw := (value_words defined_words).

(** The words of a value of the grammar. *)
Definition sem_words (v : sem) : list string :=
  match v with
  | S_none => []
  | S_module x => words x
  | S_TypeReference x | S_name x | S_ValueReference x => [x]
  | S_Number _ | S_Real _ => []
  | S_ModuleIdentifier x => mi_words x
  | S_DefinitiveIdentifier x | S_DefinitiveObjIdComponentList x => map doc_Name x
  | S_DefinitiveObjIdComponent x => [doc_Name x]
  | S_TagDefault x => tagging_words x
  | S_ExtensionDefault x => if_word x "EXTENSIBILITY"
  | S_ModuleBody x => mb_words vw defined_words x
  | S_Imports x => flat_map (sfm_words defined_words) x
  | S_SymbolsFromModule x => sfm_words defined_words x
  | S_GlobalModuleReference x => gmr_words defined_words x
  | S_Value x => vw x
  | S_SymbolList x => flat_map symbol_words x
  | S_Symbol x => symbol_words x
  | S_AssignmentList x => flat_map (assignment_words vw defined_words) x
  | S_Assignment x => assignment_words vw defined_words x
  | S_Type x => type_words vw defined_words x
  | S_DefinedValue x => defined_words x
  | S_NamedType x => named_words vw defined_words x
  | S_NamedNumberList x => flat_map nn_words x
  | S_NamedNumber x => nn_words x
  | S_EnumeratedType x => et_words x
  | S_Enumeration x => flat_map ei_words x
  | S_EnumerationItem x => ei_words x
  | S_NamedBitList x => flat_map (nb_words defined_words) x
  | S_NamedBit x => nb_words defined_words x
  | S_ComponentTypeLists x =>
      flat_map (component_words vw defined_words) (ctl_Components x) ++
      flat_map (component_words vw defined_words) (ctl_ExtensionAdditions x) ++
      flat_map (component_words vw defined_words) (ctl_TrailingComponents x)
  | S_ComponentTypeList x | S_ExtensionAdditions x => flat_map (component_words vw defined_words) x
  | S_ComponentType x => component_words vw defined_words x
  | S_ChoiceType x =>
      flat_map (named_words vw defined_words) (ct_AlternativeTypeList x) ++
      flat_map (opt_words (named_words vw defined_words)) (ct_ExtensionTypes x)
  | S_AlternativeTypeList x => flat_map (named_words vw defined_words) x
  | S_ExtensionAdditionAlternativesList x => flat_map (opt_words (named_words vw defined_words)) x
  | S_ExtensionAdditionAlternative x => opt_words (named_words vw defined_words) x
  | S_Tag x => tag_words defined_words x
  | S_Class x => class_words x
  | S_ObjectIdentifierValue x => flat_map (oe_words defined_words) x
  | S_ObjectIdElement x => oe_words defined_words x
  | S_Constraint x | S_ConstraintSpec x => constraint_words vw defined_words x
  | S_SubtypeConstraint x => flat_map (elements_words vw defined_words) x
  | S_ElementSetSpec x | S_Elements x => elements_words vw defined_words x
  | S_Exclusions x => "EXCEPT" :: elements_words vw defined_words x
  | S_Unions x => flat_map (flat_map (intersection_words vw defined_words)) x
  | S_Intersections x => flat_map (intersection_words vw defined_words) x
  | S_IntersectionElements x => intersection_words vw defined_words x
  | S_RangeEndpoint x => re_words defined_words x
  end.

(** Nonterminals that occur only in constructs without a trace. *)
Definition dead (N : nonterm) : bool :=
  match N with
  | N_SymbolsExported | N_ExceptionIdentification
  | N_ExtensionAdditionAlternativesGroup | N_SingleTypeConstraint | N_MultipleTypeConstraints
  | N_FullSpecification | N_PartialSpecification | N_TypeConstraints | N_NamedConstraint
  | N_ComponentConstraint | N_ValueConstraint | N_PresenceConstraint => true
  | _ => false
  end.

Section Count.
  Context (x : string) (Hx : x <> "").
  Notation cnt := (occurrences x).

  Lemma cnt_app a b : cnt (a ++ b) = (cnt a + cnt b)%nat.
  Proof. apply count_occ_app. Qed.
  Lemma cnt_cons a b c : cnt (a :: b :: c) = (cnt [a] + cnt (b :: c))%nat.
  Proof. exact (cnt_app [a] (b :: c)). Qed.
  Lemma cnt_cons_app a b c : cnt (a :: b ++ c) = (cnt [a] + (cnt b + cnt c))%nat.
  Proof. rewrite <- cnt_app. exact (cnt_app [a] (b ++ c)). Qed.
  Lemma cnt_cons1 a b : cnt (a :: b) = (cnt [a] + cnt b)%nat.
  Proof. exact (cnt_app [a] b). Qed.
  Lemma cnt_nil : cnt [] = 0%nat.
  Proof. reflexivity. Qed.
  Lemma cnt_empty : cnt [""] = 0%nat.
  Proof. unfold occurrences, count_occ. destruct (string_dec "" x) as [E|E]; [congruence|reflexivity]. Qed.

  Lemma excl_word (e : Elements (value DefinedValue) DefinedValue) : e <> ENil -> except_word e = ["EXCEPT"].
  Proof. now destruct e. Qed.

  (** A NumberForm has no name, and elements are never the nil interface. *)
  Definition nameless (N : nonterm) (v : sem) : Prop :=
    match N, v with
    | N_NumberForm, S_ObjectIdElement e => oe_Name e = ""
    | _, S_Elements e | _, S_Exclusions e | _, S_ElementSetSpec e => e <> ENil
    | _, _ => True
    end.

  (** What is known of a symbol of a right side of which the text has [c] occurrences. *)
  Definition fact (i : item) (c : nat) : Prop :=
    match i with
    | Tk t => c = cnt (token_words t)
    | Nt N v => dead N = false -> c = cnt (sem_words v) /\ nameless N v
    end.

  Definition kind_words (k : Z) (s : string) : list string :=
    if (k =? T_VALUEIDENTIFIER) || (k =? T_TYPEORMODULEREFERENCE) then [s] else keyword k.

  Lemma token_kind t k : tk_kind t = k -> token_words t = kind_words k (tk_name t).
  Proof. intros <-. reflexivity. Qed.

  Ltac one_token :=
    match goal with
    | [ B : _ = cnt (token_words ?t), K : tk_kind ?t = ?k |- _ ] =>
        rewrite (token_kind t k K) in B;
        let w := eval cbv -[tk_name] in (kind_words k (tk_name t)) in change (kind_words k (tk_name t)) with w in B;
        clear K
    end.

  Ltac facts :=
    repeat match goal with
    | [ F : Forall2 fact [] _ |- _ ] => inversion_clear F
    | [ F : Forall2 fact (_ :: _) _ |- _ ] => inversion_clear F
    | [ F : fact (Tk _) _ |- _ ] => unfold fact in F
    | [ F : fact (Nt _ _) _ |- _ ] => specialize (F eq_refl); cbn [nameless] in F; destruct F
    | [ F : fact (Nt _ _) _ |- _ ] => clear F
    end.

  Lemma cnt_defined d : cnt (defined_words d) = (cnt [dv_ModuleName d] + cnt [dv_ValueName d])%nat.
  Proof. exact (cnt_app [_] [_]). Qed.
  Lemma cnt_one {A} (f : A -> list string) a : cnt (flat_map f [a]) = cnt (f a).
  Proof. cbn [flat_map]. now rewrite app_nil_r. Qed.

  Ltac counts :=
    repeat first [rewrite cnt_defined | rewrite cnt_one | rewrite cnt_app | rewrite flat_map_app | rewrite map_app | rewrite app_nil_r | rewrite cnt_cons_app | rewrite cnt_cons |
      rewrite cnt_empty | rewrite cnt_nil |
      match goal with |- context [cnt (?a :: ?b)] => lazymatch b with nil => fail | _ => rewrite (cnt_cons1 a b) end end].

  Ltac refold :=
    fold (type_words vw defined_words) (named_words vw defined_words) (component_words vw defined_words)
      (constraint_words vw defined_words) (elements_words vw defined_words) (intersection_words vw defined_words).

  Ltac open_words :=
    unfold words, module_words, mb_words, mi_words, gmr_words, sfm_words, nn_words, nb_words, et_words, tag_words, re_words, oe_words,
      SingleElementConstraint.

  Ltac one_rule :=
    let H := fresh in let F := fresh in let D := fresh in
    intros H F D; destruct H; try discriminate D; clear D; facts; repeat one_token;
    (split; [|first [exact I|reflexivity|discriminate|assumption]]);
    subst; cbn -[occurrences except_word]; refold; open_words;
    cbn -[occurrences type_words named_words component_words constraint_words elements_words intersection_words defined_words except_word];
    repeat match goal with [ N : ?e <> ENil |- _ ] => rewrite ?(excl_word e N); clear N end;
    change (except_word (@ENil (value DefinedValue) DefinedValue)) with (@nil string);
    counts; cbn [dv_ModuleName dv_ValueName];
    repeat match goal with [ N : oe_Name ?e = "" |- _ ] => rewrite N; clear N end; counts; lia.

  Lemma rules_count : Forall (fun p : Z * (nonterm -> list item -> sem -> Prop) => forall N its v cs,
    forgotten (fst p) = false -> snd p N its v -> Forall2 fact its cs -> dead N = false ->
    list_sum cs = cnt (sem_words v) /\ nameless N v) (tl numbered).
  Proof.
    unfold numbered. cbn [seq map combine rule_table Z.of_nat Pos.of_succ_nat Pos.succ tl].
    repeat (apply Forall_cons; [let G := fresh in cbn [fst snd]; intros ? ? ? ? G; first [discriminate G | clear G; one_rule]|]). constructor.
  Qed.

  Lemma tree_count T i : recalls T i -> fact i (cnt (text_words (leaves T))).
  Proof.
    revert T i. apply (recalls_rect (fun T i => fact i (cnt (text_words (leaves T))))).
    - intros t. cbn [leaves fact]. unfold text_words. cbn [flat_map]. now rewrite app_nil_r.
    - intros n N its v l R G _ IH D. cbn [leaves] in *.
      assert (F : exists cs, Forall2 fact its cs /\ list_sum cs = cnt (text_words (flat_map leaves l))).
      { clear R D. induction IH as [|T i l its P _ IHl]; [exists []; split; [constructor|reflexivity]|].
        destruct IHl as (cs & F & E). exists (cnt (text_words (leaves T)) :: cs). split; [constructor; auto|].
        cbn [flat_map list_sum fold_right]. unfold text_words in *. rewrite flat_map_app, cnt_app, <- E. reflexivity. }
      destruct F as (cs & F & E). rewrite <- E. destruct (rule_numbered n N its v R) as (Q & I & HQ & B). apply in_tail in I; [|lia].
      pose proof rules_count as C. rewrite Forall_forall in C. exact (C _ I N its v cs G HQ F D).
    - intros n N its v R G _. pose proof (forgotten_void n N its v R G) as V.
      destruct N; try contradiction V; cbn [void] in V; subst v; (split; [reflexivity|]); first [exact I | discriminate].
  Qed.
End Count.

(** The words of a module text outside of what is forgotten are those of its value. *)
Lemma module_count x T m : x <> "" -> yields T (Nt N_ModuleDefinition (S_module m)) ->
  occurrences x (text_words (outside T)) = occurrences x (words m).
Proof. intros Hx Y. exact (proj1 (tree_count x Hx _ _ (remembered_recalls T _ Y) eq_refl)). Qed.
