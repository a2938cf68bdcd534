(** The value ranges of a derivation tree are those of its value. *)
From Coq Require Import ZArith String List Bool Lia SpecFloat Permutation.
From Verif Require Import GoBase Tokens Tables Ast RealNum Grammar GrammarFacts AstInd ParserFacts ComponentFacts Words Forgotten ForgottenFacts WordsFacts Numbers NumbersFacts Ranges.
Import ListNotations.
Local Open Scope list_scope.
Local Open Scope Z_scope.

(** The ranges of a value of the grammar. *)
Definition sem_ranges (v : sem) : list range :=
  match v with
  | S_module x => module_ranges x
  | S_ModuleBody x => flat_map assignment_ranges (mb_AssignmentList x)
  | S_AssignmentList x => flat_map assignment_ranges x
  | S_Assignment x => assignment_ranges x
  | S_Type x => type_ranges x
  | S_NamedType x => named_ranges x
  | S_ComponentTypeLists x =>
      flat_map component_ranges (ctl_Components x) ++
      flat_map component_ranges (ctl_ExtensionAdditions x) ++
      flat_map component_ranges (ctl_TrailingComponents x)
  | S_ComponentTypeList x | S_ExtensionAdditions x => flat_map component_ranges x
  | S_ComponentType x => component_ranges x
  | S_ChoiceType x =>
      flat_map named_ranges (ct_AlternativeTypeList x) ++
      flat_map (fun o => match o with Some n => named_ranges n | None => [] end) (ct_ExtensionTypes x)
  | S_AlternativeTypeList x => flat_map named_ranges x
  | S_ExtensionAdditionAlternativesList x => flat_map (fun o => match o with Some n => named_ranges n | None => [] end) x
  | S_ExtensionAdditionAlternative x => match x with Some n => named_ranges n | None => [] end
  | S_Constraint x | S_ConstraintSpec x => constraint_ranges x
  | S_SubtypeConstraint x => flat_map elements_ranges x
  | S_ElementSetSpec x | S_Elements x | S_Exclusions x => elements_ranges x
  | S_Unions x => flat_map (flat_map intersection_ranges) x
  | S_Intersections x => flat_map intersection_ranges x
  | S_IntersectionElements x => intersection_ranges x
  | _ => []
  end.

(** ** Tokens with their surroundings *)

(** The ranges of [ts] between [before] and [after]. *)
Fixpoint between (before ts after : list token) : list range :=
  match ts with
  | [] => []
  | t :: ts' =>
      (if tk_kind t =? T_RANGE_SEPARATOR
       then [Range (end_word T_MIN before) (end_open before) (end_open (ts' ++ after)) (end_word T_MAX (ts' ++ after))]
       else []) ++ between (t :: before) ts' after
  end.

Lemma between_behind before ts : ranges_behind before ts = between before ts [].
Proof. revert before. induction ts as [|t ts IH]; intros before; [reflexivity|]. cbn [ranges_behind between]. now rewrite app_nil_r, IH. Qed.

Lemma between_app a : forall before b after,
  between before (a ++ b) after = between before a (b ++ after) ++ between (rev a ++ before) b after.
Proof.
  induction a as [|t a IH]; intros before b after; [reflexivity|]. cbn [app between rev]. rewrite IH, <- !app_assoc. reflexivity.
Qed.

(** Nonterminals of values: no MIN, MAX or "<" in their phrases. *)
Definition valueish (N : nonterm) : bool :=
  match N with
  | N_Value | N_BuiltinValue | N_BooleanValue | N_IntegerValue | N_ObjectIdentifierValue | N_RealValue | N_SignedNumber
  | N_identifier | N_ObjIdComponentsList | N_DefinedValue | N_NumericRealValue | N_SpecialRealValue | N_ObjIdComponents
  | N_modulereference | N_valuereference | N_realnumber | N_NameForm | N_NumberForm | N_NameAndNumberForm
  | N_SignedExponent => true
  | _ => false
  end.
Definition bound (k : Z) : bool := existsb (Z.eqb k) [T_LESS; T_MIN; T_MAX].
Definition is_nil {R} (v : value R) : bool := match v with VNil => true | _ => false end.

(** What the ends of a phrase say. *)
Definition ends (N : nonterm) (v : sem) (l : list token) : Prop :=
  (valueish N = true -> l <> [] /\ Forall (fun t => bound (tk_kind t) = false) l /\ (forall x, v = S_Value x -> is_nil x = false)) /\
  match N, v with
  | N_LowerEndValue, S_Value x => forall before,
      end_open (rev l ++ before) = false /\ (first_kind (rev l ++ before) =? T_MIN) = is_nil x
  | N_UpperEndValue, S_Value x => forall after,
      end_open (l ++ after) = false /\ (first_kind (l ++ after) =? T_MAX) = is_nil x
  | N_LowerEndpoint, S_RangeEndpoint x => forall before,
      end_open (rev l ++ before) = re_IsOpen x /\ end_word T_MIN (rev l ++ before) = IsUnspecified x
  | N_UpperEndpoint, S_RangeEndpoint x => forall after,
      end_open (l ++ after) = re_IsOpen x /\ end_word T_MAX (l ++ after) = IsUnspecified x
  | _, _ => True
  end.

Definition tree_ends (i : item) (l : list token) : Prop :=
  match i with
  | Tk t => l = [t]
  | Nt N v => ends N v l
  end.

Lemma bound_kind t k : tk_kind t = k -> bound (tk_kind t) = bound k.
Proof. now intros ->. Qed.

Lemma plain_last k l before : l <> [] -> Forall (fun t => bound (tk_kind t) = false) l -> bound k = true ->
  (first_kind (rev l ++ before) =? k) = false.
Proof.
  intros N F K. destruct (exists_last N) as (l' & t & ->). rewrite rev_app_distr. cbn [rev app first_kind].
  apply Forall_app in F as [_ F]. inversion_clear F as [|? ? B _]. apply Z.eqb_neq. intros <-. congruence.
Qed.
Lemma plain_first k l after : l <> [] -> Forall (fun t => bound (tk_kind t) = false) l -> bound k = true ->
  (first_kind (l ++ after) =? k) = false.
Proof.
  intros N F K. destruct l as [|t l]; [now destruct N|]. inversion_clear F as [|? ? B _]. cbn [app first_kind].
  apply Z.eqb_neq. intros <-. congruence.
Qed.

Ltac items :=
  repeat match goal with
  | [ F : Forall2 _ [] _ |- _ ] => inversion_clear F
  | [ F : Forall2 _ (_ :: _) _ |- _ ] => inversion_clear F
  end.

(** Values: from the tokens, or from the parts. *)
Ltac of_value :=
  repeat match goal with [ F : ends _ _ _ |- _ ] => apply proj1 in F; specialize (F eq_refl) as (? & ? & ?) end;
  split; [intros _|exact I]; split; [|split];
  [first [discriminate | match goal with [ H : ?l <> [] |- _ ] => destruct l; [now destruct H|discriminate] end]
  |repeat first [assumption | apply Forall_nil | apply Forall_app; split |
     apply Forall_cons; [match goal with [ K : tk_kind ?t = _ |- bound (tk_kind ?t) = _ ] => rewrite K; reflexivity end|]]
  |intros ? E; first [discriminate E | injection E as <-; first [reflexivity | auto]]].

Ltac part := match goal with [ F : ends _ _ _ |- _ ] => destruct F as [V E] end.
Ltac kinds := match goal with [ K : tk_kind ?t = _ |- context [tk_kind ?t] ] => rewrite K end.

Lemma ends_table : Forall (fun R : nonterm -> list item -> sem -> Prop => forall N its v ls,
  R N its v -> Forall2 tree_ends its ls -> ends N v (concat ls)) rule_table.
Proof.
  unfold rule_table. apply Forall_cons; [contradiction|].
  repeat (apply Forall_cons; [
    let N := fresh in let its := fresh in let v := fresh in let ls := fresh in let H := fresh in let F := fresh in
    intros N its v ls H F; destruct H; first [split; [discriminate|exact I] | items; cbn [tree_ends] in *; subst; cbn [concat app]; rewrite ?app_nil_r;
    first [of_value | idtac]]|]); try apply Forall_nil.
  - split; [discriminate|]. part. intros before. destruct (E before) as [A B]. unfold end_word. rewrite A. auto.
  - split; [discriminate|]. part. intros before. destruct (E before) as [A B]. rewrite rev_app_distr.
    assert (X : end_open ([t2] ++ rev y ++ before) = true) by (unfold end_open; cbn [app first_kind]; now kinds).
    cbn [rev app] in *. unfold end_word. rewrite X. auto.
  - split; [discriminate|]. part. intros after. destruct (E after) as [A B]. unfold end_word. rewrite A. auto.
  - split; [discriminate|]. part. intros after. destruct (E after) as [A B].
    assert (X : end_open (t1 :: y0 ++ after) = true) by (unfold end_open; cbn [app first_kind]; now kinds).
    cbn [app] in *. unfold end_word. rewrite X. auto.
  - split; [discriminate|]. part. destruct (V eq_refl) as (A & B & C). intros before. unfold end_open.
    rewrite !plain_last by (auto; reflexivity). rewrite (C v1 eq_refl). auto.
  - split; [discriminate|]. intros before. cbn [rev app]. unfold end_open. cbn [first_kind]. kinds. auto.
  - split; [discriminate|]. part. destruct (V eq_refl) as (A & B & C). intros before. unfold end_open.
    rewrite !plain_first by (auto; reflexivity). rewrite (C v1 eq_refl). auto.
  - split; [discriminate|]. intros before. cbn [rev app]. unfold end_open. cbn [first_kind]. kinds. auto.
Qed.

Lemma tree_ends_of T i : yields T i -> tree_ends i (leaves T).
Proof.
  revert T i. apply (yields_rect (fun T i => tree_ends i (leaves T))); [reflexivity|].
  intros n N its v l R _ IH. cbn [leaves tree_ends]. rewrite flat_map_concat_map.
  destruct (rule_numbered n N its v R) as (Q & I & HQ & _).
  pose proof ends_table as C. rewrite Forall_forall in C. apply in_combine_r in I. apply (C Q I N its v _ HQ).
  clear -IH. induction IH; constructor; auto.
Qed.

Lemma recalls_ends T i : recalls T i -> tree_ends i (leaves T).
Proof.
  revert T i. apply (recalls_rect (fun T i => tree_ends i (leaves T))); [reflexivity| |].
  - intros n N its v l R _ _ IH. cbn [leaves tree_ends]. rewrite flat_map_concat_map.
    destruct (rule_numbered n N its v R) as (Q & I & HQ & _).
    pose proof ends_table as C. rewrite Forall_forall in C. apply in_combine_r in I. apply (C Q I N its v _ HQ).
    clear -IH. induction IH; constructor; auto.
  - intros n N its v R G. pose proof (forgotten_void n N its v R G) as V.
    destruct N; try contradiction V; cbn [void] in V; subst v; (split; [discriminate|exact I]).
Qed.

(** ** How often a range occurs *)

Section Count.
  Context (r : range) (clean : bool).
  Notation cnt l := (count_occ range_dec l r).
  Notation sr := sem_ranges.

  (** What is known of a symbol of a right side with the text [l]: all its ranges are in
      the text; without what is forgotten, as often as in the text. *)
  Definition rfact (i : item) (l : list token) : Prop :=
    tree_ends i l /\
    match i with
    | Tk t => True
    | Nt N v => forall before after, (cnt (sr v) <= cnt (between before l after))%nat /\
        (clean = true -> ndead N = false -> cnt (between before l after) = cnt (sr v))
    end.

  Lemma between_one before t after k : tk_kind t = k -> (k =? T_RANGE_SEPARATOR) = false -> between before [t] after = [].
  Proof. intros <- E. cbn [between]. now rewrite E. Qed.
  Lemma between_range before t after : tk_kind t = T_RANGE_SEPARATOR ->
    between before [t] after = [Range (end_word T_MIN before) (end_open before) (end_open after) (end_word T_MAX after)].
  Proof. intros K. cbn [between]. now rewrite K. Qed.

  Lemma cnt_app a b : cnt (a ++ b) = (cnt a + cnt b)%nat.
  Proof. apply count_occ_app. Qed.

  Ltac refold :=
    fold (@type_ranges (value DefinedValue) DefinedValue) (@named_ranges (value DefinedValue) DefinedValue)
      (@component_ranges (value DefinedValue) DefinedValue) (@constraint_ranges (value DefinedValue) DefinedValue)
      (@elements_ranges (value DefinedValue) DefinedValue) (@intersection_ranges (value DefinedValue) DefinedValue).
  Ltac lists := repeat first [rewrite flat_map_app | rewrite flat_one | rewrite app_nil_r].
  Ltac tokens :=
    repeat match goal with
    | [ F : rfact (Tk ?t) ?l |- _ ] => destruct F as [F ?]; cbn [tree_ends] in F; subst l
    | [ F : rfact (Nt _ _) _ |- _ ] => destruct F as [_ F]
    end.
  Ltac texts :=
    repeat match goal with
    | [ F : forall b a, (_ <= cnt (between b ?l a))%nat /\ _ |- context [between ?b ?l ?a] ] =>
        specialize (F b a); revert F; generalize (cnt (between b l a)); intros ? [? F]
    end.
  Ltac one_rule :=
    intros N its v ls Cl H F before after; cbn [fst snd] in *; destruct H; items; tokens; cbn [concat]; rewrite ?app_nil_r; rewrite ?between_app;
    repeat match goal with [ K : tk_kind ?t = ?k |- context [between ?b [?t] ?a] ] => rewrite (between_one b t a k K eq_refl) end;
    cbn [between]; rewrite ?cnt_app; texts; cbn [sem_ranges ndead dead] in *; cbn -[count_occ between]; refold; lists;
    unfold module_ranges, SingleElementConstraint; cbn -[count_occ between type_ranges named_ranges component_ranges constraint_ranges elements_ranges intersection_ranges]; refold; lists; rewrite ?cnt_app in *; cbn [count_occ];
    split; [lia|]; intros Clean D; specialize (Cl Clean);
    first [discriminate D | discriminate Cl |
      repeat match goal with
      | [ F : clean = true -> _ |- _ ] => specialize (F Clean); try specialize (F eq_refl)
      end; cbn [count_occ] in *; lia].

  Lemma rules_ranges : Forall (fun p : Z * (nonterm -> list item -> sem -> Prop) => forall N its v ls,
    (clean = true -> forgotten (fst p) = false) -> snd p N its v -> Forall2 rfact its ls -> forall before after,
    (cnt (sr v) <= cnt (between before (concat ls) after))%nat /\
    (clean = true -> ndead N = false -> cnt (between before (concat ls) after) = cnt (sr v))) (tl numbered).
  Proof.
    unfold numbered. cbn [seq map combine rule_table Z.of_nat Pos.of_succ_nat Pos.succ tl].
    repeat (apply Forall_cons; [first [solve [one_rule] | idtac]|]); try apply Forall_nil.
    (* ValueRange *)
    intros N its v ls _ H F before after. cbn [snd] in H. destruct H as [v1 t2 v3 K].
    inversion_clear F as [|? y ? l1 X1 G]. inversion_clear G as [|? y0 ? l2 X2 G']. inversion_clear G' as [|? y1 ? l3 X3 G].
    inversion_clear G. destruct X1 as [[_ E1] F1], X2 as [E2 F2], X3 as [[_ E3] F3]. cbn [tree_ends] in E2. subst y0. cbn [concat]. rewrite app_nil_r, !between_app.
    rewrite (between_range _ _ _ K). cbn [ends] in E1, E3. destruct (E1 before) as [-> ->], (E3 after) as [-> ->].
    rewrite !cnt_app. destruct (F1 before (([t2] ++ y1) ++ after)) as [_ G1], (F3 (rev [t2] ++ rev y ++ before) after) as [_ G3].
    cbn [sem_ranges elements_ranges count_occ] in *. split; [lia|]. intros Clean _. rewrite (G1 Clean eq_refl), (G3 Clean eq_refl). lia.
  Qed.

  Lemma tree_ranges T i : yields T i -> clean = false -> rfact i (leaves T).
  Proof.
    intros Y Cl. revert T i Y. apply (yields_rect (fun T i => rfact i (leaves T))).
    - intros t. split; [reflexivity|exact I].
    - intros n N its v l R Y IH. split.
      + exact (tree_ends_of (Node n l) (Nt N v) (ltac:(econstructor; eassumption))).
      + cbn [leaves] in *. rewrite flat_map_concat_map.
        destruct (rule_numbered n N its v R) as (Q & I & HQ & B). apply in_tail in I; [|lia].
        pose proof rules_ranges as C. rewrite Forall_forall in C. apply (C (n, Q) I N its v); [congruence|exact HQ|].
        clear -IH. induction IH; constructor; auto.
  Qed.

  Lemma recalls_ranges T i : recalls T i -> rfact i (leaves T).
  Proof.
    revert T i. apply (recalls_rect (fun T i => rfact i (leaves T))).
    - intros t. split; [reflexivity|exact I].
    - intros n N its v l R G Y IH. split.
      + exact (recalls_ends (Node n l) (Nt N v) (recalls_node n N its v l R G Y)).
      + cbn [leaves] in *. rewrite flat_map_concat_map.
        destruct (rule_numbered n N its v R) as (Q & I & HQ & B). apply in_tail in I; [|lia].
        pose proof rules_ranges as C. rewrite Forall_forall in C. apply (C (n, Q) I N its v); [auto|exact HQ|].
        clear -IH. induction IH; constructor; auto.
    - intros n N its v R G. split; [exact (recalls_ends (Node n []) (Nt N v) (recalls_nothing n N its v R G))|].
      pose proof (forgotten_void n N its v R G) as V.
      destruct N; try contradiction V; cbn [void] in V; subst v; split; auto.
  Qed.
End Count.

(** The ranges of a module are in its text. *)
Lemma module_ranges_from ts m r : derives N_ModuleDefinition ts (S_module m) ->
  (count_occ range_dec (module_ranges m) r <= count_occ range_dec (text_ranges ts) r)%nat.
Proof.
  intros (T & Y & <-). destruct (tree_ranges r false T _ Y eq_refl) as [_ F].
  unfold text_ranges. rewrite between_behind. exact (proj1 (F [] [])).
Qed.

(** Nothing is lost outside of what is forgotten. *)
Lemma module_ranges_all T m : yields T (Nt N_ModuleDefinition (S_module m)) ->
  Permutation (text_ranges (outside T)) (module_ranges m).
Proof.
  intros Y. apply (Permutation_count_occ range_dec). intros r.
  destruct (recalls_ranges r true _ _ (remembered_recalls T _ Y)) as [_ F].
  unfold text_ranges. rewrite between_behind. exact (proj2 (F [] []) eq_refl eq_refl).
Qed.

(** Ranges do not depend on what pointers point to. *)
Section Map.
  Context {P R P' R' : Type} (f : P -> P') (g : R -> R').

  Lemma unspecified_map e : IsUnspecified (re_map g e) = IsUnspecified e.
  Proof. destruct e as [v o]. unfold IsUnspecified. cbn. now destruct v. Qed.

  Lemma ranges_cases : @cases P R
    (fun t => type_ranges (tmap f g t) = type_ranges t)
    (fun n => named_ranges (nmap f g n) = named_ranges n)
    (fun c => component_ranges (cmap f g c) = component_ranges c)
    (fun c => constraint_ranges (csmap f g c) = constraint_ranges c)
    (fun e => elements_ranges (emap f g e) = elements_ranges e)
    (fun i => intersection_ranges (imap f g i) = intersection_ranges i).
  Proof.
    constructor; try reflexivity.
    - intros n H. exact H.
    - intros a e A B. cbn. rewrite !flat_map_map. f_equal; apply flat_map_same; [assumption|].
      eapply Forall_impl; [|exact B]. intros [n|]; [cbn; auto|reflexivity].
    - intros c e A B. cbn. rewrite !flat_map_map. f_equal; apply flat_map_same; assumption.
    - intros c e A B. cbn. rewrite !flat_map_map. f_equal; apply flat_map_same; assumption.
    - intros tg t z b H. exact H.
    - intros t H. exact H.
    - intros t H. exact H.
    - intros t c A B. cbn. f_equal; assumption.
    - intros s t H. exact H.
    - intros n o d H. exact H.
    - intros t H. exact H.
    - intros l A. cbn. rewrite flat_map_map. apply flat_map_same; assumption.
    - intros l A. cbn. rewrite flat_map_map. apply flat_map_same. eapply Forall_impl; [|exact A].
      intros k B. rewrite flat_map_map. apply flat_map_same; assumption.
    - intros e H. exact H.
    - intros a b. cbn [emap elements_ranges]. now rewrite !unspecified_map.
    - intros t H. exact H.
    - intros c H. exact H.
    - intros e x A B. cbn. f_equal; assumption.
  Qed.

  Lemma module_ranges_map m : module_ranges (md_map f g m) = module_ranges m.
  Proof.
    destruct m as [i t e [l s]]. unfold module_ranges. cbn [md_map mb_map md_ModuleBody mb_AssignmentList].
    rewrite !flat_map_map. apply flat_map_same; apply Forall_forall.
    intros [|n a|n a v] _; [reflexivity| |]; cbn; apply (type_ind2 _ _ _ _ _ _ ranges_cases).
  Qed.
End Map.

Lemma shape_ranges (m m' : Module_) : shape m = shape m' -> module_ranges m = module_ranges m'.
Proof.
  intros E. rewrite <- (module_ranges_map (fun _ => tt) (fun _ => tt) m), <- (module_ranges_map (fun _ => tt) (fun _ => tt) m').
  unfold shape in E. now rewrite E.
Qed.
