(** The lists in braces of a derivation tree are those of its value. *)
From Coq Require Import ZArith String List Bool Arith Lia SpecFloat Permutation.
From Verif Require Import GoBase Tokens Tables Ast RealNum AstInd ParserFacts ComponentFacts Words Forgotten WordsFacts Numbers NumbersFacts NumeralFacts ItemLists.
From Verif Require Import Grammar GrammarFacts ForgottenFacts.
Import ListNotations.
Local Open Scope string_scope.
Local Open Scope list_scope.
Local Open Scope Z_scope.

(** The lists of a value of the grammar. *)
Definition sem_lists (v : sem) : list listing :=
  match v with
  | S_module x => module_lists x
  | S_ModuleBody x => flat_map assignment_lists (mb_AssignmentList x)
  | S_AssignmentList x => flat_map assignment_lists x
  | S_Assignment x => assignment_lists x
  | S_Type x => type_lists x
  | S_NamedType x => named_lists x
  | S_ComponentTypeLists x =>
      flat_map component_lists (ctl_Components x) ++
      flat_map component_lists (ctl_ExtensionAdditions x) ++
      flat_map component_lists (ctl_TrailingComponents x)
  | S_ComponentTypeList x | S_ExtensionAdditions x => flat_map component_lists x
  | S_ComponentType x => component_lists x
  | S_ChoiceType x =>
      flat_map named_lists (ct_AlternativeTypeList x) ++
      flat_map (fun o => match o with Some n => named_lists n | None => [] end) (ct_ExtensionTypes x)
  | S_AlternativeTypeList x => flat_map named_lists x
  | S_ExtensionAdditionAlternativesList x => flat_map (fun o => match o with Some n => named_lists n | None => [] end) x
  | S_ExtensionAdditionAlternative x => match x with Some n => named_lists n | None => [] end
  | S_Constraint x | S_ConstraintSpec x => constraint_lists x
  | S_SubtypeConstraint x => flat_map elements_lists x
  | S_ElementSetSpec x | S_Elements x | S_Exclusions x => elements_lists x
  | S_Unions x => flat_map (flat_map intersection_lists) x
  | S_Intersections x => flat_map intersection_lists x
  | S_IntersectionElements x => intersection_lists x
  | _ => []
  end.

(** ** Items between commas *)

Lemma between_some l : between_commas l <> [].
Proof. destruct l as [|t l]; cbn [between_commas]; [discriminate|]. destruct (tk_kind t =? T_COMMA); [discriminate|]. destruct (between_commas l); discriminate. Qed.

Lemma between_app a t b : tk_kind t = T_COMMA -> between_commas (a ++ t :: b) = between_commas a ++ between_commas b.
Proof.
  intros K. induction a as [|x a IH]; cbn [app between_commas]; [now rewrite K|].
  destruct (tk_kind x =? T_COMMA); [now rewrite IH|]. rewrite IH. pose proof (between_some a) as E.
  destruct (between_commas a) as [|c cs]; [now destruct E|reflexivity].
Qed.

Lemma read_items_app a t b : tk_kind t = T_COMMA -> read_items (a ++ t :: b) = read_items a ++ read_items b.
Proof. intros K. unfold read_items. now rewrite between_app, flat_map_app. Qed.

Definition solid (l : list token) : Prop := Forall (fun t => (tk_kind t =? T_COMMA) = false /\ (tk_kind t =? T_ELLIPSIS) = false) l.
Definition firm (l : list token) : Prop := Forall (fun t => (tk_kind t =? T_ELLIPSIS) = false) l.

Lemma solid_firm l : solid l -> firm l.
Proof. apply Forall_impl. intros t [_ E]. exact E. Qed.

Lemma solid_item l : solid l -> read_items l = read_item l.
Proof.
  intros F. unfold read_items. replace (between_commas l) with [l]; [cbn [flat_map]; apply app_nil_r|].
  induction F as [|t l [E _] _ IH]; [reflexivity|]. cbn [between_commas]. now rewrite E, <- IH.
Qed.

Lemma before_firm l : firm l -> before_ellipsis l = l.
Proof. induction 1 as [|t l E _ IH]; [reflexivity|]. cbn [before_ellipsis]. now rewrite E, IH. Qed.
Lemma after_firm l : firm l -> after_ellipsis l = [].
Proof. induction 1 as [|t l E _ IH]; [reflexivity|]. cbn [after_ellipsis]. now rewrite E, IH. Qed.
Lemma before_cut l t r : firm l -> tk_kind t = T_ELLIPSIS -> before_ellipsis (l ++ t :: r) = l.
Proof. intros F K. induction F as [|x l E _ IH]; cbn [app before_ellipsis]; [now rewrite K|]. now rewrite E, IH. Qed.
Lemma after_cut l t r : firm l -> tk_kind t = T_ELLIPSIS -> after_ellipsis (l ++ t :: r) = r.
Proof. intros F K. induction F as [|x l E _ IH]; cbn [app after_ellipsis]; [now rewrite K|]. now rewrite E, IH. Qed.

(** ** What phrases say *)

Definition single (k : Z) (T : tree) (Q : token -> Prop) : Prop := exists t, leaves T = [t] /\ tk_kind t = k /\ Q t.
Definition is_item (T : tree) (i : string * label) : Prop := solid (leaves T) /\ read_item (leaves T) = [i].
Definition are_items (T : tree) (l : list (string * label)) : Prop := firm (leaves T) /\ read_items (leaves T) = l /\ l <> [].
Definition no_alternatives (T : tree) : Prop := root_names T = [] /\ added_names T = [].

Definition says (N : nonterm) (v : sem) (T : tree) : Prop :=
  match N, v with
  | N_identifier, S_name s => single T_VALUEIDENTIFIER T (fun t => tk_name t = s)
  | N_modulereference, S_name s => single T_TYPEORMODULEREFERENCE T (fun t => tk_name t = s)
  | N_valuereference, S_ValueReference s => single T_VALUEIDENTIFIER T (fun t => tk_name t = s)
  | N_number, S_Number n => single T_NUMBER T (fun t => tk_number t = n)
  | N_SignedNumber, S_Number n => single T_NUMBER T (fun t => tk_number t = n) \/
      exists m t, leaves T = [m; t] /\ tk_kind m = T_MINUS /\ tk_kind t = T_NUMBER /\ - tk_number t = n
  | N_DefinedValue, S_DefinedValue d =>
      single T_VALUEIDENTIFIER T (fun t => {| dv_ModuleName := ""; dv_ValueName := tk_name t |} = d) \/
      exists q o t, leaves T = [q; o; t] /\ tk_kind q = T_TYPEORMODULEREFERENCE /\ tk_kind o = T_DOT /\ tk_kind t = T_VALUEIDENTIFIER /\
        {| dv_ModuleName := tk_name q; dv_ValueName := tk_name t |} = d
  | N_NamedNumber, S_NamedNumber x => is_item T (number_item x)
  | N_NamedBit, S_NamedBit x => is_item T (bit_item x)
  | N_EnumerationItem, S_EnumerationItem x => is_item T (enumeration_item x)
  | N_NamedNumberList, S_NamedNumberList x => are_items T (map number_item x)
  | N_NamedBitList, S_NamedBitList x => are_items T (map bit_item x)
  | N_Enumeration, S_Enumeration x | N_RootEnumeration, S_Enumeration x
  | N_AdditionalEnumeration, S_Enumeration x => are_items T (map enumeration_item x)
  | N_Enumerations, S_EnumeratedType e =>
      read_items (before_ellipsis (leaves T)) = map enumeration_item (et_RootEnumeration e) /\
      read_items (after_ellipsis (leaves T)) = map enumeration_item (et_AdditionalEnumeration e)
  | N_ExceptionSpec, _ => leaves T = [] /\ no_alternatives T
  | N_OptionalExtensionMarker, _ | N_ExtensionAndException, _ => no_alternatives T
  | N_NamedType, S_NamedType x => root_names T = [alternative_item x] /\ added_names T = [] /\ all_names T = [alternative_item x]
  | N_AlternativeTypeList, S_AlternativeTypeList x | N_RootAlternativeTypeList, S_AlternativeTypeList x =>
      root_names T = map alternative_item x /\ added_names T = []
  | N_ExtensionAdditionAlternative, S_ExtensionAdditionAlternative x => all_names T = added_item x
  | N_ExtensionAdditionAlternativesList, S_ExtensionAdditionAlternativesList x => all_names T = flat_map added_item x
  | N_ExtensionAdditionAlternatives, S_ExtensionAdditionAlternativesList x =>
      root_names T = [] /\ added_names T = flat_map added_item x
  | N_AlternativeTypeLists, S_ChoiceType x =>
      root_names T = map alternative_item (ct_AlternativeTypeList x) /\ added_names T = flat_map added_item (ct_ExtensionTypes x)
  | _, _ => True
  end.

Definition tree_says (i : item) (T : tree) : Prop :=
  match i with
  | Tk t => T = Leaf t /\ clean t
  | Nt N v => says N v T
  end.

Ltac items :=
  repeat match goal with
  | [ F : Forall2 _ [] _ |- _ ] => inversion_clear F
  | [ F : Forall2 _ (_ :: _) _ |- _ ] => inversion_clear F
  | [ F : tree_says (Tk _) ?T |- _ ] => let C := fresh "Cl" in cbn [tree_says] in F; destruct F as [-> C]
  | [ F : tree_says (Nt _ _) _ |- _ ] => cbn [tree_says] in F
  end.

Ltac singles :=
  unfold single in *;
  repeat match goal with
  | [ F : _ \/ _ |- _ ] => destruct F
  | [ F : ex _ |- _ ] => let x := fresh "x" in destruct F as [x F]
  | [ F : _ /\ _ |- _ ] => let A := fresh "E" in destruct F as [A F]
  end.
Ltac leaf_list :=
  cbn [leaves flat_map app]; rewrite ?app_nil_r; repeat match goal with [ E : leaves ?y = _ |- context [leaves ?y] ] => rewrite E end; cbn [app].
Ltac hard := repeat (apply Forall_cons; [match goal with [ K : tk_kind ?t = _ |- context [tk_kind ?t] ] => rewrite K end; first [split; reflexivity|reflexivity]|]); apply Forall_nil.
Ltac an_item :=
  singles; unfold is_item; leaf_list; (split; [hard|]);
  unfold read_item, number_item, bit_item, enumeration_item; cbn [nn_Name nn_Value nb_Name nb_Index];
  repeat match goal with [ K : tk_kind ?t = _ |- context [tk_kind ?t] ] => rewrite K end;
  cbn [Z.eqb Pos.eqb T_NUMBER T_VALUEIDENTIFIER]; congruence.
Ltac names_of :=
  unfold no_alternatives in *; singles; cbn [root_names added_names all_names Z.eqb Pos.eqb flat_map app ct_AlternativeTypeList ct_ExtensionTypes];
  repeat match goal with
  | [ E : root_names _ = _ |- _ ] => rewrite E; clear E
  | [ E : added_names _ = _ |- _ ] => rewrite E; clear E
  | [ E : all_names _ = _ |- _ ] => rewrite E; clear E
  end;
  rewrite ?flat_map_app, ?map_app; cbn [flat_map map app]; rewrite ?app_nil_r; auto.

Ltac destruct_items :=
  repeat match goal with
  | [ F : are_items _ _ |- _ ] => let A := fresh "F" in let B := fresh "R" in destruct F as (A & B & _)
  | [ F : leaves _ = [] /\ _ |- _ ] => let A := fresh "L" in destruct F as [A _]
  end.

Lemma item_list T x : is_item T x -> are_items T [x].
Proof. intros [A B]. split; [now apply solid_firm|]. split; [|discriminate]. now rewrite solid_item. Qed.

Lemma are_same T T' l : leaves T' = leaves T -> are_items T l -> are_items T' l.
Proof. intros E. unfold are_items. now rewrite E. Qed.

Lemma are_app T A t B l k : leaves T = leaves A ++ t :: leaves B -> tk_kind t = T_COMMA ->
  are_items A l -> are_items B k -> are_items T (l ++ k).
Proof.
  intros E K (F1 & R1 & N1) (F2 & R2 & N2). unfold are_items. rewrite E. split; [|split].
  - apply Forall_app. split; [exact F1|]. constructor; [now rewrite K|exact F2].
  - rewrite read_items_app by exact K. congruence.
  - destruct l; [now destruct N1|discriminate].
Qed.

Lemma says_table : Forall (fun p : Z * (nonterm -> list item -> sem -> Prop) => forall N its v l,
  forgotten (fst p) = false -> snd p N its v -> Forall2 tree_says its l -> says N v (Node (fst p) l)) (tl numbered).
Proof.
  unfold numbered. cbn [seq map combine rule_table Z.of_nat Pos.of_succ_nat Pos.succ tl].
  repeat (apply Forall_cons; [
    let N := fresh in let its := fresh in let v := fresh in let ls := fresh in let H := fresh in let F := fresh in let G := fresh in
    intros N its v ls G H F; cbn [fst snd] in *; first [discriminate G | clear G]; destruct H; first [exact I | items; cbn [says] in *;
    try solve [eexists; repeat split; eassumption | an_item | names_of | rewrite ?map_app; cbn [map app];
      first [eapply are_app; [leaf_list; reflexivity|eassumption| |]; auto using item_list
            |eapply are_same; [leaf_list; reflexivity|auto using item_list]]]]|]); try apply Forall_nil.
  - right. singles. eexists _, _, _. leaf_list. repeat split; try eassumption. congruence.
  - left. singles. eexists. leaf_list. repeat split; try eassumption. congruence.
  - singles. cbn [root_names added_names all_names Z.eqb Pos.eqb alternative_item]. unfold first_name. leaf_list. repeat split; congruence.
  - left. eexists. repeat split; eassumption.
  - right. eexists _, _. repeat split; try eassumption. now rewrite clean_wrap.
  - destruct_items. leaf_list. rewrite before_firm, after_firm by assumption. auto.
  - destruct_items. leaf_list. match goal with |- context [?a ++ t2 :: t3 :: ?r] => replace (a ++ t2 :: t3 :: r) with ((a ++ [t2]) ++ t3 :: r) by (rewrite <- app_assoc; reflexivity) end.
    rewrite before_cut, after_cut by
      first [assumption | apply Forall_app; split; [assumption|hard]].
    rewrite read_items_app by assumption. cbn. rewrite app_nil_r. auto.
  - destruct_items. leaf_list. match goal with |- context [?a ++ t2 :: t3 :: ?r] => replace (a ++ t2 :: t3 :: r) with ((a ++ [t2]) ++ t3 :: r) by (rewrite <- app_assoc; reflexivity) end.
    rewrite before_cut, after_cut by
      first [assumption | apply Forall_app; split; [assumption|hard]].
    rewrite read_items_app by assumption. match goal with |- context [t5 :: ?r] => pose proof (read_items_app [] t5 r) as E5 end. cbn [app] in E5. rewrite E5 by assumption.
    cbn. rewrite app_nil_r. auto.
  - apply (are_app _ y t2 y1 [enumeration_item v1]); [leaf_list; reflexivity|assumption|now apply item_list|assumption].
  - unfold is_item in *. leaf_list. assumption.
Qed.

Lemma forgotten_none n : forgotten n = true -> node_list n [] = [] /\ no_alternatives (Node n []).
Proof.
  intros G. unfold node_list, no_alternatives. cbn [root_names added_names flat_map].
  destruct (Z.eqb_spec n 87) as [->|_]; [discriminate G|]. destruct (Z.eqb_spec n 96) as [->|_]; [discriminate G|].
  destruct (Z.eqb_spec n 120) as [->|_]; [discriminate G|]. destruct (Z.eqb_spec n 161) as [->|_]; [discriminate G|].
  destruct (Z.eqb_spec n 77) as [->|_]; [discriminate G|]. destruct (Z.eqb_spec n 166) as [->|_]; [discriminate G|]. auto.
Qed.

Lemma recalls_says T i : recalls T i -> Forall clean (leaves T) -> tree_says i T.
Proof.
  revert T i. apply (recalls_rect (fun T i => Forall clean (leaves T) -> tree_says i T)).
  - intros t H. inversion_clear H as [|? ? H2 _]. split; [reflexivity|exact H2].
  - intros n N its v l R G _ IH H. cbn [leaves] in *.
    assert (F : Forall2 tree_says its l).
    { clear R. induction IH as [|T i l its P _ IHl]; constructor; cbn [flat_map] in H; apply Forall_app in H as [A B]; auto. }
    destruct (rule_numbered n N its v R) as (Q & I & HQ & B). apply in_tail in I; [|lia].
    pose proof says_table as C. rewrite Forall_forall in C. exact (C (n, Q) I N its v _ G HQ F).
  - intros n N its v R G _. pose proof (forgotten_void n N its v R G) as V. pose proof (proj2 (forgotten_none n G)) as O.
    destruct N; try contradiction V; cbn [void] in V; subst v; cbn [tree_says says]; try exact I; auto.
Qed.

(** ** How often a list occurs *)

Section Count.
  Context (x : listing).
  Notation cnt l := (count_occ listing_dec l x).

  (** What is known of a symbol of a right side with the tree [T]. *)
  Definition lfact (i : item) (T : tree) : Prop :=
    tree_says i T /\
    match i with
    | Tk t => True
    | Nt N v => dead N = false -> cnt (written_lists T) = cnt (sem_lists v)
    end.

  Lemma lcnt_app a b : cnt (a ++ b) = (cnt a + cnt b)%nat.
  Proof. apply count_occ_app. Qed.
  Lemma lcnt_cons a b : cnt (a :: b) = (cnt [a] + cnt b)%nat.
  Proof. exact (lcnt_app [a] b). Qed.
  Lemma lcnt_nil : cnt [] = 0%nat.
  Proof. reflexivity. Qed.
  Lemma lcnt_one {A} (f : A -> list listing) a : cnt (flat_map f [a]) = cnt (f a).
  Proof. cbn [flat_map]. now rewrite app_nil_r. Qed.
  Lemma lists_node n l : written_lists (Node n l) = node_list n l ++ flat_map written_lists l.
  Proof. reflexivity. Qed.
  Lemma lists_leaf t : written_lists (Leaf t) = [].
  Proof. reflexivity. Qed.

  Ltac refold :=
    fold (@type_lists (value DefinedValue) DefinedValue) (@named_lists (value DefinedValue) DefinedValue)
      (@component_lists (value DefinedValue) DefinedValue) (@constraint_lists (value DefinedValue) DefinedValue)
      (@elements_lists (value DefinedValue) DefinedValue) (@intersection_lists (value DefinedValue) DefinedValue).
  Ltac lcounts :=
    repeat first [rewrite lcnt_one | rewrite lcnt_app | rewrite flat_map_app | rewrite app_nil_r | rewrite lcnt_nil |
      match goal with |- context [cnt (?a :: ?b)] => lazymatch b with nil => fail | _ => rewrite (lcnt_cons a b) end end].
  Ltac parts :=
    repeat match goal with
    | [ F : Forall2 _ [] _ |- _ ] => inversion_clear F
    | [ F : Forall2 _ (_ :: _) _ |- _ ] => inversion_clear F
    | [ F : lfact (Tk ?t) ?l |- _ ] => destruct F as [[-> _] _]
    | [ F : lfact (Nt _ _) _ |- _ ] => let Sy := fresh "Sy" in destruct F as [Sy F]
    | [ F : dead _ = false -> _ |- _ ] => cbn [dead] in F
    | [ F : false = false -> _ |- _ ] => specialize (F eq_refl)
    | [ F : true = false -> _ |- _ ] => clear F
    end.
  Ltac lrule :=
    let N := fresh in let its := fresh in let v := fresh in let l := fresh in let G := fresh in let H := fresh in let F := fresh in
    intros N its v l G H F; cbn [fst snd] in *; first [discriminate G | clear G]; destruct H; cbn [dead]; first [discriminate | intros _]; parts;
    rewrite lists_node; cbn [node_list Z.eqb Pos.eqb app flat_map]; rewrite ?lists_leaf; lcounts;
    repeat match goal with [ H : cnt (written_lists _) = _ |- _ ] => rewrite H; clear H end;
    cbn -[count_occ written_lists]; refold; unfold module_lists, SingleElementConstraint;
    cbn -[count_occ type_lists named_lists component_lists constraint_lists elements_lists intersection_lists written_lists];
    lcounts; try lia.

  Lemma inside_braces (l : list token) c : removelast (l ++ [c]) = l.
  Proof. apply removelast_last. Qed.
  Lemma read_braces w a b c T : read_list w 2 (flat_map leaves [Leaf a; Leaf b; T; Leaf c]) =
    Listing w (read_items (before_ellipsis (leaves T))) (read_items (after_ellipsis (leaves T))).
  Proof. unfold read_list. cbn [flat_map leaves app skipn]. now rewrite inside_braces. Qed.
  Lemma read_bits w a b d c T : read_list w 3 (flat_map leaves [Leaf a; Leaf b; Leaf d; T; Leaf c]) =
    Listing w (read_items (before_ellipsis (leaves T))) (read_items (after_ellipsis (leaves T))).
  Proof. unfold read_list. cbn [flat_map leaves app skipn]. now rewrite inside_braces. Qed.

  Ltac braces :=
    let N := fresh in let its := fresh in let v := fresh in let l := fresh in let H := fresh in let F := fresh in
    intros N its v l _ H F; cbn [snd] in H; destruct H; intros _; parts; rewrite lists_node, lcnt_app;
    match goal with [ E : cnt (written_lists _) = _ |- _ ] => cbn [sem_lists] in E; rewrite lcnt_nil in E end;
    match goal with |- (?a + cnt (flat_map written_lists ?l) = _)%nat =>
      replace (cnt (flat_map written_lists l)) with 0%nat by (cbn [flat_map]; rewrite ?lists_leaf, ?app_nil_r; cbn [app]; congruence) end;
    rewrite Nat.add_0_r; unfold node_list; cbn [fst Z.eqb Pos.eqb]; cbn [tree_says says] in *.

  Lemma rules_lists : Forall (fun p : Z * (nonterm -> list item -> sem -> Prop) => forall N its v l,
    forgotten (fst p) = false -> snd p N its v -> Forall2 lfact its l ->
    dead N = false -> cnt (written_lists (Node (fst p) l)) = cnt (sem_lists v)) (tl numbered).
  Proof.
    unfold numbered. cbn [seq map combine rule_table Z.of_nat Pos.of_succ_nat Pos.succ tl].
    repeat (apply Forall_cons; [try solve [lrule]|]); try apply Forall_nil.
    - braces. destruct Sy as (F & Rd & Ne). rewrite read_braces, before_firm, after_firm, Rd by exact F. cbn [sem_lists type_lists read_items between_commas flat_map read_item app].
      unfold listing_of. destruct (map number_item v3); [now destruct Ne|reflexivity].
    - braces. destruct Sy as (Rd & Ad). rewrite read_braces, Rd, Ad. reflexivity.
    - braces. destruct Sy as (F & Rd & Ne). rewrite read_bits, before_firm, after_firm, Rd by exact F. cbn [sem_lists type_lists read_items between_commas flat_map read_item app].
      unfold listing_of. destruct (map bit_item v4); [now destruct Ne|reflexivity].
    - intros N its v l _ H F. cbn [snd] in H. destruct H as [t1 t2 v3 t4 K1 K2 K4]. intros _. parts. rewrite lists_node. cbn [tree_says says] in Sy. destruct Sy as [Rn An].
      match goal with [ E : cnt (written_lists _) = _ |- _ ] => rename E into W end.
      cbn [node_list fst Z.eqb Pos.eqb app flat_map root_names added_names]. rewrite !app_nil_r, Rn, An, !lists_leaf. cbn [app]. rewrite ?app_nil_r.
      rewrite lcnt_cons, W. symmetry.
      change (sem_lists (S_Type (let c := v3 in TChoice (ct_AlternativeTypeList c) (ct_ExtensionTypes c)))) with
        (Listing T_CHOICE (map alternative_item (ct_AlternativeTypeList v3)) (flat_map added_item (ct_ExtensionTypes v3)) :: sem_lists (S_ChoiceType v3)).
      apply lcnt_cons.
  Qed.

  Lemma recalls_lists T i : recalls T i -> Forall clean (leaves T) -> lfact i T.
  Proof.
    revert T i. apply (recalls_rect (fun T i => Forall clean (leaves T) -> lfact i T)).
    - intros t H. split; [|exact I]. inversion_clear H as [|? ? H2 _]. split; [reflexivity|exact H2].
    - intros n N its v l R G Y IH H. split; [exact (recalls_says (Node n l) (Nt N v) (recalls_node n N its v l R G Y) H)|].
      cbn [leaves] in H. destruct (rule_numbered n N its v R) as (Q & I & HQ & B). apply in_tail in I; [|lia].
      pose proof rules_lists as C. rewrite Forall_forall in C. apply (C (n, Q) I N its v l G HQ).
      clear -IH H. induction IH as [|T i l its P _ IHl]; constructor; cbn [flat_map] in H; apply Forall_app in H as [A B]; auto.
    - intros n N its v R G H. split; [exact (recalls_says (Node n []) (Nt N v) (recalls_nothing n N its v R G) H)|].
      pose proof (forgotten_void n N its v R G) as V. rewrite lists_node, (proj1 (forgotten_none n G)).
      destruct N; try contradiction V; cbn [void] in V; subst v; reflexivity.
  Qed.
End Count.

(** The lists of a phrase, outside of what is forgotten, are those of its value. *)
Lemma phrase_lists T N v : recalls T (Nt N v) -> Forall clean (leaves T) -> dead N = false ->
  Permutation (written_lists T) (sem_lists v).
Proof. intros Y C D. apply (Permutation_count_occ listing_dec). intros x. exact (proj2 (recalls_lists x T _ Y C) D). Qed.

Lemma module_lists_all T m : yields T (Nt N_ModuleDefinition (S_module m)) -> Forall clean (leaves T) ->
  Permutation (written_lists (remembered T)) (module_lists m).
Proof.
  intros Y C. assert (C' : Forall clean (outside T)).
  { rewrite Forall_forall in *. intros t I. apply C. now apply outside_incl. }
  exact (phrase_lists _ _ _ (remembered_recalls T _ Y) C' eq_refl).
Qed.

(** Lists do not depend on what pointers point to. *)
Section Map.
  Context {P R P' R' : Type} (f : P -> P') (g : R -> R').

  Lemma alternatives_map l : map alternative_item (map (nmap f g) l) = map alternative_item l.
  Proof. rewrite map_map. apply map_ext. now intros [s t]. Qed.
  Lemma added_map l : flat_map added_item (map (option_map (nmap f g)) l) = flat_map added_item l.
  Proof. rewrite flat_map_map. apply flat_map_same, Forall_forall. now intros [[s t]|] _. Qed.
  Lemma bits_map l : map bit_item (map (nb_map g) l) = map bit_item l.
  Proof. rewrite map_map. apply map_ext. intros [s v]. unfold bit_item. cbn. now destruct v. Qed.

  Lemma lists_cases : @cases P R
    (fun t => type_lists (tmap f g t) = type_lists t)
    (fun n => named_lists (nmap f g n) = named_lists n)
    (fun c => component_lists (cmap f g c) = component_lists c)
    (fun c => constraint_lists (csmap f g c) = constraint_lists c)
    (fun e => elements_lists (emap f g e) = elements_lists e)
    (fun i => intersection_lists (imap f g i) = intersection_lists i).
  Proof.
    constructor; try reflexivity.
    - intros n H. exact H.
    - intros a e A B. change (tmap f g (TChoice a e)) with (TChoice (map (nmap f g) a) (map (option_map (nmap f g)) e)).
      change (Listing T_CHOICE (map alternative_item (map (nmap f g) a)) (flat_map added_item (map (option_map (nmap f g)) e)) ::
          flat_map named_lists (map (nmap f g) a) ++
          flat_map (fun o => match o with Some n => named_lists n | None => [] end) (map (option_map (nmap f g)) e) =
        Listing T_CHOICE (map alternative_item a) (flat_map added_item e) ::
          flat_map named_lists a ++ flat_map (fun o => match o with Some n => named_lists n | None => [] end) e).
      rewrite alternatives_map, added_map, !flat_map_map. f_equal. f_equal; apply flat_map_same; [assumption|].
      eapply Forall_impl; [|exact B]. intros [n|]; [cbn; auto|reflexivity].
    - intros c e A B. cbn. rewrite !flat_map_map. f_equal; apply flat_map_same; assumption.
    - intros c e A B. cbn. rewrite !flat_map_map. f_equal; apply flat_map_same; assumption.
    - intros h t z b H. exact H.
    - intros t H. exact H.
    - intros t H. exact H.
    - intros l. change (listing_of T_BIT (map bit_item (map (nb_map g) l)) = listing_of T_BIT (map bit_item l)). now rewrite bits_map.
    - intros t c A B. cbn. f_equal; assumption.
    - intros s t H. exact H.
    - intros n o d H. exact H.
    - intros t H. exact H.
    - intros l A. cbn. rewrite flat_map_map. apply flat_map_same; assumption.
    - intros l A. cbn. rewrite flat_map_map. apply flat_map_same. eapply Forall_impl; [|exact A].
      intros k B. rewrite flat_map_map. apply flat_map_same; assumption.
    - intros e H. exact H.
    - intros t H. exact H.
    - intros c H. exact H.
    - intros e x A B. cbn. f_equal; assumption.
  Qed.

  Lemma module_lists_map m : module_lists (md_map f g m) = module_lists m.
  Proof.
    destruct m as [i t e [l s]]. unfold module_lists. cbn [md_map mb_map md_ModuleBody mb_AssignmentList].
    rewrite !flat_map_map. apply flat_map_same; apply Forall_forall.
    intros [|n a|n a v] _; [reflexivity| |]; cbn; apply (type_ind2 _ _ _ _ _ _ lists_cases).
  Qed.
End Map.

Lemma shape_lists (m m' : Module_) : shape m = shape m' -> module_lists m = module_lists m'.
Proof.
  intros E. rewrite <- (module_lists_map (fun _ => tt) (fun _ => tt) m), <- (module_lists_map (fun _ => tt) (fun _ => tt) m').
  unfold shape in E. now rewrite E.
Qed.
