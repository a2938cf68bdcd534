(** The SEQUENCE and SET types of a derivation tree are those of its value (C69). *)
From Coq Require Import ZArith String List Bool Lia.
From Verif Require Import GoBase Tokens Tables Ast RealNum Grammar GrammarFacts AstInd ParserFacts Words Forgotten ForgottenFacts WordsFacts ComponentFacts Conflicts Complete Structs.
Import ListNotations.
Local Open Scope string_scope.
Local Open Scope list_scope.
Local Open Scope Z_scope.

(** The SEQUENCE and SET types of a value of the grammar. *)
Definition sem_structs (v : sem) : list struct :=
  match v with
  | S_module x => module_structs x
  | S_ModuleBody x => flat_map assignment_structs (mb_AssignmentList x)
  | S_AssignmentList x => flat_map assignment_structs x
  | S_Assignment x => assignment_structs x
  | S_Type x => type_structs x
  | S_NamedType x => named_structs x
  | S_ComponentTypeLists x =>
      flat_map component_structs (ctl_Components x) ++
      flat_map component_structs (ctl_ExtensionAdditions x) ++
      flat_map component_structs (ctl_TrailingComponents x)
  | S_ComponentTypeList x | S_ExtensionAdditions x => flat_map component_structs x
  | S_ComponentType x => component_structs x
  | S_ChoiceType x =>
      flat_map named_structs (ct_AlternativeTypeList x) ++
      flat_map (fun o => match o with Some n => named_structs n | None => [] end) (ct_ExtensionTypes x)
  | S_AlternativeTypeList x => flat_map named_structs x
  | S_ExtensionAdditionAlternativesList x =>
      flat_map (fun o => match o with Some n => named_structs n | None => [] end) x
  | S_ExtensionAdditionAlternative x => match x with Some n => named_structs n | None => [] end
  | S_Constraint x | S_ConstraintSpec x => constraint_structs x
  | S_SubtypeConstraint x => flat_map elements_structs x
  | S_ElementSetSpec x | S_Elements x | S_Exclusions x => elements_structs x
  | S_Unions x => flat_map (flat_map intersection_structs) x
  | S_Intersections x => flat_map intersection_structs x
  | S_IntersectionElements x => intersection_structs x
  | _ => []
  end.

Section Count.
  Context (x : struct).
  Notation cnt := (struct_count x).

  Lemma ccnt_app a b : cnt (a ++ b) = (cnt a + cnt b)%nat.
  Proof. apply count_occ_app. Qed.
  Lemma ccnt_cons a b : cnt (a :: b) = (cnt [a] + cnt b)%nat.
  Proof. exact (ccnt_app [a] b). Qed.
  Lemma ccnt_nil : cnt [] = 0%nat.
  Proof. reflexivity. Qed.
  Lemma ccnt_one {A} (f : A -> list struct) a : cnt (flat_map f [a]) = cnt (f a).
  Proof. cbn [flat_map]. now rewrite app_nil_r. Qed.

  Lemma written_node n l : written_structs (Node n l) = node_struct n l ++ flat_map written_structs l.
  Proof. reflexivity. Qed.
  Lemma written_leaf t : written_structs (Leaf t) = [].
  Proof. reflexivity. Qed.

  (** An identifier and a NamedType start with their name. *)
  Definition heads (N : nonterm) (v : sem) (T : tree) : Prop :=
    match N, v with
    | N_identifier, S_name s | N_NamedType, S_NamedType (Named s _) => exists t r, leaves T = t :: r /\ tk_name t = s
    | _, _ => True
    end.

  (** The components below a node are those of its value. *)
  Definition owns (N : nonterm) (v : sem) (T : tree) : Prop :=
    match N, v with
    | N_ComponentTypeLists, S_ComponentTypeLists x =>
        own T = flat_map entries_of (ctl_Components x) ++ flat_map entries_of (ctl_ExtensionAdditions x) /\ ctl_TrailingComponents x = []
    | N_ComponentTypeList, S_ComponentTypeList x => own T = flat_map entries_of x
    | N_ExtensionAdditions, S_ExtensionAdditions x | N_ExtensionAdditionList, S_ExtensionAdditions x
    | N_ExtensionAddition, S_ExtensionAdditions x => own T = flat_map entries_of x
    | N_ComponentType, S_ComponentType x => own T = entries_of x
    | N_ExtensionAndException, _ | N_OptionalExtensionMarker, _ | N_ExceptionSpec, _ | N_ExtensionAdditionGroup, _ => own T = []
    | _, _ => True
    end.

  (** What is known of a symbol of a right side and its tree. *)
  Definition sfact (i : item) (T : tree) : Prop :=
    match i with
    | Tk t => T = Leaf t
    | Nt N v => (dead N = false -> cnt (written_structs T) = cnt (sem_structs v)) /\ heads N v T /\ owns N v T
    end.

  Ltac sfacts :=
    repeat match goal with
    | [ F : Forall2 sfact [] _ |- _ ] => inversion_clear F
    | [ F : Forall2 sfact (_ :: _) _ |- _ ] => inversion_clear F
    | [ F : sfact (Tk _) ?T |- _ ] => cbn [sfact] in F; subst T
    | [ F : sfact (Nt _ _) _ |- _ ] => destruct F as (? & ? & ?)
    | [ F : false = false -> _ |- _ ] => specialize (F eq_refl)
    | [ F : dead _ = false -> _ |- _ ] => cbn [dead] in F
    | [ F : true = false -> _ |- _ ] => clear F
    | [ K : tk_kind _ = _ |- _ ] => clear K
    end.

  Ltac ccounts :=
    repeat first [rewrite ccnt_one | rewrite ccnt_app | rewrite flat_map_app | rewrite app_nil_r | rewrite ccnt_nil |
      match goal with |- context [cnt (?a :: ?b)] => lazymatch b with nil => fail | _ => rewrite (ccnt_cons a b) end end].

  Ltac crefold :=
    fold (@type_structs (value DefinedValue) DefinedValue) (@named_structs (value DefinedValue) DefinedValue)
      (@component_structs (value DefinedValue) DefinedValue) (@constraint_structs (value DefinedValue) DefinedValue)
      (@elements_structs (value DefinedValue) DefinedValue) (@intersection_structs (value DefinedValue) DefinedValue).

  Lemma own_leaf t : own (Leaf t) = [].
  Proof. reflexivity. Qed.

  Ltac owners :=
    rewrite ?own_leaf; repeat match goal with [ H : own _ = _ |- _ ] => rewrite H; clear H end.

  Ltac crule :=
    let N := fresh in let its := fresh in let v := fresh in let l := fresh in let E := fresh in let H := fresh in let F := fresh in let G := fresh in
    intros N its v l E G H F; cbn [fst snd] in *; first [discriminate G | clear G]; try (exfalso; exact (E eq_refl)); destruct H; sfacts;
    cbn [owns heads] in *;
    repeat match goal with [ H : _ /\ ctl_TrailingComponents _ = [] |- _ ] => let A := fresh in let B := fresh in destruct H as [A B]; rewrite ?B in * end;
    (split; [first [discriminate|intros _]; rewrite written_node;
       cbn [node_struct Z.leb Z.compare Pos.compare Pos.compare_cont andb app flat_map]; rewrite ?written_leaf; owners; ccounts;
       repeat match goal with [ H : cnt (written_structs _) = _ |- _ ] => rewrite H; clear H end;
       cbn -[struct_count written_structs own entries_of heads]; crefold;
       unfold module_structs, SingleElementConstraint;
       cbn -[struct_count type_structs named_structs component_structs constraint_structs elements_structs intersection_structs
             written_structs own entries_of];
       rewrite ?app_nil_r; ccounts; try lia
     |split; [try exact I|try exact I; cbn [own Z.eqb Pos.eqb]; owners; cbn [flat_map app]; try (split; [|reflexivity]);
       rewrite ?app_nil_r, ?flat_map_app; owners; cbn [flat_map app]; rewrite ?app_nil_r; try reflexivity]]).

  Ltac name_entry :=
    match goal with [ H : match ?v with Named _ _ => _ end |- _ ] => destruct v end;
    match goal with [ H : exists t r, leaves _ = t :: r /\ _ |- _ ] => let E := fresh "E" in destruct H as (? & ? & E & <-); unfold first_name; cbn [flat_map]; rewrite E; reflexivity end.

  Lemma structs_table : Forall (fun p : Z * (nonterm -> list item -> sem -> Prop) => forall N its v l, fst p <> 136 ->
    forgotten (fst p) = false -> snd p N its v -> Forall2 sfact its l ->
    (dead N = false -> cnt (written_structs (Node (fst p) l)) = cnt (sem_structs v)) /\ heads N v (Node (fst p) l) /\ owns N v (Node (fst p) l)) (tl numbered).
  Proof.
    unfold numbered. cbn [seq map combine rule_table Z.of_nat Pos.of_succ_nat Pos.succ tl].
    repeat (apply Forall_cons; [try (solve [crule])|]); try apply Forall_nil.
    - crule. eexists _, _. split; reflexivity.
    - crule. destruct H5 as (t & r & E & <-). eexists t, _. split; [|reflexivity]. cbn [leaves flat_map]. rewrite E. reflexivity.
    - crule. match goal with [ H : ctl_TrailingComponents _ = [] |- _ ] => rewrite H end. cbn [flat_map]. rewrite ccnt_nil. lia.
    - crule. name_entry.
    - crule. name_entry.
    - crule. name_entry.
    - crule. match goal with [ H : ctl_TrailingComponents _ = [] |- _ ] => rewrite H end. cbn [flat_map]. rewrite ccnt_nil. lia.
  Qed.

  Lemma extension_table : Forall (fun p : Z * (nonterm -> list item -> sem -> Prop) => forall N its v, snd p N its v ->
    (N = N_ExtensionAdditions -> fst p = 139 \/ fst p = 140) /\
    (N = N_ExtensionEndMarker -> exists t r, its = Tk t :: r /\ tk_kind t = T_COMMA)) numbered.
  Proof.
    unfold numbered, rule_table. cbn [seq map].
    apply in_combine_cons; [contradiction|].
    repeat (apply in_combine_cons; [intros N its v H; destruct H; split; intros E; solve [discriminate E|eauto]|]).
    constructor.
  Qed.

  (** Components after a second extension marker lose a conflict. *)
  Lemma no_trailing N its v l up next : rule 136 N its v -> Forall2 yields l its -> kept up next (Node 136 l) = true -> False.
  Proof.
    intros H F K. change (rule_136 N its v) in H. destruct H.
    repeat match goal with
    | [ F : Forall2 yields _ (_ :: _) |- _ ] => inversion F; clear F; subst
    | [ F : Forall2 yields _ [] |- _ ] => inversion F; clear F; subst
    end.
    match goal with [ Y : yields ?T (Nt N_ExtensionEndMarker _) |- _ ] => assert (exists t r, leaves T = t :: r /\ tk_kind t = T_COMMA) as (c & r & E & Kc) end.
    { match goal with [ Y : yields _ (Nt N_ExtensionEndMarker _) |- _ ] => inversion Y as [|n0 N0 its0 v0 l0 R0 F0]; subst end.
      destruct (rule_numbered _ _ _ _ R0) as (Q & I & HQ & _). pose proof extension_table as C. rewrite Forall_forall in C.
      destruct (proj2 (C _ I _ _ _ HQ) eq_refl) as (t & r & -> & Kt). inversion F0 as [|T0 i0 l1 its1 Y0 F1]; subst. inversion Y0; subst.
      cbn [leaves flat_map app]. eauto. }
    match goal with [ Y : yields ?T (Nt N_ExtensionAdditions _) |- _ ] => assert (exists n k, T = Node n k /\ (n = 139 \/ n = 140)) as (n & k & -> & En) end.
    { match goal with [ Y : yields _ (Nt N_ExtensionAdditions _) |- _ ] => inversion Y as [|n0 N0 its0 v0 l0 R0 F0]; subst end.
      destruct (rule_numbered _ _ _ _ R0) as (Q & I & HQ & _). pose proof extension_table as C. rewrite Forall_forall in C.
      pose proof (proj1 (C _ I _ _ _ HQ) eq_refl) as B. cbn [fst] in B. eauto. }
    rewrite kept_node in K. apply andb_prop in K as [_ K]. cbn [kept_all] in K.
    apply andb_prop in K as [_ K]. apply andb_prop in K as [_ K]. apply andb_prop in K as [_ K]. apply andb_prop in K as [K _].
    cbn [flat_map] in K. rewrite E in K. cbn [app head_kind] in K. rewrite Kc, kept_node in K. 
    apply andb_prop in K as [K _]. apply andb_prop in K as [K _]. destruct En as [-> | ->]; discriminate K.
  Qed.

  Lemma tree_structs T i : yields T i -> forall up next, kept up next T = true -> sfact i (remembered T).
  Proof.
    revert T i. apply (yields_rect (fun T i => forall up next, kept up next T = true -> sfact i (remembered T))); [reflexivity|].
    intros n N its v l R Y IH up next K. cbn [remembered]. destruct (forgotten n) eqn:G.
    - pose proof (forgotten_void n N its v R G) as V.
      assert (E : written_structs (Node n []) = []).
      { cbn [written_structs flat_map]. rewrite app_nil_r. unfold node_struct.
        destruct (Z.leb_spec 127 n), (Z.leb_spec n 129), (Z.leb_spec 154 n), (Z.leb_spec n 156); cbn [andb]; try reflexivity;
        exfalso; unfold forgotten in G; apply existsb_exists in G as (k & Ik & Ek); apply Z.eqb_eq in Ek; subst k; cbn in Ik; lia. }
      assert (O : own (Node n []) = []).
      { cbn [own flat_map].
        destruct (Z.eqb_spec n 150) as [->|_]; [discriminate G|]. destruct (Z.eqb_spec n 151) as [->|_]; [discriminate G|].
        destruct (Z.eqb_spec n 152) as [->|_]; [discriminate G|]. destruct (Z.eqb_spec n 153) as [->|_]; [discriminate G|reflexivity]. }
      unfold sfact. rewrite E. destruct N; try contradiction V; cbn [void] in V; subst v; (split; [reflexivity|]); (split; [exact I|]); first [exact O | exact I].
    - assert (N136 : n <> 136) by (intros ->; exact (no_trailing N its v l up next R Y K)).
      assert (F : Forall2 sfact its (map remembered l)).
      { clear R Y N136 G. cbn [kept] in K. apply andb_prop in K as [_ K]. revert K. generalize (place up n). intros u K.
        induction IH as [|T i l its P _ IHl]; constructor.
        - apply andb_prop in K as [K _]. eapply P. exact K.
        - apply andb_prop in K as [_ K]. apply IHl. exact K. }
      destruct (rule_numbered n N its v R) as (Q & I & HQ & B). apply in_tail in I; [|lia].
      pose proof structs_table as C. rewrite Forall_forall in C. exact (C (n, Q) I N its v _ N136 G HQ F).
  Qed.
End Count.

(** The types of a module text that the parser keeps, outside of what is forgotten, are
    those of its value. *)
Lemma module_struct_count x T m : yields T (Nt N_ModuleDefinition (S_module m)) -> kept 0 0 T = true ->
  struct_count x (written_structs (remembered T)) = struct_count x (module_structs m).
Proof. intros Y K. exact (proj1 (tree_structs x T _ Y 0 0 K) eq_refl). Qed.

(** ** They do not depend on what pointers point to *)

Section Map.
  Context {P R P' R' : Type} (f : P -> P') (g : R -> R').

  Lemma entries_map l : flat_map (fun a => entries_of (cmap f g a)) l = flat_map entries_of l.
  Proof. apply flat_map_same, Forall_forall. intros [|[s t] o d|t] _; [reflexivity|destruct d; reflexivity|reflexivity]. Qed.

  Lemma struct_same b {a1 a2 a1' a2' : list entry} {l1 l2 l1' l2' : list struct} : a1 = a1' -> a2 = a2' -> l1 = l1' -> l2 = l2' ->
    {| is_set := b; entries := a1 ++ a2 |} :: l1 ++ l2 = {| is_set := b; entries := a1' ++ a2' |} :: l1' ++ l2'.
  Proof. now intros -> -> -> ->. Qed.

  Lemma structs_cases : @cases P R
    (fun t => type_structs (tmap f g t) = type_structs t)
    (fun n => named_structs (nmap f g n) = named_structs n)
    (fun c => component_structs (cmap f g c) = component_structs c /\
       forall n o d, c = CNamed n o d -> named_structs (nmap f g n) = named_structs n)
    (fun c => constraint_structs (csmap f g c) = constraint_structs c)
    (fun e => elements_structs (emap f g e) = elements_structs e)
    (fun i => intersection_structs (imap f g i) = intersection_structs i).
  Proof.
    constructor; try reflexivity; try (split; [reflexivity|congruence]).
    - intros n H. exact H.
    - intros a e A B. cbn. rewrite !flat_map_map. f_equal; apply flat_map_same; [exact A|].
      eapply Forall_impl; [|exact B]. intros [n|] H; [exact H|reflexivity].
    - intros c e A B. change (tmap f g (TSequence c e)) with (TSequence (map (cmap f g) c) (map (cmap f g) e)).
      apply (struct_same false); rewrite flat_map_map; first [apply entries_map|apply flat_map_same; (eapply Forall_impl; [|eassumption]); now intros ? (H & _)].
    - intros c e A B. change (tmap f g (TSet c e)) with (TSet (map (cmap f g) c) (map (cmap f g) e)).
      apply (struct_same true); rewrite flat_map_map; first [apply entries_map|apply flat_map_same; (eapply Forall_impl; [|eassumption]); now intros ? (H & _)].
    - intros tg t z b H. exact H.
    - intros t H. exact H.
    - intros t H. exact H.
    - intros t c A B. cbn. f_equal; assumption.
    - intros s t H. exact H.
    - intros [s t] o d H. split.
      + exact H.
      + intros n' o' d' E. injection E as <- _ _. exact H.
    - intros t H. split; [exact H|congruence].
    - intros l H. cbn. rewrite flat_map_map. now apply flat_map_same.
    - intros l H. cbn. rewrite flat_map_map. apply flat_map_same. eapply Forall_impl; [|exact H].
      intros a A. rewrite flat_map_map. now apply flat_map_same.
    - intros e H. exact H.
    - intros t H. exact H.
    - intros c H. exact H.
    - intros e x A B. cbn. f_equal; assumption.
  Qed.

  Lemma module_structs_map m : module_structs (md_map f g m) = module_structs m.
  Proof.
    destruct m as [i t e [l s]]. unfold module_structs. cbn. rewrite flat_map_map. apply flat_map_same.
    apply Forall_forall. intros [|n a|n a v] _; [reflexivity| |]; apply (type_ind2 _ _ _ _ _ _ structs_cases).
  Qed.
End Map.

Lemma shape_structs (m m' : Module_) : shape m = shape m' -> module_structs m = module_structs m'.
Proof.
  intros E. rewrite <- (module_structs_map (fun _ => tt) (fun _ => tt) m), <- (module_structs_map (fun _ => tt) (fun _ => tt) m').
  unfold shape in E. now rewrite E.
Qed.
