(** The tags of a derivation tree are those of its value. *)
From Coq Require Import ZArith String List Bool Lia SpecFloat Permutation.
From Verif Require Import GoBase Tokens Tables Ast RealNum AstInd ParserFacts ComponentFacts Words Forgotten WordsFacts Numbers NumbersFacts WrittenTags.
From Verif Require Import Grammar GrammarFacts ForgottenFacts.
Import ListNotations.
Local Open Scope string_scope.
Local Open Scope list_scope.
Local Open Scope Z_scope.

(** The tags of a value of the grammar. *)
Definition sem_tags (v : sem) : list (stamp * bearer) :=
  match v with
  | S_module x => module_tags x
  | S_ModuleBody x => flat_map assignment_tags (mb_AssignmentList x)
  | S_AssignmentList x => flat_map assignment_tags x
  | S_Assignment x => assignment_tags x
  | S_Type x => type_tags x
  | S_NamedType x => named_tags x
  | S_ComponentTypeLists x =>
      flat_map component_tags (ctl_Components x) ++
      flat_map component_tags (ctl_ExtensionAdditions x) ++
      flat_map component_tags (ctl_TrailingComponents x)
  | S_ComponentTypeList x | S_ExtensionAdditions x => flat_map component_tags x
  | S_ComponentType x => component_tags x
  | S_ChoiceType x =>
      flat_map named_tags (ct_AlternativeTypeList x) ++
      flat_map (fun o => match o with Some n => named_tags n | None => [] end) (ct_ExtensionTypes x)
  | S_AlternativeTypeList x => flat_map named_tags x
  | S_ExtensionAdditionAlternativesList x => flat_map (fun o => match o with Some n => named_tags n | None => [] end) x
  | S_ExtensionAdditionAlternative x => match x with Some n => named_tags n | None => [] end
  | S_Constraint x | S_ConstraintSpec x => constraint_tags x
  | S_SubtypeConstraint x => flat_map elements_tags x
  | S_ElementSetSpec x | S_Elements x | S_Exclusions x => elements_tags x
  | S_Unions x => flat_map (flat_map intersection_tags) x
  | S_Intersections x => flat_map intersection_tags x
  | S_IntersectionElements x => intersection_tags x
  | _ => []
  end.

(** ** Tokens with what follows *)

(** The tags of [ts] before [after]. *)
Fixpoint tags_before (ts after : list token) : list (stamp * bearer) :=
  match ts with
  | [] => []
  | t :: ts' =>
      (if tk_kind t =? T_OPEN_SQUARE
       then [let (s, rest) := read_stamp (ts' ++ after) in (s, read_bearer rest)]
       else []) ++ tags_before ts' after
  end.

Lemma tags_before_nil ts : text_tags ts = tags_before ts [].
Proof. induction ts as [|t ts IH]; [reflexivity|]. cbn [text_tags tags_before]. now rewrite app_nil_r, IH. Qed.

Lemma tags_before_app a : forall b after, tags_before (a ++ b) after = tags_before a (b ++ after) ++ tags_before b after.
Proof. induction a as [|t a IH]; intros b after; [reflexivity|]. cbn [app tags_before]. rewrite IH, <- !app_assoc. reflexivity. Qed.

(** Tokens without "[". *)
Definition flat (l : list token) : Prop := Forall (fun t => (tk_kind t =? T_OPEN_SQUARE) = false) l.

Lemma tags_before_flat l after : flat l -> tags_before l after = [].
Proof. induction 1 as [|t l E _ IH]; [reflexivity|]. cbn [tags_before]. now rewrite E, IH. Qed.

(** ** How phrases start *)

Definition one_token (k : Z) (l : list token) (Q : token -> Prop) : Prop := exists t, l = [t] /\ tk_kind t = k /\ Q t.

Definition is_number (n : tag_number) (l : list token) : Prop :=
  flat l /\ forall after, read_number (l ++ after) = (n, after) /\ read_class (l ++ after) = (CLASS_CONTEXT_SPECIFIC, l ++ after).

Definition starts (N : nonterm) (v : sem) (l : list token) : Prop :=
  match N, v with
  | N_modulereference, S_name s | N_typereference, S_TypeReference s => one_token T_TYPEORMODULEREFERENCE l (fun t => tk_name t = s)
  | N_valuereference, S_ValueReference s => one_token T_VALUEIDENTIFIER l (fun t => tk_name t = s)
  | N_number, S_Number n => one_token T_NUMBER l (fun t => tk_number t = n)
  | N_DefinedValue, S_DefinedValue d => is_number (ByValue d) l
  | N_ClassNumber, S_Value x => is_number (number_of x) l
  | N_Class, S_Class c => flat l /\ forall r, read_class r = (CLASS_CONTEXT_SPECIFIC, r) -> read_class (l ++ r) = (c, r)
  | N_Tag, S_Tag g => exists t r, l = t :: r /\ tk_kind t = T_OPEN_SQUARE /\ flat r /\
      forall after m rest, read_mode after = (m, rest) ->
        read_stamp (r ++ after) = (Stamp (tag_Class g) (number_of (tag_ClassNumber g)) m, rest)
  | _, S_Type x => forall after, read_bearer (l ++ after) = type_bearer x /\ read_mode (l ++ after) = (None, l ++ after)
  | _, _ => True
  end.

Definition tree_starts (i : item) (l : list token) : Prop :=
  match i with
  | Tk t => l = [t]
  | Nt N v => starts N v l
  end.

Ltac items :=
  repeat match goal with
  | [ F : Forall2 _ [] _ |- _ ] => inversion_clear F
  | [ F : Forall2 _ (_ :: _) _ |- _ ] => inversion_clear F
  end.

Ltac kind_of t := match goal with [ K : tk_kind t = _ |- _ ] => rewrite K end.
Ltac word := let after := fresh in intros after; cbn [app]; unfold read_bearer, read_mode;
  repeat match goal with |- context [tk_kind ?t] => kind_of t end; split; reflexivity.

Ltac all_kinds := repeat match goal with [ K : tk_kind ?t = _ |- context [tk_kind ?t] ] => rewrite K end.
Ltac ones :=
  repeat match goal with [ F : one_token _ _ _ |- _ ] =>
    let t := fresh "t" in destruct F as (t & -> & ? & ?) end.
Ltac plain := repeat (apply Forall_cons; [match goal with |- context [tk_kind ?t] => kind_of t end; reflexivity|]); apply Forall_nil.
Ltac tagged K St :=
  match goal with [ F : ex _ |- _ ] => let t := fresh "t" in let r := fresh "r" in destruct F as (t & r & -> & K & _ & St) end;
  intros after; cbn [app]; rewrite <- app_assoc; cbn [app]; unfold read_bearer; unfold read_mode at 1; rewrite K;
  cbn [Z.eqb Pos.eqb T_OPEN_SQUARE T_IMPLICIT T_EXPLICIT type_bearer]; unfold stamp_of.

Lemma starts_table : Forall (fun R : nonterm -> list item -> sem -> Prop => forall N its v ls,
  R N its v -> Forall2 tree_starts its ls -> starts N v (concat ls)) rule_table.
Proof.
  unfold rule_table. apply Forall_cons; [contradiction|].
  repeat (apply Forall_cons; [
    let N := fresh in let its := fresh in let v := fresh in let ls := fresh in let H := fresh in let F := fresh in
    intros N its v ls H F; destruct H; first [exact I | items; cbn [tree_starts starts] in *; subst; cbn [concat app]; rewrite ?app_nil_r;
    first [assumption | solve [word] | idtac]]|]); try apply Forall_nil.
  all: try solve [eexists; repeat split; eassumption].
  - ones. intros after. cbn [app]. unfold read_bearer, read_mode. all_kinds. cbn [Z.eqb Pos.eqb T_TYPEORMODULEREFERENCE T_OPEN_SQUARE T_IMPLICIT T_EXPLICIT type_bearer].
    split; [congruence|reflexivity].
  - ones. split; [plain|]. intros after. cbn [app]. unfold read_number, read_class. all_kinds. split; [|reflexivity].
    cbn [Z.eqb Pos.eqb T_TYPEORMODULEREFERENCE T_NUMBER T_VALUEIDENTIFIER]. congruence.
  - ones. split; [plain|]. intros after. cbn [app]. unfold read_number, read_class. all_kinds. split; [|reflexivity].
    cbn [Z.eqb Pos.eqb T_NUMBER T_VALUEIDENTIFIER]. congruence.
  - tagged K St. rewrite (St (y0 ++ after) None (y0 ++ after)); [auto|]. match goal with [ F : forall a, _ /\ _ |- _ ] => apply F end.
  - tagged K St. rewrite (St (t2 :: y1 ++ after) (Some TAGS_IMPLICIT) (y1 ++ after)); [auto|]. unfold read_mode. now kind_of t2.
  - tagged K St. rewrite (St (t2 :: y1 ++ after) (Some TAGS_EXPLICIT) (y1 ++ after)); [auto|]. unfold read_mode. now kind_of t2.
  - match goal with [ F : flat y0 /\ _, G : is_number _ y1 |- _ ] => destruct F as [A C], G as [B D] end.
    eexists _, _. split; [reflexivity|]. split; [assumption|].
    split; [unfold flat in *; repeat (apply Forall_app; split); auto; plain|].
    intros after m rest M. rewrite <- !app_assoc. unfold read_stamp. destruct (D ([t4] ++ after)) as [D1 D2].
    rewrite (C _ D2), D1. cbn [app tl]. rewrite M. reflexivity.
  - ones. split; [plain|]. intros after. cbn [app]. unfold read_number, read_class. all_kinds. split; [|reflexivity].
    cbn [Z.eqb Pos.eqb T_NUMBER number_of]. congruence.
  - split; [plain|]. intros r _. unfold read_class. now kind_of t1.
  - split; [plain|]. intros r _. unfold read_class. now kind_of t1.
  - split; [plain|]. intros r _. unfold read_class. now kind_of t1.
  - split; [constructor|auto].
  - intros after. rewrite <- app_assoc. cbn [type_bearer]. match goal with [ F : forall a, _ /\ _ |- _ ] => apply F end.
Qed.

Lemma recalls_starts T i : recalls T i -> tree_starts i (leaves T).
Proof.
  revert T i. apply (recalls_rect (fun T i => tree_starts i (leaves T))); [reflexivity| |].
  - intros n N its v l R _ _ IH. cbn [leaves tree_starts]. rewrite flat_map_concat_map.
    destruct (rule_numbered n N its v R) as (Q & I & HQ & _).
    pose proof starts_table as C. rewrite Forall_forall in C. apply in_combine_r in I. apply (C Q I N its v _ HQ).
    clear -IH. induction IH; constructor; auto.
  - intros n N its v R G. pose proof (forgotten_void n N its v R G) as V.
    destruct N; try contradiction V; cbn [void] in V; subst v; exact I.
Qed.

(** ** How often a tag occurs *)

Section Count.
  Context (r : stamp * bearer).
  Notation cnt l := (count_occ tagging_dec l r).

  (** What is known of a symbol of a right side with the text [l]. *)
  Definition gfact (i : item) (l : list token) : Prop :=
    tree_starts i l /\
    match i with
    | Tk t => True
    | Nt N_Tag v => True
    | Nt N v => dead N = false -> forall after, cnt (tags_before l after) = cnt (sem_tags v)
    end.

  Lemma tags_one t after k : tk_kind t = k -> (k =? T_OPEN_SQUARE) = false -> tags_before [t] after = [].
  Proof. intros <- E. cbn [tags_before]. now rewrite E. Qed.

  Lemma gcnt_app a b : cnt (a ++ b) = (cnt a + cnt b)%nat.
  Proof. apply count_occ_app. Qed.

  Ltac refold :=
    fold (@type_tags (value DefinedValue) DefinedValue) (@named_tags (value DefinedValue) DefinedValue)
      (@component_tags (value DefinedValue) DefinedValue) (@constraint_tags (value DefinedValue) DefinedValue)
      (@elements_tags (value DefinedValue) DefinedValue) (@intersection_tags (value DefinedValue) DefinedValue).
  Ltac lists := repeat first [rewrite flat_map_app | rewrite flat_one | rewrite app_nil_r].
  Ltac parts :=
    repeat match goal with
    | [ F : gfact (Tk ?t) ?l |- _ ] => destruct F as [F _]; cbn [tree_starts] in F; subst l
    | [ F : gfact (Nt N_Tag _) _ |- _ ] => destruct F as [F _]
    | [ F : gfact (Nt _ _) _ |- _ ] => destruct F as [_ F]
    | [ F : dead _ = false -> _ |- _ ] => cbn [dead] in F
    | [ F : false = false -> _ |- _ ] => specialize (F eq_refl)
    | [ F : true = false -> _ |- _ ] => clear F
    end.
  Ltac counts :=
    repeat match goal with
    | [ F : forall a, cnt (tags_before ?l a) = _ |- context [tags_before ?l ?a] ] => rewrite (F a)
    end.
  Ltac one_rule :=
    intros N its v ls Cl H F; cbn [fst snd] in *; first [discriminate Cl | clear Cl]; destruct H; items; parts;
    first [exact I | cbn [dead]; first [discriminate | intros _ after]; cbn [concat]; rewrite ?app_nil_r; rewrite ?tags_before_app;
    repeat match goal with [ K : tk_kind ?t = ?k |- context [tags_before [?t] ?a] ] => rewrite (tags_one t a k K eq_refl) end;
    cbn [tags_before]; rewrite ?gcnt_app; counts; cbn [sem_tags] in *; cbn -[count_occ tags_before]; refold; lists;
    unfold module_tags, SingleElementConstraint; cbn -[count_occ tags_before type_tags named_tags component_tags constraint_tags elements_tags intersection_tags];
    refold; lists; rewrite ?gcnt_app in *; cbn [count_occ]; lia].

  Ltac parts2 K Fl St Sy F2 :=
    repeat match goal with
    | [ F : gfact (Tk _) _ |- _ ] => destruct F as [F _]; cbn [tree_starts] in F; subst
    | [ F : gfact (Nt N_Tag _) _ |- _ ] => destruct F as [(? & ? & -> & K & Fl & St) _]
    | [ F : gfact (Nt N_Type _) _ |- _ ] => destruct F as [Sy F2]; cbn [tree_starts starts] in Sy; cbn [sem_tags] in F2
    end.

  Lemma rules_tags : Forall (fun p : Z * (nonterm -> list item -> sem -> Prop) => forall N its v ls,
    forgotten (fst p) = false -> snd p N its v -> Forall2 gfact its ls ->
    match N with
    | N_Tag => True
    | _ => dead N = false -> forall after, cnt (tags_before (concat ls) after) = cnt (sem_tags v)
    end) (tl numbered).
  Proof.
    unfold numbered. cbn [seq map combine rule_table Z.of_nat Pos.of_succ_nat Pos.succ tl].
    repeat (apply Forall_cons; [first [solve [one_rule] | idtac]|]); try apply Forall_nil.
    - intros N its v ls _ H F. cbn [snd] in H. destruct H as [v1 v2]. items. parts2 K Fl St Sy F2. intros _ after. cbn [concat]. rewrite app_nil_r, tags_before_app.
      cbn [tags_before]. rewrite K. cbn [Z.eqb Pos.eqb T_OPEN_SQUARE app]. destruct (Sy after) as [B M]. rewrite (St _ None _ M), B, (tags_before_flat _ _ Fl).
      change (sem_tags (S_Type (TTagged v1 v2 0 false))) with ((stamp_of v1 0 false, type_bearer v2) :: type_tags v2).
      unfold stamp_of. cbn [app count_occ]. rewrite (F2 eq_refl after). reflexivity.
    - intros N its v ls _ H F. cbn [snd] in H. destruct H as [v1 t2 v3 K2]. items. parts2 K Fl St Sy F2. intros _ after. cbn [concat]. rewrite app_nil_r, !tags_before_app.
      cbn [tags_before]. rewrite K, K2. cbn [Z.eqb Pos.eqb T_OPEN_SQUARE T_IMPLICIT app]. destruct (Sy after) as [B M].
      rewrite (St (t2 :: _ ++ after) (Some TAGS_IMPLICIT) _ ltac:(unfold read_mode; rewrite K2; reflexivity)), B, (tags_before_flat _ _ Fl).
      change (sem_tags (S_Type (TTagged v1 v3 TAGS_IMPLICIT true))) with ((stamp_of v1 TAGS_IMPLICIT true, type_bearer v3) :: type_tags v3).
      unfold stamp_of. cbn [app count_occ]. rewrite (F2 eq_refl after). reflexivity.
    - intros N its v ls _ H F. cbn [snd] in H. destruct H as [v1 t2 v3 K2]. items. parts2 K Fl St Sy F2. intros _ after. cbn [concat]. rewrite app_nil_r, !tags_before_app.
      cbn [tags_before]. rewrite K, K2. cbn [Z.eqb Pos.eqb T_OPEN_SQUARE T_EXPLICIT app]. destruct (Sy after) as [B M].
      rewrite (St (t2 :: _ ++ after) (Some TAGS_EXPLICIT) _ ltac:(unfold read_mode; rewrite K2; reflexivity)), B, (tags_before_flat _ _ Fl).
      change (sem_tags (S_Type (TTagged v1 v3 TAGS_EXPLICIT true))) with ((stamp_of v1 TAGS_EXPLICIT true, type_bearer v3) :: type_tags v3).
      unfold stamp_of. cbn [app count_occ]. rewrite (F2 eq_refl after). reflexivity.
  Qed.

  Lemma recalls_tags T i : recalls T i -> gfact i (leaves T).
  Proof.
    revert T i. apply (recalls_rect (fun T i => gfact i (leaves T))).
    - intros t. split; [reflexivity|exact I].
    - intros n N its v l R G Y IH. split; [exact (recalls_starts (Node n l) (Nt N v) (recalls_node n N its v l R G Y))|].
      cbn [leaves] in *. rewrite flat_map_concat_map.
      destruct (rule_numbered n N its v R) as (Q & I & HQ & B). apply in_tail in I; [|lia].
      pose proof rules_tags as C. rewrite Forall_forall in C. apply (C (n, Q) I N its v); [exact G|exact HQ|].
      clear -IH. induction IH; constructor; auto.
    - intros n N its v R G. split; [exact (recalls_starts (Node n []) (Nt N v) (recalls_nothing n N its v R G))|].
      pose proof (forgotten_void n N its v R G) as V.
      destruct N; try contradiction V; cbn [void] in V; subst v; reflexivity.
  Qed.
End Count.

(** The tags of a phrase, outside of what is forgotten, are those of its value. *)
Lemma phrase_tags T N v : recalls T (Nt N v) -> dead N = false -> N <> N_Tag -> Permutation (text_tags (leaves T)) (sem_tags v).
Proof.
  intros Y D X. apply (Permutation_count_occ tagging_dec). intros r. destruct (recalls_tags r T _ Y) as [_ F].
  rewrite tags_before_nil. destruct N; try exact (F D []). now destruct X.
Qed.

Lemma module_tags_all T m : yields T (Nt N_ModuleDefinition (S_module m)) ->
  Permutation (text_tags (outside T)) (module_tags m).
Proof. intros Y. exact (phrase_tags _ _ _ (remembered_recalls T _ Y) eq_refl ltac:(discriminate)). Qed.

(** Tags do not depend on what pointers point to. *)
Section Map.
  Context {P R P' R' : Type} (f : P -> P') (g : R -> R').

  Lemma stamp_map h z b : stamp_of (tag_map g h) z b = stamp_of h z b.
  Proof. destruct h as [c v]. unfold stamp_of. cbn. now destruct v. Qed.

  Lemma bearer_map t : type_bearer (tmap f g t) = type_bearer t.
  Proof. induction t; try reflexivity; [|assumption]. cbn [tmap type_bearer]. now rewrite stamp_map. Qed.

  Lemma tags_cases : @cases P R
    (fun t => type_tags (tmap f g t) = type_tags t)
    (fun n => named_tags (nmap f g n) = named_tags n)
    (fun c => component_tags (cmap f g c) = component_tags c)
    (fun c => constraint_tags (csmap f g c) = constraint_tags c)
    (fun e => elements_tags (emap f g e) = elements_tags e)
    (fun i => intersection_tags (imap f g i) = intersection_tags i).
  Proof.
    constructor; try reflexivity.
    - intros n H. exact H.
    - intros a e A B. cbn. rewrite !flat_map_map. f_equal; apply flat_map_same; [assumption|].
      eapply Forall_impl; [|exact B]. intros [n|]; [cbn; auto|reflexivity].
    - intros c e A B. cbn. rewrite !flat_map_map. f_equal; apply flat_map_same; assumption.
    - intros c e A B. cbn. rewrite !flat_map_map. f_equal; apply flat_map_same; assumption.
    - intros h t z b H. cbn [tmap type_tags]. now rewrite stamp_map, bearer_map, H.
    - intros t H. exact H.
    - intros t H. exact H.
    - intros t c A B. cbn. f_equal; assumption.
    - intros s t H. exact H.
    - intros n o d H. exact H.
    - intros t H. exact H.
    - intros l A. cbn. rewrite flat_map_map. apply flat_map_same; assumption.
    - intros l A. cbn. rewrite flat_map_map. apply flat_map_same. eapply Forall_impl; [|exact A].
      intros k B. rewrite flat_map_map. apply flat_map_same; assumption.
    - intros e H. exact H.
    - intros t H. exact H.
    - intros c H. exact H.
    - intros e x A B. cbn. f_equal; assumption.
  Qed.

  Lemma module_tags_map m : module_tags (md_map f g m) = module_tags m.
  Proof.
    destruct m as [i t e [l s]]. unfold module_tags. cbn [md_map mb_map md_ModuleBody mb_AssignmentList].
    rewrite !flat_map_map. apply flat_map_same; apply Forall_forall.
    intros [|n a|n a v] _; [reflexivity| |]; cbn; apply (type_ind2 _ _ _ _ _ _ tags_cases).
  Qed.
End Map.

Lemma shape_tags (m m' : Module_) : shape m = shape m' -> module_tags m = module_tags m'.
Proof.
  intros E. rewrite <- (module_tags_map (fun _ => tt) (fun _ => tt) m), <- (module_tags_map (fun _ => tt) (fun _ => tt) m').
  unfold shape in E. now rewrite E.
Qed.
