(** Where the pointers of an accepted module lead. *)
From Coq Require Import ZArith String List Bool Lia.
From Verif Require Import GoBase Tokens Tables Ast Actions Lexer Driver Parser AstInd Stream Unicode LexErr LexTotal LexEq LexRuns ParserFacts ParserRuns
  ComponentFacts LexSpec LexFacts ActionSound DriverSound AstFacts Words WordsFacts NumbersFacts Pointers MemFacts Grammar GrammarFacts.
Import ListNotations.
Local Open Scope list_scope.
Local Open Scope Z_scope.

(** The pointers of a value of the grammar. *)
Definition sem_pointers (v : sem) : list (Value + DefinedValue) :=
  match v with
  | S_module x => module_pointers x
  | S_ModuleBody x => mb_pointers x
  | S_Imports x => flat_map sfm_pointers x
  | S_SymbolsFromModule x => sfm_pointers x
  | S_GlobalModuleReference x => value_pointers (gmr_AssignedIdentifier x)
  | S_Value x => value_pointers x
  | S_AssignmentList x => flat_map assignment_pointers x
  | S_Assignment x => assignment_pointers x
  | S_Type x => type_pointers x
  | S_NamedType x => named_pointers x
  | S_NamedBitList x => flat_map (fun b => value_pointers (nb_Index b)) x
  | S_NamedBit x => value_pointers (nb_Index x)
  | S_ComponentTypeLists x =>
      flat_map component_pointers (ctl_Components x) ++
      flat_map component_pointers (ctl_ExtensionAdditions x) ++
      flat_map component_pointers (ctl_TrailingComponents x)
  | S_ComponentTypeList x | S_ExtensionAdditions x => flat_map component_pointers x
  | S_ComponentType x => component_pointers x
  | S_ChoiceType x =>
      flat_map named_pointers (ct_AlternativeTypeList x) ++
      flat_map (fun o => match o with Some n => named_pointers n | None => [] end) (ct_ExtensionTypes x)
  | S_AlternativeTypeList x => flat_map named_pointers x
  | S_ExtensionAdditionAlternativesList x => flat_map (fun o => match o with Some n => named_pointers n | None => [] end) x
  | S_ExtensionAdditionAlternative x => match x with Some n => named_pointers n | None => [] end
  | S_Tag x => value_pointers (tag_ClassNumber x)
  | S_ObjectIdentifierValue x => value_pointers (VObjectIdentifier x)
  | S_ObjectIdElement x => value_pointers (VObjectIdentifier [x])
  | S_Constraint x | S_ConstraintSpec x => constraint_pointers x
  | S_SubtypeConstraint x => flat_map elements_pointers x
  | S_ElementSetSpec x | S_Elements x | S_Exclusions x => elements_pointers x
  | S_Unions x => flat_map (flat_map intersection_pointers) x
  | S_Intersections x => flat_map intersection_pointers x
  | S_IntersectionElements x => intersection_pointers x
  | S_RangeEndpoint x => value_pointers (re_Value x)
  | S_DefinedValue x => [inr x]
  | _ => []
  end.

(** ** Where references come from *)

Section From.
  Context (G : DefinedValue -> Prop).
  Definition good (x : Value + DefinedValue) : Prop :=
    match x with inl v => Forall G (value_references v) | inr d => G d end.

  Definition pfact (i : item) : Prop :=
    match i with Tk t => True | Nt N v => Forall good (sem_pointers v) end.

  Lemma good_value v : Forall good (value_pointers v) <-> Forall G (value_references v).
  Proof. unfold value_pointers. rewrite Forall_map. reflexivity. Qed.

  Ltac pfacts :=
    repeat match goal with
    | [ F : Forall pfact [] |- _ ] => clear F
    | [ F : Forall pfact (_ :: _) |- _ ] => inversion_clear F
    | [ F : pfact _ |- _ ] => unfold pfact in F
    end.
  Ltac refold :=
    fold (@type_pointers (value DefinedValue) DefinedValue) (@named_pointers (value DefinedValue) DefinedValue)
      (@component_pointers (value DefinedValue) DefinedValue) (@constraint_pointers (value DefinedValue) DefinedValue)
      (@elements_pointers (value DefinedValue) DefinedValue) (@intersection_pointers (value DefinedValue) DefinedValue).
  Ltac open_pointers := unfold module_pointers, mb_pointers, sfm_pointers, value_pointers, SingleElementConstraint in *.
  Ltac psplit :=
    repeat first [assumption | exact I | rewrite flat_map_app | rewrite map_app | rewrite Forall_app | apply Forall_nil | split |
      apply Forall_cons | rewrite app_nil_r | rewrite flat_one].
  Ltac phyps := repeat match goal with
    | [ F : Forall _ (_ ++ _) |- _ ] => apply Forall_app in F; destruct F
    | [ F : Forall _ [_] |- _ ] => inversion_clear F
    end.

  Lemma pointers_table : Forall (fun R : nonterm -> list item -> sem -> Prop => forall N its v,
    R N its v -> N <> N_DefinedValue -> Forall pfact its -> Forall good (sem_pointers v)) rule_table.
  Proof.
    unfold rule_table. apply Forall_cons; [contradiction|].
    repeat (apply Forall_cons; [
      let N := fresh in let its := fresh in let v := fresh in let H := fresh in let F := fresh in let D := fresh in
      intros N its v H D F; destruct H; first [now elim D|clear D]; pfacts; cbn [sem_pointers] in *; cbn; refold; open_pointers;
      cbn -[type_pointers named_pointers component_pointers constraint_pointers elements_pointers intersection_pointers] in *;
      rewrite ?app_nil_r in *;
      phyps; psplit; auto; try (apply good_value; assumption); fail|]).
    constructor.
  Qed.

  Lemma defined_table : Forall (fun R : nonterm -> list item -> sem -> Prop => forall N its v,
    R N its v -> N = N_DefinedValue -> exists d, v = S_DefinedValue d) rule_table.
  Proof.
    unfold rule_table. apply Forall_cons; [contradiction|].
    repeat (apply Forall_cons; [
      let N := fresh in let its := fresh in let v := fresh in let H := fresh in let D := fresh in
      intros N its v H D; destruct H; first [discriminate D|eexists; reflexivity]|]).
    constructor.
  Qed.

  Lemma defined_sem n its v : rule n N_DefinedValue its v -> exists d, v = S_DefinedValue d.
  Proof.
    intros R. destruct (rule_numbered n _ its v R) as (Q & I & HQ & _).
    pose proof defined_table as C. rewrite Forall_forall in C. apply (C Q) with (N := N_DefinedValue) (its := its); auto.
    apply in_combine_r in I. exact I.
  Qed.

  Lemma tree_pointers T i : yields T i ->
    (forall w d, part_of w (leaves T) -> derives N_DefinedValue w (S_DefinedValue d) -> G d) -> pfact i.
  Proof.
    revert T i.
    apply (yields_rect (fun T i =>
      (forall w d, part_of w (leaves T) -> derives N_DefinedValue w (S_DefinedValue d) -> G d) -> pfact i)).
    - intros t H. exact I.
    - intros n N its v l R Y IH H. cbn [leaves] in H.
      assert (Q : N = N_DefinedValue \/ N <> N_DefinedValue) by (destruct N; first [now left|right; discriminate]).
      destruct Q as [-> | NE].
      + destruct (defined_sem n its v R) as (d & ->).
        apply Forall_cons; [|apply Forall_nil]. apply (H (leaves (Node n l))).
        * exists [], []. now rewrite app_nil_r.
        * exists (Node n l). split; [|reflexivity]. now apply (yields_node n _ its).
      + assert (F : Forall pfact its).
        { clear R Y NE. induction IH as [|T i l its P _ IHl]; constructor.
          - apply P. intros w d (a & b & E). apply H. exists a, (b ++ flat_map leaves l). cbn [flat_map].
            rewrite E. now rewrite <- !app_assoc.
          - apply IHl. intros w d (a & b & E). apply H. exists (leaves T ++ a), b. cbn [flat_map].
            rewrite E. now rewrite <- !app_assoc. }
        destruct (rule_numbered n N its v R) as (Q & I & HQ & _).
        pose proof pointers_table as C. rewrite Forall_forall in C. apply (C Q) with (N := N) (its := its); auto.
        apply in_combine_r in I. exact I.
  Qed.
End From.

(** The references of a phrase are parts of it. *)
Lemma phrase_references ts N w v : part_of w ts -> derives N w v -> Forall (good (reference_in_text ts)) (sem_pointers v).
Proof.
  intros (a & b & ->) (T & Y & <-). apply (tree_pointers _ T _ Y). intros w d (a' & b' & E) D. exists w. split; [|exact D].
  exists (a ++ a'), (b' ++ b). rewrite E. now rewrite <- !app_assoc.
Qed.

(** ** Following pointers *)

Definition sum_map {P R P' R' : Type} (f : P -> P') (g : R -> R') (x : P + R) : P' + R' :=
  match x with inl a => inl (f a) | inr b => inr (g b) end.

Section Map.
  Context {P R P' R' : Type} (f : P -> P') (g : R -> R').
  Notation fg := (map (sum_map f g)).

  Lemma value_references_map v : value_references (value_map g v) = map g (value_references v).
  Proof.
    destruct v as [|n|r|b|d|s|l]; try reflexivity. cbn. rewrite flat_map_map. induction l as [|e l IH]; [reflexivity|].
    cbn [flat_map]. rewrite map_app, <- IH. f_equal. now destruct e as [? ? [r|]].
  Qed.

  Lemma value_pointers_map v : value_pointers (value_map g v) = fg (value_pointers v).
  Proof. unfold value_pointers. rewrite value_references_map, !map_map. reflexivity. Qed.

  Lemma flat_map_fg {A B} (h : A -> list (P + R)) (h' : B -> list (P' + R')) (k : A -> B) l :
    Forall (fun a => h' (k a) = fg (h a)) l -> flat_map h' (map k l) = fg (flat_map h l).
  Proof. induction 1 as [|a l E _ IH]; [reflexivity|]. cbn. now rewrite E, IH, map_app. Qed.

  Lemma pointers_cases : @cases P R
    (fun t => type_pointers (tmap f g t) = fg (type_pointers t))
    (fun n => named_pointers (nmap f g n) = fg (named_pointers n))
    (fun c => component_pointers (cmap f g c) = fg (component_pointers c))
    (fun c => constraint_pointers (csmap f g c) = fg (constraint_pointers c))
    (fun e => elements_pointers (emap f g e) = fg (elements_pointers e))
    (fun i => intersection_pointers (imap f g i) = fg (intersection_pointers i)).
  Proof.
    constructor; try reflexivity.
    - intros n H. exact H.
    - intros a e A B. cbn. rewrite map_app. f_equal; apply flat_map_fg; [assumption|].
      eapply Forall_impl; [|exact B]. intros [n|]; [cbn; auto|reflexivity].
    - intros c e A B. cbn. rewrite map_app. f_equal; apply flat_map_fg; assumption.
    - intros c e A B. cbn. rewrite map_app. f_equal; apply flat_map_fg; assumption.
    - intros tg t z b H. cbn. rewrite map_app. f_equal; [apply value_pointers_map|exact H].
    - intros t H. exact H.
    - intros t H. exact H.
    - intros l. cbn. apply flat_map_fg. apply Forall_forall. intros b _. apply value_pointers_map.
    - intros t c A B. cbn. rewrite map_app. f_equal; assumption.
    - intros s t H. exact H.
    - intros n o d H. cbn. rewrite map_app. f_equal; [exact H|now destruct d].
    - intros t H. exact H.
    - intros l A. cbn. apply flat_map_fg; assumption.
    - intros l A. cbn. apply flat_map_fg. eapply Forall_impl; [|exact A].
      intros k B. apply flat_map_fg; assumption.
    - intros e H. exact H.
    - intros v. apply value_pointers_map.
    - intros a b. cbn. rewrite map_app. f_equal; apply value_pointers_map.
    - intros t H. exact H.
    - intros c H. exact H.
    - intros e x A B. cbn. rewrite map_app. f_equal; assumption.
  Qed.

  Lemma module_pointers_map m : module_pointers (md_map f g m) = fg (module_pointers m).
  Proof.
    destruct m as [i t e [l s]]. unfold module_pointers, mb_pointers. cbn [md_map mb_map md_ModuleBody mb_Imports mb_AssignmentList].
    rewrite map_app. f_equal; apply flat_map_fg; apply Forall_forall.
    - intros x _. unfold sfm_pointers. cbn. apply value_pointers_map.
    - intros [|n a|n a v] _; [reflexivity| |]; cbn; rewrite ?map_app; f_equal; try apply value_pointers_map; apply (type_ind2 _ _ _ _ _ _ pointers_cases).
  Qed.
End Map.

(** ** Texts *)

(** What a slot of the memory holds. *)
Lemma slot_seen {L} ts (ps : pstate L) a i : memory_seen ts ps -> seen ts (sl_val (mem_slot (arrays ps) a i)).
Proof.
  intros [H _]. unfold mem_slot.
  destruct (nth_in_or_default i (nth a (arrays ps) []) slot_zero) as [I| ->]; [|apply seen_zero].
  destruct (nth_in_or_default a (arrays ps) []) as [J|E]; [|rewrite E in I; now destruct i].
  rewrite Forall_forall in H. specialize (H _ J). rewrite Forall_forall in H. now apply H.
Qed.

(** A blank reference, or one that is in the text. *)
Definition reference_ok (ts : list token) (d : DefinedValue) : Prop :=
  d = {| dv_ModuleName := ""; dv_ValueName := "" |} \/ reference_in_text ts d.

Lemma deref_D_ok {L} ts (ps : pstate L) d : memory_seen ts ps -> reference_in_text ts (snapD d) \/ pd_loc d <> None ->
  reference_ok ts (deref_D (arrays ps) d).
Proof.
  intros M H. unfold deref_D. destruct (pd_loc d) as [[a i]|].
  - destruct (slot_seen ts ps a i M) as [_ [E|E]]; [left; exact E|right; exact E].
  - right. destruct H as [H|H]; [exact H|now elim H].
Qed.

Lemma deref_value_refs {L} ts (ps : pstate L) (v : value ptrD) : memory_seen ts ps ->
  Forall (reference_in_text ts) (value_references (value_map snapD v)) ->
  Forall (reference_ok ts) (value_references (value_map (deref_D (arrays ps)) v)).
Proof.
  intros M. rewrite !value_references_map, !Forall_map. apply Forall_impl. intros d H. apply deref_D_ok; auto.
Qed.

Lemma deref_V_ok {L} ts (ps : pstate L) p : memory_seen ts ps ->
  (deref_V (arrays ps) p = VNil \/ exists v', value_in_text ts v' /\ same_but_references (deref_V (arrays ps) p) v') /\
  Forall (reference_ok ts) (value_references (deref_V (arrays ps) p)).
Proof.
  intros M. unfold deref_V. destruct (slot_seen ts ps (pv_arr p) (pv_idx p) M) as [V _].
  set (v := yy_Value (sl_val (mem_slot (arrays ps) (pv_arr p) (pv_idx p)))) in *.
  destruct V as [E|(N & w & _ & Pw & D)].
  - rewrite E. split; [now left|constructor].
  - split.
    + right. exists (value_map snapD v). split; [exists N, w; auto|].
      unfold same_but_references. destruct v as [|n|r|b|d|s|l]; try reflexivity.
      cbn. f_equal. rewrite !map_map. apply map_ext. intros [? ? [r|]]; reflexivity.
    + apply (deref_value_refs ts ps v M). apply (proj1 (good_value _ _)). exact (phrase_references ts N w _ Pw D).
Qed.

Section Texts.
  Context (U : unicode_tables).

  Lemma memory_outcome s m ts : parses U s (ParseOk (Some m)) -> reads_all U s ts ->
    exists L (ps : pstate L) m0, m = resolve (arrays ps) m0 /\ derives N_ModuleDefinition ts (S_module (snapM m0)) /\ memory_seen ts ps.
  Proof.
    intros [n H] R. specialize (H n (le_n _)). destruct (string_fuel U _ _ _ H) as (f & F & P). clear H n.
    unfold ParseString, ParseStream, ParseReader in P.
    destruct (yyParse (Lex stream_ops U f) Error f (new_lexer (stream_of_bytes (bytes_of_string s)))) as [[c ps]| |] eqn:Y; try discriminate P.
    cbn [rbind] in P. destruct (lx_err (ps_lx ps)) as [e|] eqn:Er; [discriminate P|]. injection P as E.
    destruct (parse_memory (Lex stream_ops U f) Error (fun x => lx_err x <> None)
      (bad_keep stream_ops U f) (bad_neg stream_ops U f) bad_Error _ f c ps Y) as [B|(w & x & v & v' & m0 & Fd & Lx & Rs & D & Me)]; [now elim B|].
    rewrite Rs in E. cbn [option_map] in E. injection E as <-.
    pose proof (st_init s) as S0.
    destruct (feed_tokens U f _ _ _ _ _ Fd _ _ _ S0 F) as (n' & rest & S1 & L1 & T1).
    destruct (Lex_eq U f x v rest None n' _ S1 ltac:(lia)) as (c1 & v1 & x1 & E1 & Q).
    rewrite Lx in E1. injection E1 as <- <- <-.
    assert (T : tokens U false (runes (bytes_of_string s)) w).
    { rewrite <- (app_nil_r w). apply T1. constructor.
      destruct (next U n' rest) as [|t n2 r2|msg r2]; cbn [lexed] in Q; [reflexivity| |].
      - destruct Q as (_ & Q & _). lia.
      - destruct Q as (Q & _). discriminate Q. }
    apply reads_all_tokens in R. rewrite (tokens_det U _ _ _ T _ R). exists _, ps, m0. auto.
  Qed.

  Lemma text_pointers s m ts : parses U s (ParseOk (Some m)) -> reads_all U s ts ->
    Forall (fun x => match x with
      | inl v => (v = VNil \/ exists v', value_in_text ts v' /\ same_but_references v v') /\ Forall (reference_ok ts) (value_references v)
      | inr d => reference_ok ts d
      end) (module_pointers m).
  Proof.
    intros P R. destruct (memory_outcome s m ts P R) as (L & ps & m0 & -> & D & Me). unfold resolve.
    rewrite module_pointers_map. rewrite Forall_map.
    assert (W : part_of ts ts) by (exists [], []; now rewrite app_nil_r).
    pose proof (phrase_references ts _ _ _ W D) as G. cbn [sem_pointers] in G. unfold snapM in G.
    rewrite module_pointers_map, Forall_map in G. eapply Forall_impl; [|exact G].
    intros [p|d] H; cbn [sum_map good] in *.
    - now apply deref_V_ok.
    - apply deref_D_ok; auto.
  Qed.

  Theorem text_defaults s m ts v : parses U s (ParseOk (Some m)) -> reads_all U s ts -> In v (default_values m) ->
    v = VNil \/ exists v', value_in_text ts v' /\ same_but_references v v'.
  Proof.
    intros P R I. pose proof (text_pointers s m ts P R) as H. rewrite Forall_forall in H.
    apply in_flat_map in I as (x & J & K). specialize (H x J). destruct x as [v0|d]; [|destruct K].
    destruct K as [<-|[]]. apply H.
  Qed.

  Theorem text_references s m ts d : parses U s (ParseOk (Some m)) -> reads_all U s ts -> In d (references m) ->
    d = {| dv_ModuleName := ""; dv_ValueName := "" |} \/ reference_in_text ts d.
  Proof.
    intros P R I. pose proof (text_pointers s m ts P R) as H. rewrite Forall_forall in H.
    apply in_flat_map in I as (x & J & K). specialize (H x J). destruct x as [v0|d0].
    - destruct H as [_ H]. rewrite Forall_forall in H. exact (H d K).
    - destruct K as [<-|[]]. exact H.
  Qed.
End Texts.
