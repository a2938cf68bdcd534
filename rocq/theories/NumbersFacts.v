(** The numbers of a derivation tree are the numbers of its value. *)
From Coq Require Import ZArith String List Bool Lia SpecFloat.
From Verif Require Import GoBase Tokens Tables Ast RealNum Grammar GrammarFacts AstInd ParserFacts ComponentFacts Words Forgotten ForgottenFacts WordsFacts Numbers.
Import ListNotations.
Local Open Scope list_scope.
Local Open Scope Z_scope.

Section Sem.
  Context (p : value DefinedValue -> list numeral).

  (** The numbers of a value of the grammar. *)
  Definition sem_numbers (v : sem) : list numeral :=
    match v with
    | S_module x => module_numbers p x
    | S_Number x => [Whole x]
    | S_Real x => [Decimal x]
    | S_ModuleIdentifier x => mi_numbers x
    | S_DefinitiveIdentifier x | S_DefinitiveObjIdComponentList x => map (fun c => Whole (doc_Id c)) x
    | S_DefinitiveObjIdComponent x => [Whole (doc_Id x)]
    | S_ModuleBody x => mb_numbers p x
    | S_Imports x => flat_map sfm_numbers x
    | S_SymbolsFromModule x => sfm_numbers x
    | S_GlobalModuleReference x => value_numbers (gmr_AssignedIdentifier x)
    | S_Value x => value_numbers x
    | S_AssignmentList x => flat_map (assignment_numbers p) x
    | S_Assignment x => assignment_numbers p x
    | S_Type x => type_numbers p x
    | S_NamedType x => named_numbers p x
    | S_NamedNumberList x => flat_map nn_numbers x
    | S_NamedNumber x => nn_numbers x
    | S_EnumeratedType x => et_numbers x
    | S_Enumeration x => flat_map ei_numbers x
    | S_EnumerationItem x => ei_numbers x
    | S_NamedBitList x => flat_map (fun b => value_numbers (nb_Index b)) x
    | S_NamedBit x => value_numbers (nb_Index x)
    | S_ComponentTypeLists x =>
        flat_map (component_numbers p) (ctl_Components x) ++
        flat_map (component_numbers p) (ctl_ExtensionAdditions x) ++
        flat_map (component_numbers p) (ctl_TrailingComponents x)
    | S_ComponentTypeList x | S_ExtensionAdditions x => flat_map (component_numbers p) x
    | S_ComponentType x => component_numbers p x
    | S_ChoiceType x =>
        flat_map (named_numbers p) (ct_AlternativeTypeList x) ++
        flat_map (fun o => match o with Some n => named_numbers p n | None => [] end) (ct_ExtensionTypes x)
    | S_AlternativeTypeList x => flat_map (named_numbers p) x
    | S_ExtensionAdditionAlternativesList x => flat_map (fun o => match o with Some n => named_numbers p n | None => [] end) x
    | S_ExtensionAdditionAlternative x => match x with Some n => named_numbers p n | None => [] end
    | S_Tag x => value_numbers (tag_ClassNumber x)
    | S_ObjectIdentifierValue x => map (fun e => Whole (oe_ID e)) x
    | S_ObjectIdElement x => [Whole (oe_ID x)]
    | S_Constraint x | S_ConstraintSpec x => constraint_numbers p x
    | S_SubtypeConstraint x => flat_map (elements_numbers p) x
    | S_ElementSetSpec x | S_Elements x | S_Exclusions x => elements_numbers p x
    | S_Unions x => flat_map (flat_map (intersection_numbers p)) x
    | S_Intersections x => flat_map (intersection_numbers p) x
    | S_IntersectionElements x => intersection_numbers p x
    | S_RangeEndpoint x => value_numbers (re_Value x)
    | S_none | S_TypeReference _ | S_name _ | S_ValueReference _ | S_TagDefault _ | S_ExtensionDefault _ | S_SymbolList _
    | S_Symbol _ | S_DefinedValue _ | S_Class _ => []
    end.
End Sem.

Lemma flat_one {A B} (f : A -> list B) a : flat_map f [a] = f a.
Proof. apply app_nil_r. Qed.

(** ** Where numbers come from *)

Section From.
  Context (G : Z -> Prop) (G0 : G 0) (Gopp : forall z, G z -> G (wrap64 (- z))).
  Notation good := (fun x => match x with Whole z => G z | Decimal _ => True end).
  Notation sem_plain := (sem_numbers (fun _ => [])).

  Definition gtoken (t : token) : Prop := tk_kind t = T_NUMBER -> G (tk_number t).
  Definition gfact (i : item) : Prop :=
    match i with Tk t => gtoken t | Nt N v => Forall good (sem_plain v) end.

  Ltac gfacts :=
    repeat match goal with
    | [ F : Forall gfact [] |- _ ] => clear F
    | [ F : Forall gfact (_ :: _) |- _ ] => inversion_clear F
    | [ F : gfact _ |- _ ] => unfold gfact, gtoken in F
    end.
  Ltac refold :=
    fold (@type_numbers (value DefinedValue) DefinedValue (fun _ => [])) (@named_numbers (value DefinedValue) DefinedValue (fun _ => []))
      (@component_numbers (value DefinedValue) DefinedValue (fun _ => [])) (@constraint_numbers (value DefinedValue) DefinedValue (fun _ => []))
      (@elements_numbers (value DefinedValue) DefinedValue (fun _ => [])) (@intersection_numbers (value DefinedValue) DefinedValue (fun _ => [])).
  Ltac open_numbers := unfold module_numbers, mb_numbers, mi_numbers, sfm_numbers, et_numbers, SingleElementConstraint in *.
  Ltac gsplit :=
    repeat first [assumption | exact I | rewrite flat_map_app | rewrite map_app | rewrite Forall_app | apply Forall_nil | split |
      apply Forall_cons | rewrite app_nil_r | rewrite flat_one].
  Ltac ghyps := repeat match goal with
    | [ F : Forall _ (_ ++ _) |- _ ] => apply Forall_app in F; destruct F
    | [ F : Forall _ [_] |- _ ] => inversion_clear F
    end.

  Lemma numbers_table : Forall (fun R : nonterm -> list item -> sem -> Prop => forall N its v,
    R N its v -> Forall gfact its -> Forall good (sem_plain v)) rule_table.
  Proof.
    unfold rule_table. apply Forall_cons; [contradiction|].
    repeat (apply Forall_cons; [
      let N := fresh in let its := fresh in let v := fresh in let H := fresh in let F := fresh in
      intros N its v H F; destruct H; gfacts; cbn [sem_numbers] in *; cbn; refold; open_numbers;
      cbn -[type_numbers named_numbers component_numbers constraint_numbers elements_numbers intersection_numbers] in *;
      ghyps; gsplit; auto; fail|]).
    constructor.
  Qed.

  Lemma tree_numbers T i : yields T i -> Forall gtoken (leaves T) -> gfact i.
  Proof.
    revert T i. apply (yields_rect (fun T i => Forall gtoken (leaves T) -> gfact i)).
    - intros t H. now inversion_clear H.
    - intros n N its v l R _ IH H. cbn [leaves] in H.
      assert (F : Forall gfact its).
      { clear R. induction IH as [|T i l its P _ IHl]; constructor.
        - apply P. cbn [flat_map] in H. now apply Forall_app in H.
        - apply IHl. cbn [flat_map] in H. now apply Forall_app in H. }
      destruct (rule_numbered n N its v R) as (Q & I & HQ & _).
      pose proof numbers_table as C. rewrite Forall_forall in C. apply (C Q) with (N := N) (its := its); [|exact HQ|exact F].
      apply in_combine_r in I. exact I.
  Qed.
End From.

(** Numbers that are not behind pointers do not depend on what these point to. *)
Section Map.
  Context {P R P' R' : Type} (f : P -> P') (g : R -> R').
  Notation none := (fun _ => []).

  Lemma value_numbers_map v : value_numbers (value_map g v) = value_numbers v.
  Proof. destruct v as [|n|r|b|d|s|l]; try reflexivity. cbn. rewrite map_map. apply map_ext. now intros [? ? ?]. Qed.

  Lemma numbers_cases : @cases P R
    (fun t => type_numbers none (tmap f g t) = type_numbers none t)
    (fun n => named_numbers none (nmap f g n) = named_numbers none n)
    (fun c => component_numbers none (cmap f g c) = component_numbers none c)
    (fun c => constraint_numbers none (csmap f g c) = constraint_numbers none c)
    (fun e => elements_numbers none (emap f g e) = elements_numbers none e)
    (fun i => intersection_numbers none (imap f g i) = intersection_numbers none i).
  Proof.
    constructor; try reflexivity.
    - intros n H. exact H.
    - intros a e A B. cbn. rewrite !flat_map_map. f_equal; apply flat_map_same; [assumption|].
      eapply Forall_impl; [|exact B]. intros [n|]; [cbn; auto|reflexivity].
    - intros c e A B. cbn. rewrite !flat_map_map. f_equal; apply flat_map_same; assumption.
    - intros c e A B. cbn. rewrite !flat_map_map. f_equal; apply flat_map_same; assumption.
    - intros tg t z b H. cbn. f_equal; [apply value_numbers_map|exact H].
    - intros t H. exact H.
    - intros t H. exact H.
    - intros l. cbn. rewrite flat_map_map. apply flat_map_same. apply Forall_forall. intros b _. apply value_numbers_map.
    - intros t c A B. cbn. f_equal; assumption.
    - intros s t H. exact H.
    - intros n o d H. cbn. f_equal; [exact H|now destruct d].
    - intros t H. exact H.
    - intros l A. cbn. rewrite flat_map_map. apply flat_map_same; assumption.
    - intros l A. cbn. rewrite flat_map_map. apply flat_map_same. eapply Forall_impl; [|exact A].
      intros k B. rewrite flat_map_map. apply flat_map_same; assumption.
    - intros e H. exact H.
    - intros v. apply value_numbers_map.
    - intros a b. cbn. f_equal; apply value_numbers_map.
    - intros t H. exact H.
    - intros c H. exact H.
    - intros e x A B. cbn. f_equal; assumption.
  Qed.

  Lemma module_numbers_map m : module_numbers none (md_map f g m) = module_numbers none m.
  Proof.
    destruct m as [i t e [l s]]. unfold module_numbers, mb_numbers. cbn [md_map mb_map md_ModuleIdentifier md_ModuleBody mb_Imports mb_AssignmentList].
    f_equal. rewrite !flat_map_map. f_equal; apply flat_map_same; apply Forall_forall.
    - intros x _. unfold sfm_numbers. cbn. apply value_numbers_map.
    - intros [|n a|n a v] _; [reflexivity| |]; cbn; f_equal; try apply value_numbers_map; apply (type_ind2 _ _ _ _ _ _ numbers_cases).
  Qed.
End Map.

Lemma shape_numbers (m m' : Module_) : shape m = shape m' -> plain_numbers m = plain_numbers m'.
Proof.
  intros E. unfold plain_numbers.
  rewrite <- (module_numbers_map (fun _ => tt) (fun _ => tt) m), <- (module_numbers_map (fun _ => tt) (fun _ => tt) m').
  unfold shape in E. now rewrite E.
Qed.

(** ** How often they occur *)

(** Nonterminals that occur only in constructs without a trace. *)
Definition ndead (N : nonterm) : bool := match N with N_VersionNumber => true | _ => dead N end.

Section Count.
  Context (n : Z) (Hn : 0 < n < 2 ^ 63).
  Notation cnt := (times_unsigned n).
  Notation sn := (sem_numbers value_numbers).

  Lemma cnt_app a b : cnt (a ++ b) = (cnt a + cnt b)%nat.
  Proof. unfold times_unsigned. now rewrite filter_app, app_length. Qed.
  Lemma cnt_cons a b : cnt (a :: b) = (cnt [a] + cnt b)%nat.
  Proof. exact (cnt_app [a] b). Qed.
  Lemma cnt_zero : cnt [Whole 0] = 0%nat.
  Proof. unfold times_unsigned. cbn [filter]. destruct (Z.eqb_spec (Z.abs 0) n); [lia|reflexivity]. Qed.
  Lemma cnt_nil : cnt [] = 0%nat.
  Proof. reflexivity. Qed.
  Lemma cnt_opp z : 0 <= z < 2 ^ 63 -> cnt [Whole (wrap64 (- z))] = cnt [Whole z].
  Proof.
    intros B. unfold times_unsigned, wrap64. cbn [filter]. rewrite Z.mod_small by lia.
    replace (Z.abs (- z + 2 ^ 63 - 2 ^ 63)) with (Z.abs z) by lia. now destruct (Z.abs z =? n).
  Qed.

  (** The numbers of a token, as far as they are [n]. *)
  Definition tcount (t : token) : nat := if tk_kind t =? T_NUMBER then cnt [Whole (tk_number t)] else 0%nat.

  (** What is known of a symbol of a right side in whose text [n] occurs [c] times. *)
  Definition fact (i : item) (c : nat) : Prop :=
    match i with
    | Tk t => (tk_kind t = T_NUMBER -> 0 <= tk_number t < 2 ^ 63) /\ c = tcount t
    | Nt N v => ndead N = false -> all_whole (sn v) = true -> c = cnt (sn v)
    end.

  Lemma tcount_kind t k : tk_kind t = k -> tcount t = if k =? T_NUMBER then cnt [Whole (tk_number t)] else 0%nat.
  Proof. intros <-. reflexivity. Qed.

  Ltac one_token :=
    match goal with
    | [ B : _ = tcount ?t, K : tk_kind ?t = ?k |- _ ] =>
        rewrite (tcount_kind t k K) in B;
        let w := eval cbv in (k =? T_NUMBER) in change (k =? T_NUMBER) with w in B; cbv iota in B
    end.

  Ltac facts :=
    repeat match goal with
    | [ F : Forall2 fact [] _ |- _ ] => inversion_clear F
    | [ F : Forall2 fact (_ :: _) _ |- _ ] => inversion_clear F
    | [ F : fact (Tk _) _ |- _ ] => destruct F as (? & ?)
    | [ F : fact (Nt _ _) _ |- _ ] => specialize (F eq_refl)
    | [ F : fact (Nt _ _) _ |- _ ] => clear F
    end.

  Lemma aw_app a b : all_whole (a ++ b) = all_whole a && all_whole b.
  Proof. apply forallb_app. Qed.

  Ltac refold :=
    fold (@type_numbers (value DefinedValue) DefinedValue value_numbers) (@named_numbers (value DefinedValue) DefinedValue value_numbers)
      (@component_numbers (value DefinedValue) DefinedValue value_numbers) (@constraint_numbers (value DefinedValue) DefinedValue value_numbers)
      (@elements_numbers (value DefinedValue) DefinedValue value_numbers) (@intersection_numbers (value DefinedValue) DefinedValue value_numbers).
  Ltac open_numbers := unfold module_numbers, mb_numbers, mi_numbers, sfm_numbers, et_numbers, SingleElementConstraint in *.
  Ltac lists := repeat first [rewrite flat_map_app | rewrite map_app | rewrite flat_one | rewrite app_nil_r].
  Ltac whole := repeat match goal with
    | [ W : all_whole (_ ++ _) = true |- _ ] => rewrite aw_app in W; apply andb_true_iff in W as [? W]
    | [ F : all_whole _ = true -> _ |- _ ] => specialize (F ltac:(first [assumption | reflexivity | rewrite !aw_app; repeat (apply andb_true_iff; split); assumption]))
    end.
  Ltac counts := repeat first [rewrite cnt_app | rewrite cnt_zero | rewrite cnt_nil | rewrite cnt_opp by auto |
     match goal with |- context [cnt (?a :: ?b)] => lazymatch b with nil => fail | _ => rewrite (cnt_cons a b) end end].

  Ltac one_rule :=
    let H := fresh in let F := fresh in let D := fresh in let W := fresh in
    intros H F D W; destruct H; try discriminate D; clear D; facts; repeat one_token;
    cbn [sem_numbers] in *; revert W; cbn -[times_unsigned all_whole wrap64]; refold; lists; intros W; 
    first [discriminate W |
    open_numbers; cbn -[times_unsigned all_whole wrap64 type_numbers named_numbers component_numbers constraint_numbers elements_numbers intersection_numbers] in *;
    whole; subst; cbn -[times_unsigned all_whole wrap64 type_numbers named_numbers component_numbers constraint_numbers elements_numbers intersection_numbers]; counts; lia].

  Lemma rules_count : Forall (fun p : Z * (nonterm -> list item -> sem -> Prop) => forall N its v cs,
    forgotten (fst p) = false -> snd p N its v -> Forall2 fact its cs -> ndead N = false -> all_whole (sn v) = true ->
    list_sum cs = cnt (sn v)) (tl numbered).
  Proof.
    unfold numbered. cbn [seq map combine rule_table Z.of_nat Pos.of_succ_nat Pos.succ tl].
    repeat (apply Forall_cons; [let G := fresh in cbn [fst snd]; intros ? ? ? ? G; first [discriminate G | clear G; one_rule]|]).
    constructor.
  Qed.

  (** The numbers of tokens are not negative. *)
  Definition clean (t : token) : Prop := tk_kind t = T_NUMBER -> 0 <= tk_number t < 2 ^ 63.

  Lemma tree_count T i : recalls T i -> Forall clean (leaves T) -> fact i (list_sum (map tcount (leaves T))).
  Proof.
    revert T i. apply (recalls_rect (fun T i => Forall clean (leaves T) -> fact i (list_sum (map tcount (leaves T))))).
    - intros t H. inversion_clear H as [|? ? H2 _]. split; [exact H2|]. cbn [leaves map list_sum fold_right]. lia.
    - intros k N its v l R G _ IH H D W. cbn [leaves] in *.
      assert (F : exists cs, Forall2 fact its cs /\ list_sum cs = list_sum (map tcount (flat_map leaves l))).
      { clear R D W. induction IH as [|T i l its P _ IHl]; [exists []; split; [constructor|reflexivity]|].
        cbn [flat_map] in H. apply Forall_app in H as [A B].
        destruct (IHl B) as (cs & F & E). exists (list_sum (map tcount (leaves T)) :: cs). split; [constructor; auto|].
        cbn [flat_map]. rewrite map_app, list_sum_app, <- E. reflexivity. }
      destruct F as (cs & F & E). rewrite <- E.
      destruct (rule_numbered k N its v R) as (Q & I & HQ & B). apply in_tail in I; [|lia].
      pose proof rules_count as C. rewrite Forall_forall in C. exact (C _ I N its v cs G HQ F D W).
    - intros k N its v R G _ _ _. pose proof (forgotten_void k N its v R G) as V.
      destruct N; try contradiction V; cbn [void] in V; subst v; reflexivity.
  Qed.

  Lemma text_times ts : Forall clean ts -> times n (text_numbers ts) = list_sum (map tcount ts).
  Proof.
    induction 1 as [|t ts C _ IH]; [reflexivity|]. cbn [map list_sum fold_right]. unfold text_numbers in *. cbn [flat_map].
    unfold times in *. rewrite count_occ_app, IH. f_equal. unfold token_numbers, tcount.
    destruct (Z.eqb_spec (tk_kind t) T_NUMBER) as [K|K]; [|reflexivity]. specialize (C K). unfold times_unsigned. cbn [count_occ filter].
    replace (Z.abs (tk_number t)) with (tk_number t) by lia.
    destruct (Z.eq_dec (tk_number t) n) as [E|E], (Z.eqb_spec (tk_number t) n); try contradiction; reflexivity.
  Qed.
End Count.

(** The numbers of a module text outside of what is forgotten are those of its value. *)
Lemma module_times n T m : 0 < n < 2 ^ 63 -> yields T (Nt N_ModuleDefinition (S_module m)) -> Forall clean (leaves T) ->
  all_whole (numbers m) = true -> times n (text_numbers (outside T)) = times_unsigned n (numbers m).
Proof.
  intros Hn Y C W. assert (C' : Forall clean (outside T)).
  { rewrite Forall_forall in *. intros t I. apply C. now apply outside_incl. }
  rewrite text_times by assumption. exact (tree_count n Hn _ _ (remembered_recalls T _ Y) C' eq_refl W).
Qed.
