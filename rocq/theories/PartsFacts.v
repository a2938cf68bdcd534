(** The parts of a derivation tree of a module are those of its value (C85). *)
From Coq Require Import ZArith String List Bool Lia Permutation.
From Verif Require Import GoBase Tokens Tables Ast RealNum AstInd ParserFacts ComponentFacts StructFacts Words Forgotten WordsFacts Numbers NumbersFacts
  Numerals NumeralFacts Ranges RangesFacts Structs WrittenTags WrittenTagsFacts ItemLists ItemListsFacts Typings TypingsFacts WrittenValues WrittenValuesFacts Conflicts Parts.
From Verif Require Import Grammar GrammarFacts ForgottenFacts.
Import ListNotations.
Local Open Scope string_scope.
Local Open Scope list_scope.
Local Open Scope Z_scope.

Definition one (k : Z) (s : string) (l : list token) : Prop := exists t, l = [t] /\ tk_kind t = k /\ tk_name t = s.
Definition without (k : Z) (l : list token) : Prop := Forall (fun t => tk_kind t <> k) l.

(** The phrases [Is] of imports, the phrases [As] of assignments. *)
Definition import_phrases (Is : list tree) (l : list (SymbolsFromModule DefinedValue)) : Prop :=
  Forall2 (fun T i => yields T (Nt N_SymbolsFromModule (S_SymbolsFromModule i)) /\ import_text (leaves T) i) Is l.
Definition assignment_phrases (As : list tree) (l : list Assignment_) : Prop :=
  Forall2 (fun T a => yields T (Nt N_Assignment (S_Assignment a)) /\ (exists up next, kept up next T = true) /\ assignment_text (leaves T) a) As l.

Definition part (N : nonterm) (v : sem) (T : tree) : Prop :=
  let l := leaves T in
  match N, v with
  | N_modulereference, S_name s | N_typereference, S_TypeReference s => one T_TYPEORMODULEREFERENCE s l
  | N_valuereference, S_ValueReference s => one T_VALUEIDENTIFIER s l
  | N_identifier, _ | N_DefinitiveObjIdComponentList, _ | N_DefinitiveObjIdComponent, _ | N_DefinitiveNumberForm, _
  | N_DefinitiveNameAndNumberForm, _ | N_NameForm, _ | N_DefinitiveIdentifier, _ => without T_DEFINITIONS l
  | N_ModuleIdentifier, S_ModuleIdentifier i => exists q oid, l = q :: oid /\ tk_name q = mi_Reference i /\ without T_DEFINITIONS oid
  | N_TagDefault, S_TagDefault z => without T_ASSIGNMENT l /\ said_extensible l = false /\
      forall r, without T_IMPLICIT r -> without T_AUTOMATIC r -> said_tags (l ++ r) = z
  | N_ExtensionDefault, S_ExtensionDefault b => without T_ASSIGNMENT l /\ without T_IMPLICIT l /\ without T_AUTOMATIC l /\ said_extensible l = b
  | N_Reference, S_Symbol y | N_Symbol, S_Symbol y =>
      exists t, l = [t] /\ tk_kind t <> T_FROM /\ no_comma t = true /\ said_symbol t = y
  | N_SymbolList, S_SymbolList y => without T_FROM l /\ y = map said_symbol (filter no_comma l)
  | N_ObjectIdentifierValue, _ => first_kind l = T_OPEN_CURLY
  | N_DefinedValue, S_DefinedValue d => exists v, l = [v] /\ d = {| dv_ModuleName := ""; dv_ValueName := tk_name v |} \/
      exists q dot, l = [q; dot; v] /\ d = {| dv_ModuleName := tk_name q; dv_ValueName := tk_name v |}
  | N_AssignedIdentifier, S_Value x =>
      match x with
      | VNil => l = []
      | VDefined d => exists v, l = [v] /\ d = {| dv_ModuleName := ""; dv_ValueName := tk_name v |} \/
          exists q dot, l = [q; dot; v] /\ d = {| dv_ModuleName := tk_name q; dv_ValueName := tk_name v |}
      | VObjectIdentifier _ => first_kind l = T_OPEN_CURLY
      | _ => False
      end
  | N_GlobalModuleReference, S_GlobalModuleReference g => exists q id, l = q :: id /\ gmr_Reference g = tk_name q /\
      match gmr_AssignedIdentifier g with
      | VNil => id = []
      | VDefined d => exists v, id = [v] /\ d = {| dv_ModuleName := ""; dv_ValueName := tk_name v |} \/
          exists q dot, id = [q; dot; v] /\ d = {| dv_ModuleName := tk_name q; dv_ValueName := tk_name v |}
      | VObjectIdentifier _ => first_kind id = T_OPEN_CURLY
      | _ => False
      end
  | N_SymbolsFromModule, S_SymbolsFromModule i => import_text l i
  | N_SymbolsFromModuleList, S_Imports x | N_SymbolsImported, S_Imports x => exists Is, l = flat_map leaves Is /\ import_phrases Is x
  | N_Imports, S_Imports x => exists Is, imports_text l Is /\ import_phrases Is x
  | N_Exports, _ => exports_text l
  | N_TypeAssignment, S_Assignment a | N_ValueAssignment, S_Assignment a | N_Assignment, S_Assignment a => assignment_text l a
  | N_AssignmentList, S_AssignmentList x => exists As, l = flat_map leaves As /\ assignment_phrases As x
  | N_ModuleBody, S_ModuleBody b => exists Is As el il, l = el ++ il ++ flat_map leaves As /\ exports_text el /\ imports_text il Is /\
      import_phrases Is (mb_Imports b) /\ assignment_phrases As (mb_AssignmentList b)
  | N_ModuleDefinition, S_module m => exists Is As, module_text l m Is As /\
      import_phrases Is (mb_Imports (md_ModuleBody m)) /\ assignment_phrases As (mb_AssignmentList (md_ModuleBody m))
  | _, _ => True
  end.

Definition pfact (i : item) (T : tree) : Prop :=
  yields T i /\ (exists up next, kept up next T = true) /\
  match i with
  | Tk t => T = Leaf t
  | Nt N v => part N v T
  end.

Ltac items :=
  repeat match goal with
  | [ F : Forall2 _ [] _ |- _ ] => inversion_clear F
  | [ F : Forall2 _ (_ :: _) _ |- _ ] => inversion_clear F
  end.
Ltac parts :=
  repeat match goal with
  | [ F : pfact (Tk _) _ |- _ ] => destruct F as (_ & _ & F); subst
  | [ F : pfact (Nt _ _) _ |- _ ] => destruct F as (? & ? & F); cbn [part] in F
  end.

Ltac all_kinds := repeat match goal with [ K : tk_kind ?t = _ |- context [tk_kind ?t] ] => rewrite K end.
Ltac other_kind := let E := fresh in intros E; match goal with [ K : tk_kind ?t = _ |- _ ] => rewrite K in E; discriminate E end.
Ltac plain := unfold without in *; repeat first [assumption | apply Forall_nil | apply Forall_app; split | apply Forall_cons; [other_kind|]].
Ltac ext := unfold said_extensible; cbn [app existsb]; all_kinds; reflexivity.
Ltac ones := match goal with [ F : one _ _ ?l |- _ ] => let t := fresh "t" in destruct F as (t & -> & ? & ?) end.
Ltac two := ones; ones.

Lemma parts_table : Forall (fun p : Z * (nonterm -> list item -> sem -> Prop) => forall N its v l,
  never (fst p) = false -> snd p N its v -> Forall2 pfact its l -> part N v (Node (fst p) l)) (tl numbered).
Proof.
  unfold numbered. cbn [seq map combine rule_table Z.of_nat Pos.of_succ_nat Pos.succ tl].
  repeat (apply Forall_cons; [
    let N := fresh in let its := fresh in let v := fresh in let l := fresh in let H := fresh in let F := fresh in let G := fresh in
    cbn [fst snd]; intros N its v l G H F; first [discriminate G | clear G]; destruct H; first [exact I | items; parts; cbn [part leaves flat_map]; rewrite ?app_nil_r;
    first [assumption | idtac]]|]); try apply Forall_nil.
  all: try solve [eexists; repeat split; eauto].
  all: try solve [plain].
  - (* ModuleDefinition *)
    match goal with [ F : exists q oid, leaves y = _ /\ _ |- _ ] => destruct F as (q & oid & E & Q & W) end.
    match goal with [ F : exists Is As el il, _ |- _ ] => destruct F as (Is & As & el & il & E5 & X & Im & Ip & Ap) end.
    match goal with [ F : without _ _ /\ _ /\ (forall r, _), G : without _ _ /\ without _ _ /\ _ |- _ ] => destruct F as (A1 & A2 & A3), G as (B1 & B2 & B3 & B4) end.
    exists Is, As. split; [|auto]. exists q, oid, t2, (leaves y1 ++ leaves y2), t5, t6, el, il, t8.
    rewrite E, E5. cbn [app md_ModuleIdentifier md_TagDefault md_ExtensibilityImplied]. rewrite <- !app_assoc. split; [reflexivity|].
    repeat split; auto; [apply Forall_app; auto|symmetry; auto|unfold said_extensible in *; rewrite existsb_app, A2, B4; reflexivity].
  - (* ModuleIdentifier *)
    ones. cbn [app]. eexists _, _. repeat split; auto.
  - split; [plain|]. split; [ext|]. intros r _ _. cbn [app said_tags]. all_kinds. reflexivity.
  - split; [plain|]. split; [ext|]. intros r _ _. cbn [app said_tags]. all_kinds. reflexivity.
  - split; [plain|]. split; [ext|]. intros r _ _. cbn [app said_tags]. all_kinds. reflexivity.
  - split; [plain|]. split; [reflexivity|]. intros [|t r] A B; [reflexivity|]. cbn [app said_tags].
    inversion_clear A as [|? ? A1 _]. inversion_clear B as [|? ? B1 _].
    destruct (Z.eqb_spec (tk_kind t) T_IMPLICIT); [contradiction|]. destruct (Z.eqb_spec (tk_kind t) T_AUTOMATIC); [contradiction|reflexivity].
  - split; [plain|]. split; [plain|]. split; [plain|ext].
  - repeat split; constructor.
  - (* ModuleBody *)
    match goal with [ F : exists Is, imports_text _ _ /\ _ |- _ ] => destruct F as (Is & Im & Ip) end.
    match goal with [ F : exists As, _ = flat_map _ _ /\ _ |- _ ] => destruct F as (As & E & Ap) end.
    exists Is, As, (leaves y), (leaves y0). rewrite E. auto.
  - exists [], [], [], []. repeat split; try constructor; auto.
  - right. eexists _, _, _. cbn [app]. split; [reflexivity|auto].
  - right. exists t1, [t2], t3. auto.
  - left. reflexivity.
  - match goal with [ F : exists Is, _ = flat_map _ _ /\ _ |- _ ] => destruct F as (Is & E & Ip) end.
    exists Is. split; [|exact Ip]. right. exists t1, t3. rewrite E. auto.
  - exists []. split; [left; auto|constructor].
  - exists []. split; [reflexivity|constructor].
  - exists [y]. cbn [flat_map app]. rewrite app_nil_r. split; [reflexivity|]. repeat constructor; auto.
  - match goal with [ F : exists Is, _ = flat_map _ _ /\ _ |- _ ] => destruct F as (Is & E & Ip) end.
    exists (Is ++ [y0]). rewrite flat_map_app. cbn [flat_map]. rewrite app_nil_r, E. split; [reflexivity|].
    apply Forall2_app; [exact Ip|]. repeat constructor; auto.
  - (* SymbolsFromModule *)
    match goal with [ F : without _ _ /\ _, G : exists q id, _ |- _ ] => destruct F as (W & E), G as (q & id & E1 & R & M) end.
    rewrite E1. exists (leaves y), t2, q, id. repeat split; auto.
  - ones. cbn [app]. eexists _, _. repeat split; auto.
  - match goal with [ F : exists t, leaves y = [t] /\ _ |- _ ] => destruct F as (t & -> & K & C & E) end.
    split; [constructor; auto|]. cbn [filter]. rewrite C. cbn [map app]. now rewrite E.
  - match goal with [ F : exists t, leaves y1 = [t] /\ _, G : without _ _ /\ _ |- _ ] => destruct F as (t & -> & K & C & E), G as (W & ->) end.
    split; [unfold without; apply Forall_app; split; [exact W|]; cbn [app]; apply Forall_cons; [other_kind|constructor; auto]|].
    rewrite !filter_app, !map_app. cbn [filter]. rewrite C. assert (X : no_comma t2 = false) by (unfold no_comma; all_kinds; reflexivity). rewrite X. cbn [map app]. now rewrite E.
  - ones. eexists. split; [reflexivity|]. unfold no_comma, said_symbol. all_kinds. repeat split; [discriminate|cbn; congruence].
  - ones. eexists. split; [reflexivity|]. unfold no_comma, said_symbol. all_kinds. repeat split; [discriminate|cbn; congruence].
  - exists [y]. cbn [flat_map app]. rewrite app_nil_r. split; [reflexivity|]. repeat constructor; auto.
  - match goal with [ F : exists As, _ = flat_map _ _ /\ _ |- _ ] => destruct F as (As & E & Ip) end.
    exists (As ++ [y0]). rewrite flat_map_app. cbn [flat_map]. rewrite app_nil_r, E. split; [reflexivity|].
    apply Forall2_app; [exact Ip|]. repeat constructor; auto.
  - two. eexists. right. eexists _, _. cbn [app]. split; [reflexivity|congruence].
  - ones. eexists. left. split; [reflexivity|congruence].
  - ones. cbn [app assignment_text]. eexists _, _, _. repeat split; eauto.
  - ones. cbn [app assignment_text]. eexists _, _, _, _. repeat split; eauto.
Qed.

(** Subtrees of a kept tree are kept. *)
Lemma kept_kids up next n l : kept up next (Node n l) = true -> never n = false /\ Forall (fun T => exists up next, kept up next T = true) l.
Proof.
  cbn [kept]. rewrite !andb_true_iff. intros [[A _] B]. split; [unfold lost in A; now destruct (never n)|]. clear A. revert B. generalize (place up n) as u.
  intros u. induction l as [|T l IH]; intros B; [constructor|]. apply andb_true_iff in B as [B C]. constructor; [eauto|auto].
Qed.

Lemma tree_parts T i : yields T i -> (exists up next, kept up next T = true) -> pfact i T.
Proof.
  revert T i. apply (yields_rect (fun T i => (exists up next, kept up next T = true) -> pfact i T)).
  - intros t K. repeat split; [constructor|exact K].
  - intros n N its v l R Y IH K. split; [econstructor; eassumption|]. split; [exact K|]. destruct K as (up & next & K).
    destruct (kept_kids up next n l K) as [A F]. destruct (rule_numbered n N its v R) as (Q & I & HQ & B). apply in_tail in I; [|lia].
    pose proof parts_table as C. rewrite Forall_forall in C. apply (C (n, Q) I N its v l A HQ).
    clear -IH F. induction IH; constructor; inversion_clear F; auto.
Qed.

(** ** Names do not depend on what pointers point to *)

Section Map.
  Context {P R P' R' : Type} (f : P -> P') (g : R -> R').

  Lemma import_text_map l (i : SymbolsFromModule R) : import_text l (sfm_map g i) <-> import_text l i.
  Proof.
    destruct i as [y [q v]]. unfold import_text. cbn [sfm_map gmr_map sfm_SymbolList sfm_Module gmr_Reference gmr_AssignedIdentifier].
    destruct v; reflexivity.
  Qed.
  Lemma assignment_text_map l (a : assignment P R) : assignment_text l (amap f g a) <-> assignment_text l a.
  Proof. destruct a; reflexivity. Qed.
End Map.

Lemma phrases_map {A B D} (F : A -> B -> Prop) (G : A -> D -> Prop) (h : B -> D) l k :
  (forall a b, G a (h b) <-> F a b) -> Forall2 G l (map h k) <-> Forall2 F l k.
Proof.
  intros E. revert l. induction k as [|b k IH]; intros [|a l]; cbn [map]; split; intros H; inversion_clear H; constructor;
    first [now apply E | now apply IH].
Qed.

(** ** The contents of an assignment *)

Lemma assignment_contents A a : yields A (Nt N_Assignment (S_Assignment a)) -> (exists up next, kept up next A = true) -> Forall clean (leaves A) ->
  same_contents A a.
Proof.
  intros Y (up & next & K) C. pose proof (remembered_recalls A _ Y) as Rc.
  assert (C' : Forall clean (outside A)).
  { rewrite Forall_forall in *. intros t I. apply C. now apply outside_incl. }
  repeat split.
  - intros x Hx. exact (proj1 (WordsFacts.tree_count x Hx _ _ Rc eq_refl)).
  - intros x Hx. exact (proj1 (tree_numerals x Hx _ _ Rc C') eq_refl).
  - intros x. exact (proj1 (tree_components x _ _ Rc) eq_refl).
  - intros x. exact (proj1 (tree_structs x A _ Y up next K) eq_refl).
  - apply (Permutation_count_occ range_dec). intros r. destruct (recalls_ranges r true _ _ Rc) as [_ F].
    unfold text_ranges. rewrite between_behind. exact (proj2 (F [] []) eq_refl eq_refl).
  - exact (phrase_tags _ _ _ Rc eq_refl ltac:(discriminate)).
  - exact (phrase_lists _ _ _ Rc C' eq_refl).
  - exact (phrase_typings _ _ _ Rc C' eq_refl).
  - exact (phrase_values _ _ _ Rc C' (kept_sane A up next K) eq_refl).
Qed.
