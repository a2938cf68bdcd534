(** The declarations made of an assignment, and its text (C90). *)
From Coq Require Import ZArith String List Bool Lia Permutation.
From Verif Require Import GoBase Unicode Tokens Tables Ast AstInd ParserFacts GoAst Codegen CodegenSpec CodegenFacts CodegenInv CodegenDecl CodegenShape
  Words Forgotten Numbers NumbersFacts NumeralFacts ItemLists ItemListsFacts WrittenValues WrittenValuesFacts Conflicts Parts PartsFacts DeclText.
From Verif Require Import Grammar GrammarFacts ForgottenFacts.
Import ListNotations.
Local Open Scope string_scope.
Local Open Scope list_scope.
Local Open Scope Z_scope.

(** ** Values are remembered and have no "::=" *)

Definition valueN (N : nonterm) : bool :=
  match N with
  | N_Value | N_BuiltinValue | N_BooleanValue | N_IntegerValue | N_RealValue | N_NumericRealValue | N_SpecialRealValue | N_realnumber
  | N_SignedExponent | N_SignedNumber | N_ObjectIdentifierValue | N_ObjIdComponentsList | N_ObjIdComponents | N_NameForm | N_NumberForm
  | N_NameAndNumberForm | N_DefinedValue | N_identifier | N_valuereference | N_modulereference => true
  | _ => false
  end.
Definition in_value (i : item) : Prop :=
  match i with Tk t => tk_kind t <> T_ASSIGNMENT | Nt N _ => valueN N = true end.

Lemma value_table : Forall (fun p : Z * (nonterm -> list item -> sem -> Prop) => forall N its v, snd p N its v -> valueN N = true ->
  forgotten (fst p) = false /\ Forall in_value its) (tl numbered).
Proof.
  unfold numbered. cbn [seq map combine rule_table Z.of_nat Pos.of_succ_nat Pos.succ tl].
  repeat (apply Forall_cons; [cbn [fst snd]; intros N its v H; destruct H; first [discriminate | intros _; (split; [reflexivity|]);
    repeat (apply Forall_cons; [first [reflexivity | cbn [in_value]; match goal with [ K : tk_kind ?t = _ |- tk_kind ?t <> _ ] => rewrite K end; discriminate]|]);
    apply Forall_nil]|]).
  apply Forall_nil.
Qed.

Lemma value_whole T i : yields T i -> in_value i -> remembered T = T /\ Forall (fun t => tk_kind t <> T_ASSIGNMENT) (leaves T).
Proof.
  revert T i. apply (yields_rect (fun T i => in_value i -> remembered T = T /\ Forall (fun t => tk_kind t <> T_ASSIGNMENT) (leaves T))).
  - intros t H. split; [reflexivity|]. constructor; [exact H|constructor].
  - intros n N its v l R _ IH H. destruct (rule_numbered n N its v R) as (Q & I & HQ & B). apply in_tail in I; [|lia].
    pose proof value_table as C. rewrite Forall_forall in C. destruct (C (n, Q) I N its v HQ H) as [F V]. cbn [fst] in F.
    cbn [remembered leaves]. rewrite F. clear -IH V.
    enough (X : map remembered l = l /\ Forall (fun t => tk_kind t <> T_ASSIGNMENT) (flat_map leaves l)) by (destruct X as [-> X]; auto).
    induction IH as [|T i l its P _ IHl]; [split; [reflexivity|constructor]|]. inversion_clear V as [|? ? V1 V2].
    destruct (P V1) as [E1 F1]. destruct (IHl V2) as [E2 F2]. cbn [map flat_map]. rewrite E1, E2. split; [reflexivity|]. now apply Forall_app.
Qed.

(** ** The productions of assignments *)

Lemma assignment_table : Forall (fun p : Z * (nonterm -> list item -> sem -> Prop) => forall N its v, snd p N its v ->
  match N with
  | N_Assignment => exists a, v = S_Assignment a /\ (its = [Nt N_TypeAssignment v] \/ its = [Nt N_ValueAssignment v])
  | N_TypeAssignment => exists n t, v = S_Assignment (AType n t)
  | N_ValueAssignment => exists n t u x, v = S_Assignment (AValue n t x) /\ tk_kind u = T_ASSIGNMENT /\
      its = [Nt N_valuereference (S_ValueReference n); Nt N_Type (S_Type t); Tk u; Nt N_Value (S_Value x)]
  | N_valuereference => exists t, its = [Tk t] /\ tk_kind t = T_VALUEIDENTIFIER /\ v = S_ValueReference (tk_name t)
  | _ => True
  end) (tl numbered).
Proof.
  unfold numbered. cbn [seq map combine rule_table Z.of_nat Pos.of_succ_nat Pos.succ tl].
  repeat (apply Forall_cons; [cbn [fst snd]; intros N its v H; destruct H;
    first [exact I | solve [eexists; eauto] | solve [eexists _, _; reflexivity] | solve [eexists _, _, _, _; eauto]]|]).
  apply Forall_nil.
Qed.

Lemma node_table n N its v : rule n N its v ->
  match N with
  | N_Assignment => exists a, v = S_Assignment a /\ (its = [Nt N_TypeAssignment v] \/ its = [Nt N_ValueAssignment v])
  | N_TypeAssignment => exists n t, v = S_Assignment (AType n t)
  | N_ValueAssignment => exists n t u x, v = S_Assignment (AValue n t x) /\ tk_kind u = T_ASSIGNMENT /\
      its = [Nt N_valuereference (S_ValueReference n); Nt N_Type (S_Type t); Tk u; Nt N_Value (S_Value x)]
  | N_valuereference => exists t, its = [Tk t] /\ tk_kind t = T_VALUEIDENTIFIER /\ v = S_ValueReference (tk_name t)
  | _ => True
  end.
Proof.
  intros R. destruct (rule_numbered n N its v R) as (Q & I & HQ & B). apply in_tail in I; [|lia].
  pose proof assignment_table as C. rewrite Forall_forall in C. exact (C (n, Q) I N its v HQ).
Qed.

(** The text of a value assignment: what is behind its last "::=" says its value. *)
Lemma assigned_text A n t x : yields A (Nt N_Assignment (S_Assignment (AValue n t x))) -> (exists up next, kept up next A = true) ->
  Forall clean (leaves A) ->
  exists k r u v, leaves A = k :: r ++ u :: v /\ tk_kind k = T_VALUEIDENTIFIER /\ tk_name k = n /\ tk_kind u = T_ASSIGNMENT /\
    Forall (fun y => tk_kind y <> T_ASSIGNMENT) v /\ read_value v = said_of x.
Proof.
  intros Y (up & next & K) C. inversion Y as [|k N its v l R F E1 E2]; subst. destruct (node_table _ _ _ _ R) as (a & Ea & Ei).
  injection Ea as <-. destruct (kept_kids _ _ _ _ K) as [_ Kl].
  assert (X : exists B, l = [B] /\ yields B (Nt N_ValueAssignment (S_Assignment (AValue n t x)))).
  { destruct Ei as [-> | ->]; inversion_clear F as [|B ? l' ? YB F']; inversion F'; subst; exists B; (split; [reflexivity|]); [|exact YB].
    inversion YB as [|k2 N2 its2 v2 l2 R2 F2]; subst. destruct (node_table _ _ _ _ R2) as (? & ? & Z2). discriminate Z2. }
  destruct X as (B & -> & YB). clear F Ei. inversion_clear Kl as [|? ? (up1 & next1 & KB) _].
  cbn [leaves flat_map] in C |- *. rewrite app_nil_r in *. inversion YB as [|k2 N2 its2 v2 l2 R2 F2]; subst.
  destruct (node_table _ _ _ _ R2) as (n' & t' & u & x' & E & Ku & ->). injection E as <- <- <-.
  destruct (kept_kids _ _ _ _ KB) as [_ Kl].
  inversion F2 as [|T1 ? l1 ? Y1 F3]; subst. inversion F3 as [|T2 ? l3 ? Y2 F4]; subst. inversion F4 as [|T3 ? l4 ? Y3 F5]; subst.
  inversion F5 as [|T4 ? l5 ? Y4 F6]; subst. inversion F6; subst. inversion Y3; subst.
  inversion Y1 as [|k3 N3 its3 v3 l6 R3 F7]; subst. destruct (node_table _ _ _ _ R3) as (q & -> & Kq & E). injection E as ->.
  inversion F7 as [|T5 ? l7 ? Y5 F8]; subst. inversion F8; subst. inversion Y5; subst.
  destruct (value_whole T4 _ Y4 eq_refl) as [W V].
  inversion_clear Kl as [|? ? _ K2]. inversion_clear K2 as [|? ? _ K3]. inversion_clear K3 as [|? ? _ K4]. inversion_clear K4 as [|? ? (up4 & next4 & K5) _].
  cbn [leaves flat_map app] in *. rewrite app_nil_r in *. exists q, (leaves T2), u, (leaves T4). repeat split; auto.
  assert (C4 : Forall clean (leaves T4)).
  { inversion_clear C as [|? ? _ C1]. apply Forall_app in C1 as [_ C1]. now inversion_clear C1. }
  pose proof (remembered_recalls T4 _ Y4) as Rc. rewrite W in Rc. pose proof (kept_sane T4 up4 next4 K5) as Sa. rewrite W in Sa.
  exact (proj2 (recalls_vsays T4 _ Rc C4 Sa)).
Qed.

(** ** Lists of named numbers *)

(** The named numbers of a type. *)
Fixpoint numbers {P R} (t : atype P R) : list (string * label) :=
  match t with
  | TTagged _ t' _ _ => numbers t'
  | TConstrained t' _ => numbers t'
  | TInteger l => map number_item l
  | _ => []
  end.

Lemma numbers_map {P R P' R'} (f : P -> P') (g : R -> R') t : numbers (tmap f g t) = numbers t.
Proof. induction t; cbn [tmap numbers]; auto. Qed.

Lemma strip_numbers (t : AType_) : match strip t with TInteger l => numbers t = map number_item l | _ => numbers t = [] end.
Proof. induction t; cbn [strip numbers]; auto. Qed.

(** Words that do not close a bracket, and phrases of such words. *)
Definition openN (N : nonterm) : bool :=
  match N with
  | N_NamedNumberList | N_NamedNumber | N_SignedNumber | N_number | N_DefinedValue | N_identifier | N_valuereference | N_modulereference
  | N_Class | N_ClassNumber => true
  | _ => false
  end.
Definition stays (t : token) : Prop := tk_kind t =? T_CLOSE_SQUARE = false /\ tk_kind t =? T_CLOSE_CURLY = false.
Definition in_open (i : item) : Prop := match i with Tk t => stays t | Nt N _ => openN N = true end.

Lemma open_table : Forall (fun p : Z * (nonterm -> list item -> sem -> Prop) => forall N its v, snd p N its v -> openN N = true ->
  forgotten (fst p) = false /\ Forall in_open its) (tl numbered).
Proof.
  unfold numbered. cbn [seq map combine rule_table Z.of_nat Pos.of_succ_nat Pos.succ tl].
  repeat (apply Forall_cons; [cbn [fst snd]; intros N its v H; destruct H; first [discriminate | intros _; (split; [reflexivity|]);
    repeat (apply Forall_cons; [first [reflexivity | cbn [in_open]; unfold stays; match goal with [ K : tk_kind ?t = _ |- _ ] => rewrite K end; split; reflexivity]|]);
    apply Forall_nil]|]).
  apply Forall_nil.
Qed.

Lemma open_stays T i : yields T i -> in_open i -> remembered T = T /\ Forall stays (leaves T).
Proof.
  revert T i. apply (yields_rect (fun T i => in_open i -> remembered T = T /\ Forall stays (leaves T))).
  - intros t H. split; [reflexivity|]. constructor; [exact H|constructor].
  - intros n N its v l R _ IH H. destruct (rule_numbered n N its v R) as (Q & I & HQ & B). apply in_tail in I; [|lia].
    pose proof open_table as C. rewrite Forall_forall in C. destruct (C (n, Q) I N its v HQ H) as [F V]. cbn [fst] in F.
    cbn [remembered leaves]. rewrite F. clear -IH V.
    enough (X : map remembered l = l /\ Forall stays (flat_map leaves l)) by (destruct X as [-> X]; auto).
    induction IH as [|T i l its P _ IHl]; [split; [reflexivity|constructor]|]. inversion_clear V as [|? ? V1 V2].
    destruct (P V1) as [E1 F1]. destruct (IHl V2) as [E2 F2]. cbn [map flat_map]. rewrite E1, E2. split; [reflexivity|]. now apply Forall_app.
Qed.

Lemma before_stays l t r : Forall stays l -> tk_kind t = T_CLOSE_CURLY -> before_curly (l ++ t :: r) = l.
Proof. intros F K. induction F as [|x l [_ E] _ IH]; cbn [app before_curly]; [now rewrite K|]. now rewrite E, IH. Qed.
Lemma behind_stays l t r : Forall stays l -> tk_kind t = T_CLOSE_SQUARE -> behind_tags true (l ++ t :: r) = behind_tags false r.
Proof. intros F K. induction F as [|x l [E _] _ IH]; cbn [app behind_tags]; [now rewrite K|]. now rewrite E. Qed.

Lemma behind_integer x l : tk_kind x = T_INTEGER -> behind_tags false (x :: l) = x :: l.
Proof. intros K. cbn [behind_tags]. now rewrite K. Qed.

(** How phrases of types begin. *)
Definition plain_start (k : Z) : bool :=
  negb ((k =? T_INTEGER) || (k =? T_OPEN_SQUARE) || (k =? T_IMPLICIT) || (k =? T_EXPLICIT)).

Local Notation asn_type := (atype (value DefinedValue) DefinedValue).
Inductive type_start : list item -> asn_type -> Prop :=
| start_same N t : type_start [Nt N (S_Type t)] t
| start_word x rest t : plain_start (tk_kind x) = true -> numbers t = [] -> type_start (Tk x :: rest) t
| start_name y t : numbers t = [] -> type_start [Nt N_typereference y] t
| start_integer x t : tk_kind x = T_INTEGER -> numbers t = [] -> type_start [Tk x] t
| start_numbers x o l c : tk_kind x = T_INTEGER -> tk_kind o = T_OPEN_CURLY -> tk_kind c = T_CLOSE_CURLY ->
    type_start [Tk x; Tk o; Nt N_NamedNumberList (S_NamedNumberList l); Tk c] (TInteger l)
| start_tag y t' t : numbers t = numbers t' -> type_start [Nt N_Tag y; Nt N_Type (S_Type t')] t
| start_mode y w t' t : (tk_kind w =? T_OPEN_SQUARE) = false -> (tk_kind w =? T_IMPLICIT) || (tk_kind w =? T_EXPLICIT) = true -> numbers t = numbers t' ->
    type_start [Nt N_Tag y; Tk w; Nt N_Type (S_Type t')] t
| start_constrained t' y t : numbers t = numbers t' -> type_start [Nt N_Type (S_Type t'); Nt N_Constraint y] t.

Definition starts (N : nonterm) (its : list item) (v : sem) : Prop :=
  match v with
  | S_Type t => type_start its t
  | _ =>
      match N with
      | N_typereference => exists x, its = [Tk x] /\ tk_kind x = T_TYPEORMODULEREFERENCE
      | N_Tag => exists o y z c, its = [Tk o; Nt N_Class y; Nt N_ClassNumber z; Tk c] /\ tk_kind o = T_OPEN_SQUARE /\ tk_kind c = T_CLOSE_SQUARE
      | N_Constraint => exists o rest, its = Tk o :: rest /\ tk_kind o = T_OPEN_ROUND
      | N_TypeAssignment => exists x u n t, its = [Nt N_typereference x; Tk u; Nt N_Type (S_Type t)] /\ v = S_Assignment (AType n t)
      | _ => True
      end
  end.
Definition untyped (N : nonterm) (v : sem) : Prop :=
  match N with
  | N_typereference | N_Tag | N_Constraint | N_TypeAssignment => match v with S_Type _ => False | _ => True end
  | _ => True
  end.

Lemma start_table : Forall (fun p : Z * (nonterm -> list item -> sem -> Prop) => forall N its v, snd p N its v -> starts N its v /\ untyped N v) (tl numbered).
Proof.
  unfold numbered. cbn [seq map combine rule_table Z.of_nat Pos.of_succ_nat Pos.succ tl].
  repeat (apply Forall_cons; [cbn [fst snd]; intros N its v H; destruct H; (split; [|exact I]); first [exact I
    | solve [apply start_same | apply start_word; [match goal with [ K : tk_kind ?t = _ |- plain_start (tk_kind ?t) = _ ] => rewrite K end; reflexivity|reflexivity]
        | apply start_name; reflexivity | apply start_integer; [assumption|reflexivity] | apply start_numbers; assumption
        | apply start_tag; reflexivity | apply start_mode; [match goal with [ K : tk_kind ?t = _ |- _ ] => rewrite K end; reflexivity..|reflexivity]
        | apply start_constrained; reflexivity]
    | solve [eexists; eauto] | solve [eexists _, _; eauto] | solve [eexists _, _, _, _; eauto] ]|]).
  apply Forall_nil.
Qed.

Lemma start_rule n N its v : rule n N its v -> starts N its v /\ untyped N v.
Proof.
  intros R. destruct (rule_numbered n N its v R) as (Q & I & HQ & B). apply in_tail in I; [|lia].
  pose proof start_table as X. rewrite Forall_forall in X. exact (X (n, Q) I N its v HQ).
Qed.

Definition not_curly (l : list token) : Prop := match l with [] => True | x :: _ => tk_kind x =? T_OPEN_CURLY = false end.

Lemma plain_none x l : plain_start (tk_kind x) = true -> named_numbers (x :: l) = [].
Proof.
  unfold plain_start, named_numbers. cbn [behind_tags]. destruct (tk_kind x =? T_INTEGER) eqn:E1; [discriminate|].
  destruct (tk_kind x =? T_OPEN_SQUARE) eqn:E2; [discriminate|]. destruct (tk_kind x =? T_IMPLICIT) eqn:E3; [discriminate|].
  destruct (tk_kind x =? T_EXPLICIT) eqn:E4; [discriminate|]. intros _. cbn [orb]. rewrite E1. destruct l; reflexivity.
Qed.


Lemma start_sure n its v N : rule n N its v -> match N with N_typereference | N_Tag | N_Constraint => True | _ => False end ->
  starts N its S_none.
Proof.
  intros R M. destruct (start_rule _ _ _ _ R) as [X U]. destruct N; try destruct M; destruct v; try destruct U; exact X.
Qed.

Lemma list_whole T l : yields T (Nt N_NamedNumberList (S_NamedNumberList l)) -> Forall clean (leaves T) -> read_items (leaves T) = map number_item l.
Proof.
  intros Y C. pose proof (remembered_recalls T _ Y) as Rc. rewrite (proj1 (open_stays T _ Y eq_refl)) in Rc.
  destruct (recalls_says T _ Rc C) as (_ & E & _). exact E.
Qed.

Lemma constraint_start T y : yields T (Nt N_Constraint y) -> exists o r, leaves T = o :: r /\ tk_kind o = T_OPEN_ROUND.
Proof.
  intros Y. inversion Y as [|n N its v l R F]; subst. destruct (start_sure _ _ _ _ R I) as (o & rest & -> & K).
  inversion F as [|T1 ? l1 ? H F1]; subst. inversion H; subst. eexists o, _. split; [reflexivity|exact K].
Qed.

Lemma tag_start T y r : yields T (Nt N_Tag y) -> behind_tags false (leaves T ++ r) = behind_tags false r.
Proof.
  intros Y. inversion Y as [|n N its v l R F]; subst. destruct (start_sure _ _ _ _ R I) as (o & a & b & c & -> & Ko & Kc).
  inversion F as [|T1 ? l1 ? H1 F1]; subst. inversion F1 as [|T2 ? l2 ? H2 F2]; subst. inversion F2 as [|T3 ? l3 ? H3 F3]; subst.
  inversion F3 as [|T4 ? l4 ? H4 F4]; subst. inversion F4; subst. inversion H1; inversion H4; subst.
  cbn [leaves flat_map app]. rewrite app_assoc, <- app_assoc. cbn [app behind_tags]. rewrite Ko. cbn [Z.eqb Pos.eqb T_OPEN_SQUARE].
  apply behind_stays; [|exact Kc]. apply Forall_app. split; eapply open_stays; try eassumption; reflexivity.
Qed.

Ltac kid F T H := let l1 := fresh "l" in let F' := fresh "F" in inversion F as [|T ? l1 ? H F']; subst; clear F; rename F' into F.

Lemma numbers_text T i : yields T i -> Forall clean (leaves T) -> forall N t, i = Nt N (S_Type t) -> forall after, not_curly after ->
  named_numbers (leaves T ++ after) = numbers t.
Proof.
  revert T i. apply (yields_rect (fun T i => Forall clean (leaves T) -> forall N t, i = Nt N (S_Type t) -> forall after, not_curly after ->
    named_numbers (leaves T ++ after) = numbers t)); [discriminate|].
  intros n N its v l R Y IH C N' t E after A. injection E as <- ->. destruct (start_rule n N its _ R) as [X _]. cbn [starts] in X. cbn [leaves] in C |- *.
  destruct X as [N1 t|x rest t P Z|y t Z|x t K Z|x o ln c Kx Ko Kc|y t1 t Z|y w t1 t S0 W Z|t1 y t Z]; try rewrite Z; clear R.
  - kid IH T H. inversion IH; subst. cbn [flat_map] in *. rewrite app_nil_r in *. eapply H; eauto.
  - kid Y T H. inversion H; subst. cbn [flat_map leaves app]. now apply plain_none.
  - kid Y T H. inversion Y; subst. inversion H as [|n2 N2 its2 v2 l2 R2 Y2]; subst.
    destruct (start_sure _ _ _ _ R2 I) as (x & -> & K). kid Y2 T H2. inversion Y2; subst. inversion H2; subst. cbn [flat_map leaves app].
    apply plain_none. now rewrite K.
  - kid Y T H. inversion Y; subst. inversion H; subst. cbn [flat_map leaves app]. unfold named_numbers. rewrite (behind_integer x _ K). destruct after as [|a after]; [reflexivity|]. rewrite K.
    cbn [not_curly] in A. change ((if tk_kind a =? T_OPEN_CURLY then read_items (before_curly after) else []) = []). now rewrite A.
  - kid Y T1 H1. kid Y T2 H2. kid Y T3 H3. kid Y T4 H4. inversion Y; subst. inversion H1; inversion H2; inversion H4; subst.
    cbn [flat_map leaves app] in *. rewrite <- app_assoc. cbn [app]. unfold named_numbers. rewrite (behind_integer _ _ Kx), Kx, Ko. cbn [Z.eqb Pos.eqb andb T_INTEGER T_OPEN_CURLY].
    rewrite (before_stays _ _ _ (proj2 (open_stays T3 _ H3 eq_refl)) Kc). apply list_whole; [exact H3|].
    inversion_clear C as [|? ? _ C1]. inversion_clear C1 as [|? ? _ C2]. now apply Forall_app in C2 as [C2 _].
  - kid Y T1 H1. kid IH T2 H2. cbn [flat_map] in *. kid IH T3 H3. inversion IH; subst. cbn [flat_map] in *. rewrite app_nil_r in *. rewrite <- app_assoc.
    apply Forall_app in C as [_ C]. rewrite <- (H3 C _ _ eq_refl after A). unfold named_numbers. rewrite (tag_start _ y); [reflexivity|assumption].
  - kid Y T1 H1. kid Y T2 H2. inversion H2; subst. kid IH T3 H3. kid IH T4 H4. kid IH T5 H5. inversion IH; subst. cbn [flat_map leaves app] in *. rewrite app_nil_r in *.
    rewrite <- app_assoc. cbn [app]. apply Forall_app in C as [_ C]. inversion_clear C as [|? ? _ C1]. rewrite <- (H5 C1 _ _ eq_refl after A). unfold named_numbers.
    rewrite (tag_start _ y); [|assumption]. cbn [behind_tags]. rewrite S0, W. reflexivity.
  - kid Y T1 H1. kid Y T2 H2. kid IH T3 H3. cbn [flat_map] in *. kid IH T4 H4. inversion IH; subst. cbn [flat_map] in *. rewrite app_nil_r in *. rewrite <- app_assoc.
    apply Forall_app in C as [C _]. apply (H3 C _ _ eq_refl). destruct (constraint_start _ _ H2) as (o & r & -> & K). cbn [app not_curly]. now rewrite K.
Qed.

Lemma item_of_number U repr n l specs : Forall2 (number_spec U repr n) l specs -> Forall2 (item_spec U repr n) (map number_item l) specs.
Proof.
  induction 1 as [|x sp l specs (e & E & M) _ IH]; [constructor|]. constructor; [|exact IH]. exists e. split; [exact E|].
  unfold number_item. cbn [fst snd]. destruct (nn_Value x); exact M.
Qed.

(** ** Groups of declarations *)

Section File.
  Context (U : unicode_tables) (fmt : SpecFloat.spec_float -> string) (p : GenParams) (fuel : nat) (m : Module_) (f : gofile).
  Hypothesis HG : Generate U fmt p fuel m = Ok (GenOk f).
  Notation asg := (mb_AssignmentList (md_ModuleBody m)).

  (** The declarations made of the assignment [a]. *)
  Definition made (a : Assignment_) (g : list godecl) : Prop :=
    match a with
    | ANil => g = []
    | AType n t => exists d rest e, g = d :: rest /\ declares_type (goifyName U n) e d /\
        match numbers t with
        | [] => rest = []
        | items => exists specs, Forall2 (item_spec U (integer_repr p) n) items specs /\ rest = [{| gd_tok := TokVar; gd_specs := specs |}]
        end
    | AValue n t v =>
        if a_literal (said_of v) then
          exists te e, g = [{| gd_tok := TokVar; gd_specs := [ValueSpec ("Val" ++ goifyName U n) te e] |}] /\ literal (integer_repr p) (said_of v) e
        else g = []
    end.

  Lemma file_made : exists imps groups, gf_decls f = imps ++ concat groups /\ Forall is_import imps /\ Forall2 made asg groups.
  Proof.
    destruct (file_groups U fmt p fuel m f HG) as (fin & gs & Hf & He & _ & _ & Hg).
    exists (importDecls (gs_modules fin)), gs. split; [exact Hf|]. split; [apply imports_are|]. eapply Forall2_impl2; [|exact Hg].
    intros a g Ha. destruct a as [|n t|n t v]; [exact Ha| |].
    - destruct Ha as (s & e & b & s1 & o & s2 & Hgen & Hx & Ha & He2 & ->). eexists _, _, e. split; [reflexivity|].
      split; [apply type_decl_declares|]. pose proof (strip_numbers t) as Sn.
      destruct (assoc_numbers U (NewCodeGenerator p) _ _ _ _ _ Ha He2) as [(l & specs & E & Ne & F & H)|[N0 H]].
      + rewrite E in Sn. rewrite Sn. rewrite params_repr in F. apply item_of_number in F. destruct l as [|x l]; [now destruct Ne|]. cbn [map] in *. exists specs. auto.
      + replace (numbers t) with (@nil (string * label)); [exact H|]. destruct (strip t) eqn:E; try (symmetry; exact Sn). now rewrite Sn, (N0 _ eq_refl).
    - destruct Ha as [[Hn ->]|(ve & te & s & b & s1 & Hv & _ & _ & _ & ->)].
      + cbn [made]. replace (a_literal (said_of v)) with false; [reflexivity|]. destruct v as [|z|x|[|]|d|i|l]; try reflexivity; discriminate Hn.
      + cbn [made]. pose proof (value_expr_of fmt (NewCodeGenerator p) v ve Hv) as X. rewrite params_repr in X.
        destruct X; cbn [said_of a_literal]; eexists te, _; (split; [reflexivity|]); cbn [literal]; eauto.
  Qed.
End File.

(** A declaration made of an assignment is made from its text. *)
Definition decl_from (U : unicode_tables) (repr : string) (A : tree) (g : list godecl) : Prop := type_from U repr A g \/ value_from U repr A g.

Lemma typed_text A n t : yields A (Nt N_Assignment (S_Assignment (AType n t))) -> Forall clean (leaves A) ->
  exists x u r, leaves A = x :: u :: r /\ named_numbers r = numbers t.
Proof.
  intros Y C. inversion Y as [|k N its v l R F E1 E2]; subst. destruct (node_table _ _ _ _ R) as (a & Ea & Ei).
  injection Ea as <-.
  assert (X : exists B, l = [B] /\ yields B (Nt N_TypeAssignment (S_Assignment (AType n t)))).
  { destruct Ei as [-> | ->]; inversion_clear F as [|B ? l' ? YB F']; inversion F'; subst; exists B; (split; [reflexivity|]); [exact YB|].
    inversion YB as [|k2 N2 its2 v2 l2 R2 F2]; subst. destruct (node_table _ _ _ _ R2) as (? & ? & ? & ? & Z2 & _). discriminate Z2. }
  destruct X as (B & -> & YB). clear F Ei. cbn [leaves flat_map] in C |- *. rewrite app_nil_r in *. inversion YB as [|k2 N2 its2 v2 l2 R2 F2]; subst.
  destruct (start_rule _ _ _ _ R2) as [(y & u & n' & t' & -> & E) _]. injection E as <- <-.
  inversion F2 as [|T1 ? l1 ? Y1 F3]; subst. inversion F3 as [|T2 ? l3 ? Y2 F4]; subst. inversion F4 as [|T3 ? l4 ? Y3 F5]; subst. inversion F5; subst.
  inversion Y2; subst. inversion Y1 as [|n3 N3 its3 v3 l6 R3 F7]; subst. destruct (start_sure _ _ _ _ R3 I) as (x & -> & Kx).
  inversion F7 as [|T5 ? l7 ? Y5 F8]; subst. inversion F8; subst. inversion Y5; subst. cbn [leaves flat_map app] in *. rewrite app_nil_r in *.
  exists x, u, (leaves T3). split; [reflexivity|]. inversion_clear C as [|? ? _ C1]. inversion_clear C1 as [|? ? _ C2].
  rewrite <- (app_nil_r (leaves T3)). exact (numbers_text T3 _ Y3 C2 _ _ eq_refl [] I).
Qed.

Lemma made_from U p A a a' g : yields A (Nt N_Assignment (S_Assignment a')) -> (exists up next, kept up next A = true) -> Forall clean (leaves A) ->
  assignment_text (leaves A) a' -> amap (fun _ => tt) (fun _ => tt) a' = amap (fun _ => tt) (fun _ => tt) a -> made U p a g ->
  decl_from U (integer_repr p) A g.
Proof.
  intros Y K C Tx E M. destruct a as [|n t|n t v], a' as [|n' t'|n' t' v']; try discriminate E; [destruct Tx| |].
  - destruct (typed_text A n' t' Y C) as (x0 & u0 & r0 & Lv0 & Nr).
    assert (L : numbers t' = numbers t).
    { injection E as _ E. rewrite <- (numbers_map (fun _ => tt) (fun _ => tt) t'), E. apply numbers_map. }
    injection E as -> _. destruct Tx as (x & u & r & Lv & Kx & <- & Ku). rewrite Lv0 in Lv. injection Lv as -> -> ->.
    destruct M as (d & rest & e & -> & D & X). left.
    exists x, u, r, d, rest, e. do 5 (split; [auto|]). rewrite Nr, L. exact X.
  - right. destruct (assigned_text A n' t' v' Y K C) as (k & r & u & w & Lv & Kk & Nk & Ku & Na & Rv).
    assert (Sv : said_of v' = said_of v).
    { injection E as _ _ E. rewrite <- (said_map (fun _ => tt) v'), E. apply said_map. }
    injection E as En _ _. exists k, r, u, w. do 4 (split; [assumption|]). rewrite Rv, Sv, Nk, En. exact M.
Qed.
