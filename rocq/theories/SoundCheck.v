(** A test that shows a module to be [sound] (GoCheck.v), for modules too large to look at
    by hand.  Nothing is claimed about modules that fail it. *)
From Coq Require Import ZArith String Ascii List Bool Relations SpecFloat Lia.
From Verif Require Import GoBase Unicode Tokens Ast GoAst Codegen CodegenSpec CodegenFacts CodegenNames Recursion GoCheck.
Import ListNotations.
Local Open Scope string_scope.
Local Open Scope list_scope.

(** * Strings *)

Fixpoint distinct (l : list string) : bool :=
  match l with [] => true | s :: l' => negb (existsb (String.eqb s) l') && distinct l' end.

Lemma distinct_NoDup l : distinct l = true -> NoDup l.
Proof.
  induction l as [|s l IH]; intros H; [constructor|]. cbn in H. apply andb_prop in H as [H1 H2]. constructor; [|auto].
  intros I. apply negb_true_iff in H1. assert (X : existsb (String.eqb s) l = true); [|congruence].
  apply existsb_exists. exists s. split; [exact I|apply String.eqb_refl].
Qed.

Definition capital_or_endb (s : string) : bool :=
  match s with EmptyString => true | String c _ => ascii_upper (byte_of_ascii c) end.
Fixpoint val_insideb (s : string) : bool :=
  match s with
  | EmptyString => false
  | String c s' =>
      match s with
      | String "V" (String "a" (String "l" r)) => capital_or_endb r
      | _ => false
      end || val_insideb s'
  end.

Lemma val_inside_test s : val_inside s -> val_insideb s = true.
Proof.
  intros (a & b & -> & C). induction a as [|c a IH].
  - cbn. apply orb_true_iff. left. destruct b; [reflexivity|exact C].
  - change ((String c a ++ "Val" ++ b)%string) with (String c (a ++ "Val" ++ b)). cbn [val_insideb]. rewrite IH. apply orb_true_r.
Qed.

Fixpoint ends_setb (s : string) : bool :=
  String.eqb s "SET" || match s with EmptyString => false | String _ s' => ends_setb s' end.

Lemma ends_set_test s : ends_with "SET" s -> ends_setb s = true.
Proof.
  intros (a & ->). induction a as [|c a IH]; [reflexivity|].
  change ((String c a ++ "SET")%string) with (String c (a ++ "SET")). cbn [ends_setb]. rewrite IH. apply orb_true_r.
Qed.

(** * Types *)

(** The types in sight, through every CHOICE with one alternative. *)
Fixpoint inside (t : AType_) : list AType_ :=
  t :: match t with
       | TTagged _ t' _ _ | TConstrained t' _ | TSequenceOf t' | TSetOf t' => inside t'
       | TSequence c x | TSet c x =>
           flat_map (fun k => match k with CNamed (Named _ t') _ _ => inside t' | _ => [] end) c ++
           flat_map (fun k => match k with CNamed (Named _ t') _ _ => inside t' | _ => [] end) x
       | TChoice [Named _ t'] _ => inside t'
       | _ => []
       end.

Lemma in_components c x n t o d u :
  In (CNamed (Named n t) o d) (c ++ x) -> In u (inside t) ->
  In u (flat_map (fun k : component Value DefinedValue => match k with CNamed (Named _ t') _ _ => inside t' | _ => [] end) c ++
        flat_map (fun k : component Value DefinedValue => match k with CNamed (Named _ t') _ _ => inside t' | _ => [] end) x).
Proof. intros I H. rewrite <- flat_map_app. apply in_flat_map. eexists. split; [exact I|exact H]. Qed.

Lemma visible_inside asg t u : visible asg t u -> In u (inside t).
Proof.
  induction 1.
  1: destruct t; now left.
  all: cbn [inside]; right; try assumption; eapply in_components; eassumption.
Qed.

(** The types named in [t] that a value of [t] contains. *)
Fixpoint embedded (t : AType_) : list string :=
  match t with
  | TReference n => [n]
  | TTagged _ t' _ _ | TConstrained t' _ => embedded t'
  | TSequence c x | TSet c x =>
      flat_map (fun k => match k with CNamed (Named _ t') _ _ => embedded t' | _ => [] end) c ++
      flat_map (fun k => match k with CNamed (Named _ t') _ _ => embedded t' | _ => [] end) x
  | TChoice [Named _ t'] _ => embedded t'
  | _ => []
  end.

Lemma embeds_embedded t n : embeds t n -> In n (embedded t).
Proof.
  induction 1; cbn [embedded]; try (now left); try assumption.
  all: rewrite <- flat_map_app; apply in_flat_map; eexists; split; [eassumption|assumption].
Qed.

(** * Cycles *)

Section Acyclic.
  Context (asg : list Assignment_) (edges : AType_ -> list string) (step : string -> string -> Prop).
  Hypothesis Hstep : forall n m, step n m -> exists t, defines asg n t /\ In m (edges t).

  (** The length of the longest path from [n], up to [fuel]. *)
  Fixpoint height (fuel : nat) (n : string) : nat :=
    match fuel with
    | O => O
    | S fuel' =>
        match al_Get asg n with
        | Some (AType _ t) => S (fold_right Nat.max O (map (height fuel') (edges t)))
        | _ => O
        end
    end.

  Definition falls (fuel : nat) : bool :=
    forallb (fun a => match a with
                      | AType n t => forallb (fun m => Nat.ltb (height fuel m) (height fuel n)) (edges t)
                      | _ => true
                      end) asg.

  Lemma falls_acyclic fuel : falls fuel = true -> ~ exists n, clos_trans _ step n n.
  Proof.
    intros H (n & C). assert (X : forall a b, clos_trans _ step a b -> (height fuel b < height fuel a)%nat).
    { induction 1 as [a b S|a b c _ IH1 _ IH2]; [|lia]. destruct (Hstep a b S) as (t & D & E).
      unfold falls in H. rewrite forallb_forall in H. apply first_named_in in D. specialize (H _ D). cbn in H.
      rewrite forallb_forall in H. specialize (H _ E). now apply Nat.ltb_lt in H. }
    specialize (X n n C). lia.
  Qed.
End Acyclic.

(** What a type is spelled with, unless it is plainly a SEQUENCE or made of a SET. *)
Fixpoint settled (t : AType_) : bool :=
  match t with
  | TSet _ _ | TSetOf _ => true
  | TSequenceOf t' | TTagged _ t' _ _ | TConstrained t' _ => settled t'
  | _ => false
  end.
Fixpoint sequence_like (t : AType_) : bool :=
  match t with
  | TSequence _ _ => true
  | TTagged _ t' _ _ | TConstrained t' _ => sequence_like t'
  | _ => false
  end.
Definition spelling (t : AType_) : list string :=
  if settled t || sequence_like t then []
  else flat_map (fun u => match u with TReference n => [n] | _ => [] end) (inside t).

Lemma settled_reaches asg t : settled t = true -> reaches_set asg t.
Proof.
  revert t. fix rec 1. intros [] H; cbn in H; try discriminate H; constructor; now apply rec.
Qed.
Lemma sequence_structured asg t : sequence_like t = true -> structured asg t.
Proof.
  revert t. fix rec 1. intros [] H; cbn in H; try discriminate H; constructor; now apply rec.
Qed.

(** * Values *)

Fixpoint base_type (asg : list Assignment_) (fuel : nat) (t : AType_) : option AType_ :=
  match strip t with
  | TReference n =>
      match fuel with
      | O => None
      | S fuel' => match al_Get asg n with Some (AType _ t') => base_type asg fuel' t' | _ => None end
      end
  | u => Some u
  end.

Lemma base_type_base asg : forall fuel t u, base_type asg fuel t = Some u -> base asg t u.
Proof.
  assert (Here : forall t u, (forall n, strip t <> TReference n) -> Some (strip t) = Some u -> base asg t u).
  { intros t u N E. injection E as <-. now constructor. }
  induction fuel as [|fuel IH]; intros t u H; cbn [base_type] in H; destruct (strip t) eqn:E;
    try (rewrite <- E in H; apply Here; [intros m F; rewrite E in F; discriminate F|exact H]); [discriminate|].
  destruct (al_Get asg name) as [a|] eqn:G; [|discriminate]. apply al_Get_first in G.
  destruct (first_named_cases _ _ _ G) as [(t' & ->)|(t' & v & ->)]; [|discriminate].
  eapply ba_reference; [exact E|exact G|now apply IH].
Qed.

Definition integerb (asg : list Assignment_) (fuel : nat) (t : AType_) : bool :=
  match base_type asg fuel t with Some (TInteger _) => true | _ => false end.
Definition realb (asg : list Assignment_) (fuel : nat) (t : AType_) : bool :=
  match base_type asg fuel t with Some TReal => true | _ => false end.
Definition booleanb (asg : list Assignment_) (fuel : nat) (t : AType_) : bool :=
  match base_type asg fuel t with Some TBoolean => true | _ => false end.

Lemma integer_test asg fuel t : integerb asg fuel t = true -> is_integer asg t.
Proof.
  unfold integerb. destruct (base_type asg fuel t) as [u|] eqn:E; [|discriminate]. apply base_type_base in E.
  destruct u; try discriminate. intros _. eexists. exact E.
Qed.
Lemma real_test asg fuel t : realb asg fuel t = true -> base asg t TReal.
Proof.
  unfold realb. destruct (base_type asg fuel t) as [u|] eqn:E; [|discriminate]. apply base_type_base in E.
  destruct u; try discriminate. intros _. exact E.
Qed.
Lemma boolean_test asg fuel t : booleanb asg fuel t = true -> base asg t TBoolean.
Proof.
  unfold booleanb. destruct (base_type asg fuel t) as [u|] eqn:E; [|discriminate]. apply base_type_base in E.
  destruct u; try discriminate. intros _. exact E.
Qed.

Definition typed_valueb (asg : list Assignment_) (repr : string) (fuel : nat) (t : AType_) (v : Value) : bool :=
  match v with
  | VNumber _ => integerb asg fuel t || (realb asg fuel t && negb (String.eqb repr "big.Int"))
  | VBoolean _ => booleanb asg fuel t
  | VReal x => false
  | _ => true
  end.

Lemma typed_value_test asg repr fuel t v : typed_valueb asg repr fuel t v = true -> typed_value asg repr t v.
Proof.
  destruct v; cbn [typed_valueb typed_value]; intros H; try exact I; try discriminate H.
  - apply orb_prop in H as [H|H]; [left; now apply integer_test in H|]. apply andb_prop in H as [H1 H2]. right. split; [now apply real_test in H1|].
    intros ->. discriminate H2.
  - now apply boolean_test in H.
Qed.

Definition typed_numberb (asg : list Assignment_) (fuel : nat) (x : NamedNumber) : bool :=
  match nn_Value x with
  | NNumber _ => true
  | NDefined d => existsb (fun a => match a with
                                    | AValue n t (VNumber _) => String.eqb n (dv_ValueName d) && integerb asg fuel t
                                    | _ => false
                                    end) asg
  | NNil => false
  end.

Lemma typed_number_test asg fuel x : typed_numberb asg fuel x = true -> typed_number asg x.
Proof.
  unfold typed_numberb, typed_number. destruct (nn_Value x); intros H; try discriminate; try exact I.
  apply existsb_exists in H as ([|n t|n t v] & I & H); try discriminate. destruct v; try discriminate.
  apply andb_prop in H as [E H]. apply String.eqb_eq in E as ->. eexists t, _. split; [exact I|now apply integer_test in H].
Qed.

Definition asn1_type (t : AType_) : bool :=
  match strip t with TBitString _ | TEnumerated _ | TObjectIdentifier => true | _ => false end.
Definition asn1_inside (t : AType_) : bool :=
  asn1_type t ||
  match strip t with
  | TSequence c x => existsb (fun k => match k with CNamed (Named _ t') _ _ => asn1_type t' | _ => false end) (c ++ x)
  | _ => false
  end.

Lemma strip_visible asg u : forall t, visible asg (strip t) u -> visible asg t u.
Proof. fix rec 1. intros [] H; try exact H; constructor; now apply rec. Qed.

Lemma asn1_type_test asg n t t' : In (AType n t) asg -> visible asg t t' -> asn1_type t' = true -> uses_asn1 asg.
Proof.
  assert (Tr : forall a b c, visible asg a b -> visible asg b c -> visible asg a c).
  { intros a b c V W. induction V; try assumption; econstructor; eauto. }
  intros I V H. unfold asn1_type in H. exists n, t, (strip t'). split; [exact I|].
  split. { eapply Tr; [exact V|]. apply strip_visible. constructor. }
  destruct (strip t'); try discriminate; eauto.
Qed.

Lemma asn1_inside_test asg n t : In (AType n t) asg -> asn1_inside t = true -> uses_asn1 asg.
Proof.
  intros I H. apply orb_prop in H as [H|H]; [eapply asn1_type_test; [exact I|constructor|exact H]|].
  destruct (strip t) eqn:E; try discriminate. apply existsb_exists in H as ([|[k t'] o d|] & J & H); try discriminate.
  eapply asn1_type_test; [exact I| |exact H]. apply strip_visible. rewrite E. econstructor; [exact J|constructor].
Qed.

(** * The test *)

Definition sound_type (asg : list Assignment_) (fuel : nat) (n : string) (t : AType_) : bool :=
  negb (val_insideb n) && negb (ends_setb n) &&
  negb (String.eqb n "GeneralizedTime" || String.eqb n "UTCTime") &&
  match strip t with
  | TInteger l => distinct (map nn_Name l) && forallb (typed_numberb asg fuel) l
  | _ => true
  end &&
  forallb (fun u => match u with
                    | TSequence c x | TSet c x => distinct (flat_map component_name (c ++ x))
                    | _ => true
                    end) (inside t).

Definition soundb (repr : string) (asg : list Assignment_) (fuel : nat) : bool :=
  distinct (flat_map asg_name asg) &&
  forallb (fun a => match a with
                    | AType n t => sound_type asg fuel n t
                    | AValue _ t v => typed_valueb asg repr fuel t v
                    | ANil => true
                    end) asg &&
  falls asg embedded fuel && falls asg spelling fuel &&
  existsb (fun a => match a with AType _ t => asn1_inside t | _ => false end) asg.

Theorem soundb_sound repr asg fuel : soundb repr asg fuel = true -> sound repr asg.
Proof.
  intros H. unfold soundb in H. repeat (let X := fresh "X" in apply andb_prop in H as [H X]).
  rename H into Hd, X2 into Ha, X1 into He, X0 into Hs, X into Hx. rewrite forallb_forall in Ha.
  assert (T : forall n t, In (AType n t) asg -> sound_type asg fuel n t = true) by (intros n t I; exact (Ha _ I)).
  assert (T' : forall n t, In (AType n t) asg ->
    (val_insideb n = false /\ ends_setb n = false /\ ~ time_name n) /\
    match strip t with TInteger l => distinct (map nn_Name l) && forallb (typed_numberb asg fuel) l | _ => true end = true /\
    (forall c x, In (TSequence c x) (inside t) \/ In (TSet c x) (inside t) -> NoDup (flat_map component_name (c ++ x)))).
  { intros n t I. specialize (T _ _ I). unfold sound_type in T.
    apply andb_prop in T as [T T5]. apply andb_prop in T as [T T4]. apply andb_prop in T as [T T3]. apply andb_prop in T as [T1 T2].
    apply negb_true_iff in T1, T2, T3. apply orb_false_iff in T3 as [T6 T7]. apply String.eqb_neq in T6, T7.
    split; [split; [exact T1|split; [exact T2|intros [E|E]; contradiction]]|]. split; [exact T4|].
    rewrite forallb_forall in T5. intros c x [J|J]; apply distinct_NoDup; exact (T5 _ J). }
  constructor.
  - now apply distinct_NoDup.
  - intros n t I. destruct (T' n t I) as ((A & B & _) & _). split; intros C; [apply val_inside_test in C|apply ends_set_test in C]; congruence.
  - intros n t I. apply (T' n t I).
  - intros n t l I E. destruct (T' n t I) as (_ & A & _). rewrite E in A. apply andb_prop in A as [A B]. split; [now apply distinct_NoDup|].
    rewrite forallb_forall in B. apply Forall_forall. intros x Ix. eapply typed_number_test. now apply B.
  - intros n t v I. eapply typed_value_test. exact (Ha _ I).
  - intros n t u cs I V (c & x & -> & E). apply visible_inside in V. destruct (T' n t I) as (_ & _ & A).
    apply A. destruct E as [-> | ->]; auto.
  - apply (falls_acyclic asg embedded (built_from asg)) with fuel; [|exact He].
    intros n m (t & D & E). exists t. split; [exact D|now apply embeds_embedded].
  - apply (falls_acyclic asg spelling (spelled_with asg)) with fuel; [|exact Hs].
    intros n m (t & D & N1 & N2 & V). exists t. split; [exact D|]. unfold spelling.
    destruct (settled t) eqn:S1; [destruct N2; now apply settled_reaches|].
    destruct (sequence_like t) eqn:S2; [destruct N1; now apply sequence_structured|].
    cbn [orb]. apply in_flat_map. exists (TReference m). split; [now apply visible_inside in V|now left].
  - intros _. apply existsb_exists in Hx as ([|n t|] & I & E); try discriminate. eapply asn1_inside_test; eassumption.
Qed.
