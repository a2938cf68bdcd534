(** Lemmas for C37: what happens to a CHOICE if an alternative's type is given a name. *)
From Coq Require Import ZArith String List Bool Lia.
From Verif Require Import GoBase Utf8 Unicode Tokens Ast GoAst Codegen CodegenSpec CodegenFacts CodegenShape.
Import ListNotations.
Local Open Scope string_scope.

Section Swap.
  Context (pre post : list Assignment_) (c : string) (alts alts' : list (NamedType Value DefinedValue)) (x x' : list (option (NamedType Value DefinedValue))).
  Let asg := (pre ++ AType c (TChoice alts x) :: post)%list.
  Let asg' := (pre ++ AType c (TChoice alts' x') :: post)%list.

  Lemma swap_first : forall n a, first_named n asg a ->
    first_named n asg' a \/ (a = AType c (TChoice alts x) /\ n = c /\ first_named n asg' (AType c (TChoice alts' x'))).
  Proof.
    unfold asg, asg'. induction pre as [|b l IH]; intros n a H; cbn in *.
    - inversion H; subst.
      + right. repeat split; auto. constructor.
      + left. apply fn_skip_type; assumption.
    - inversion H; subst; try (left; constructor; fail).
      + destruct (IH _ _ H4) as [G|(-> & -> & G)]; [left; apply fn_skip_type; auto|right; repeat split; auto; apply fn_skip_type; auto].
      + destruct (IH _ _ H4) as [G|(-> & -> & G)]; [left; apply fn_skip_value; auto|right; repeat split; auto; apply fn_skip_value; auto].
      + destruct (IH _ _ H3) as [G|(-> & -> & G)]; [left; constructor; auto|right; repeat split; auto; constructor; auto].
  Qed.

  (** Equal, or both a CHOICE. *)
  Definition like (t t' : AType_) : Prop := t' = t \/ (t = TChoice alts x /\ t' = TChoice alts' x').

  Lemma swap_defines : forall n t, defines asg n t -> exists t', like t t' /\ defines asg' n t'.
  Proof.
    intros n t H. destruct (swap_first _ _ H) as [G|(E & -> & G)].
    - exists t. split; [now left|exact G].
    - injection E as ->. exists (TChoice alts' x'). split; [now right|exact G].
  Qed.
End Swap.

Section Swap2.
  Context (pre post : list Assignment_) (c : string) (alts alts' : list (NamedType Value DefinedValue)) (x x' : list (option (NamedType Value DefinedValue))).
  Let asg := (pre ++ AType c (TChoice alts x) :: post)%list.
  Let asg' := (pre ++ AType c (TChoice alts' x') :: post)%list.

  Lemma swap_leaf : forall n m o, leaf_of asg n m o ->
    exists o', leaf_of asg' n m o' /\ (o' = o \/ exists t t', o = Some t /\ o' = Some t' /\ like alts alts' x x' t t').
  Proof.
    induction 1 as [n H|n t H Hs|n t m l o H Hs Hl IH].
    - exists None. split; [|now left]. constructor. intros t D.
      destruct (swap_defines pre post c alts' alts x' x n t D) as (t' & _ & D'). exact (H _ D').
    - destruct (swap_defines pre post c alts alts' x x' n t H) as (t' & L & D). exists (Some t'). split.
      + apply leaf_here; [exact D|]. intros k. destruct L as [->|[-> ->]]; [apply Hs|discriminate].
      + right. exists t, t'. auto.
    - destruct (swap_defines pre post c alts alts' x x' n t H) as (t' & L & D). destruct L as [->|[-> ->]]; [|discriminate Hs].
      destruct IH as (o' & Hl' & Ho). exists o'. split; [|exact Ho]. eapply leaf_step; eassumption.
  Qed.

  Lemma swap_tagged : forall t, tagged_alt asg t -> tagged_alt asg' t.
  Proof.
    induction 1 as [g t z b|t k H IH|n m t Hn (o & Hl & Ho) H IH].
    - constructor.
    - now constructor.
    - destruct (swap_leaf _ _ _ Hl) as (o' & Hl' & [->|(u & u' & -> & -> & L)]).
      + eapply ta_reference; [exact Hn| |exact IH]. eexists. split; [exact Hl'|exact Ho].
      + destruct Ho as [[E Hne]|[[E|E] Ho]]; [|discriminate|].
        * injection E as ->. destruct L as [->|[-> ->]]; [|inversion H].
          eapply ta_reference; [exact Hn| |exact IH]. exists (Some t). split; [exact Hl'|]. auto.
        * injection E as ->. destruct L as [->|[E' _]]; [|discriminate].
          eapply ta_reference; [exact Hn| |exact IH]. exists (Some TNil). split; [exact Hl'|]. auto.
  Qed.
End Swap2.

Lemma defines_fun : forall asg n t u, defines asg n t -> defines asg n u -> t = u.
Proof.
  intros asg n t u H G. apply al_Get_first in H. apply al_Get_first in G. congruence.
Qed.

Lemma named_tagged : forall asg n t, defines asg n t -> ~ time_name n -> t <> TNil ->
  (forall r, strip t <> TReference r) -> (tagged_alt asg (TReference n) <-> tagged_alt asg t).
Proof.
  intros asg n t D Hn Ht Hr. split; intro H.
  - inversion H as [| |n' m u _ (o & Hl & Ho) Hu]; subst. inversion Hl as [k Hk|k v Hk Hv|k v k' l o' Hk Hv Hl']; subst.
    + exfalso. exact (Hk _ D).
    + rewrite (defines_fun _ _ _ _ Hk D) in *. destruct Ho as [[E _]|[[E|E] _]]; [|discriminate|].
      * injection E as ->. exact Hu.
      * injection E as E. contradiction.
    + rewrite (defines_fun _ _ _ _ Hk D) in *. now apply Hr in Hv.
  - eapply ta_reference; [exact Hn| |exact H]. exists (Some t). split; [apply leaf_here; assumption|auto].
Qed.

(** The CHOICE [c] with the alternative [nm] of type [t], and with [nm] of the type
    named [n] instead. *)
Lemma named_choice : forall pre post c l1 nm t n l2 x,
  let alts := (l1 ++ Named nm t :: l2)%list in
  let alts' := (l1 ++ Named nm (TReference n) :: l2)%list in
  let asg := (pre ++ AType c (TChoice alts x) :: post)%list in
  let asg' := (pre ++ AType c (TChoice alts' x) :: post)%list in
  defines asg n t -> n <> c -> ~ time_name n -> t <> TNil -> (forall r, strip t <> TReference r) ->
  (tagged_choice asg alts <-> tagged_choice asg' alts').
Proof.
  intros pre post c l1 nm t n l2 x alts alts' asg asg' D Hc Hn Ht Hr.
  assert (S1 : forall u, tagged_alt asg u <-> tagged_alt asg' u)
    by (intro u; split; apply swap_tagged).
  assert (D' : defines asg' n t).
  { destruct (swap_first pre post c alts alts' x x n _ D) as [G|(_ & E & _)]; [exact G|contradiction]. }
  unfold tagged_choice, alts, alts'. rewrite !Exists_app, !Exists_cons.
  rewrite (named_tagged asg' n t D' Hn Ht Hr), S1.
  assert (S2 : forall l, Exists (fun a : NamedType Value DefinedValue => match a with Named _ t => tagged_alt asg t end) l <->
    Exists (fun a : NamedType Value DefinedValue => match a with Named _ t => tagged_alt asg' t end) l).
  { intro l. split; intro H; (eapply Exists_impl; [|exact H]); intros [k u]; apply S1. }
  rewrite !S2. reflexivity.
Qed.

(** A CHOICE with several alternatives is a raw value exactly if one is tagged. *)
Lemma choice_raw : forall U asg repr alts x e, go_type U asg repr (TChoice alts x) e ->
  length alts <> 1%nat -> (e = EIdent "asn1.RawValue" <-> tagged_choice asg alts).
Proof.
  intros U asg repr alts x e H Hl. inversion H; subst.
  - split; auto.
  - cbn in Hl. lia.
  - split; [discriminate|contradiction].
Qed.
