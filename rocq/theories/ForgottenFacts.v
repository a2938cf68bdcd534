(** Derivation trees without what the parser forgets. *)
From Coq Require Import ZArith String List Bool Lia.
From Verif Require Import GoBase Tokens Tables Ast Grammar GrammarFacts Words Forgotten.
Import ListNotations.
Local Open Scope Z_scope.

(** A derivation tree below whose forgotten nodes there is nothing. *)
Inductive recalls : tree -> item -> Prop :=
| recalls_leaf : forall t, recalls (Leaf t) (Tk t)
| recalls_node : forall n N its v l, rule n N its v -> forgotten n = false -> Forall2 recalls l its -> recalls (Node n l) (Nt N v)
| recalls_nothing : forall n N its v, rule n N its v -> forgotten n = true -> recalls (Node n []) (Nt N v).

Section Induction.
  Context (P : tree -> item -> Prop).
  Context (Hleaf : forall t, P (Leaf t) (Tk t)).
  Context (Hnode : forall n N its v l, rule n N its v -> forgotten n = false -> Forall2 recalls l its -> Forall2 P l its ->
             P (Node n l) (Nt N v)).
  Context (Hnothing : forall n N its v, rule n N its v -> forgotten n = true -> P (Node n []) (Nt N v)).

  Fixpoint recalls_rect (T : tree) (i : item) (y : recalls T i) {struct y} : P T i :=
    match y in recalls T i return P T i with
    | recalls_leaf t => Hleaf t
    | recalls_node n N its v l R G F =>
        Hnode n N its v l R G F
          ((fix go l its (F : Forall2 recalls l its) : Forall2 P l its :=
              match F in Forall2 _ l its return Forall2 P l its with
              | Forall2_nil _ => Forall2_nil _
              | Forall2_cons _ _ y F' => Forall2_cons _ _ (recalls_rect _ _ y) (go _ _ F')
              end) l its F)
    | recalls_nothing n N its v R G => Hnothing n N its v R G
    end.
End Induction.

Lemma remembered_recalls T i : yields T i -> recalls (remembered T) i.
Proof.
  revert T i. apply (yields_rect (fun T i => recalls (remembered T) i)); [constructor|].
  intros n N its v l R _ IH. cbn [remembered]. destruct (forgotten n) eqn:G; [now apply (recalls_nothing n N its v)|].
  apply (recalls_node n N its v); [exact R|exact G|]. clear R G. induction IH; constructor; auto.
Qed.

(** Each forgotten production starts with a token that no other construct has. *)
Lemma forgotten_table : Forall (fun p : Z * (nonterm -> list item -> sem -> Prop) => forall N its v, snd p N its v -> forgotten (fst p) = true ->
  exists t r, its = Tk t :: r /\ traceless t = true) (tl numbered).
Proof.
  unfold numbered. cbn [seq map combine rule_table Z.of_nat Pos.of_succ_nat Pos.succ tl].
  repeat (apply Forall_cons; [cbn [fst snd]; intros N its v H G; first [discriminate G |
    destruct H; eexists _, _; split; [reflexivity|]; unfold traceless; match goal with [ K : tk_kind ?t = _ |- context [tk_kind ?t] ] => rewrite K end; reflexivity]|]).
  constructor.
Qed.

Lemma in_tail n Q : In (n, Q) numbered -> 0 < n -> In (n, Q) (tl numbered).
Proof.
  intros I B. change numbered with ((0, fun _ _ _ => False) :: tl numbered) in I. destruct I as [E|I]; [|exact I].
  injection E as <- _. lia.
Qed.

(** A text without such tokens is remembered as a whole. *)
Lemma remembered_all T i : yields T i -> existsb traceless (leaves T) = false -> remembered T = T.
Proof.
  revert T i. apply (yields_rect (fun T i => existsb traceless (leaves T) = false -> remembered T = T)); [reflexivity|].
  intros n N its v l R Y IH C. cbn [remembered]. cbn [leaves] in C. destruct (forgotten n) eqn:G.
  - exfalso. destruct (rule_numbered n N its v R) as (Q & I & HQ & B). apply in_tail in I; [|lia].
    pose proof forgotten_table as F. rewrite Forall_forall in F. destruct (F _ I _ _ _ HQ G) as (t & r & -> & Tr).
    inversion Y as [|T0 i0 l1 its1 Y0 F1]; subst. inversion Y0; subst. cbn [flat_map leaves app existsb] in C. rewrite Tr in C. discriminate C.
  - f_equal. clear R Y G. induction IH as [|T i l its P _ IHl]; [reflexivity|]. cbn [flat_map] in C. rewrite existsb_app in C.
    apply orb_false_iff in C as [A B]. cbn [map]. now rewrite P, IHl.
Qed.

Lemma outside_all T i : yields T i -> existsb traceless (leaves T) = false -> outside T = leaves T.
Proof. intros Y C. unfold outside. now rewrite (remembered_all T i Y C). Qed.

Lemma outside_incl T t : In t (outside T) -> In t (leaves T).
Proof.
  unfold outside. induction T as [u|n l IH] using tree_ind2; [auto|]. cbn [remembered leaves]. destruct (forgotten n); [contradiction|].
  rewrite !in_flat_map. intros (K & I & J). apply in_map_iff in I as (T & <- & I). exists T. split; [exact I|].
  rewrite Forall_forall in IH. now apply IH.
Qed.

(** What is forgotten leaves no value, an empty list, or the mark of an inner constraint. *)
Definition void (N : nonterm) (v : sem) : Prop :=
  match N with
  | N_Exports | N_ExtensionAdditionGroup | N_ExtensionAdditionAlternativesGroup | N_ExceptionSpec => v = S_none
  | N_InnerTypeConstraints => v = S_Elements EInner
  | _ => False
  end.

Lemma void_table : Forall (fun p : Z * (nonterm -> list item -> sem -> Prop) => forall N its v, snd p N its v -> forgotten (fst p) = true ->
  void N v) (tl numbered).
Proof.
  unfold numbered. cbn [seq map combine rule_table Z.of_nat Pos.of_succ_nat Pos.succ tl].
  repeat (apply Forall_cons; [cbn [fst snd]; intros N its v H G; first [discriminate G | destruct H; reflexivity]|]).
  constructor.
Qed.

Lemma forgotten_void n N its v : rule n N its v -> forgotten n = true -> void N v.
Proof.
  intros R G. destruct (rule_numbered n N its v R) as (Q & I & HQ & B). apply in_tail in I; [|lia].
  pose proof void_table as F. rewrite Forall_forall in F. exact (F _ I _ _ _ HQ G).
Qed.
