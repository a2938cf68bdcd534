(** Facts about the grammar of [Grammar]: its productions against the numbers of the
    automaton, and derivation trees. *)
From Coq Require Import ZArith String List Bool Lia.
From Verif Require Import GoBase Tokens Tables Ast Grammar Automaton DriverTables.
Import ListNotations.
Local Open Scope Z_scope.

(** ** Productions *)

(** The item [i] has the symbol with number [X]. *)
Definition is_sym (X : Z) (i : item) : Prop :=
  match i with
  | Tk t => 0 < X /\ tk_kind t = X + 57342
  | Nt N _ => X < 0 /\ nth (Z.to_nat (- X)) nonterms None = Some N
  end.

Definition numbered : list (Z * (nonterm -> list item -> sem -> Prop)) :=
  combine (map Z.of_nat (seq 0 292)) rule_table.

Lemma nth_numbered (R : list (nonterm -> list item -> sem -> Prop)) : forall a k P,
  nth_error R k = Some P -> In (Z.of_nat (a + k), P) (combine (map Z.of_nat (seq a (length R))) R).
Proof.
  induction R as [|Q R IH]; intros a [|k] P E; try discriminate; cbn [nth_error] in E.
  - injection E as ->. left. f_equal. f_equal. lia.
  - right. replace (a + S k)%nat with (S a + k)%nat by lia. now apply IH.
Qed.

Lemma rule_numbered n N its v : rule n N its v -> exists P, In (n, P) numbered /\ P N its v /\ 0 < n < 292.
Proof.
  unfold rule. intros H.
  destruct (nth_error rule_table (Z.to_nat n)) as [P|] eqn:E.
  - pose proof (nth_error_nth _ _ (fun _ _ _ => False) E) as F. rewrite F in H.
    pose proof (nth_numbered rule_table 0 _ P E) as I.
    assert (L : (Z.to_nat n < 292)%nat).
    { assert (Q : nth_error rule_table (Z.to_nat n) <> None) by congruence.
      now apply nth_error_Some in Q. }
    assert (N0 : 0 < n).
    { destruct (Z.to_nat n) as [|k] eqn:K; [|lia]. injection E as <-. contradiction. }
    exists P. rewrite Nat.add_0_l, Z2Nat.id in I by lia. repeat split; [exact I|exact H|lia|lia].
  - apply nth_error_None in E. rewrite nth_overflow in H by exact E. contradiction.
Qed.

Lemma in_combine_cons {A B} (a : A) (b : B) la lb (P : A * B -> Prop) :
  P (a, b) -> Forall P (combine la lb) -> Forall P (combine (a :: la) (b :: lb)).
Proof. intros. now constructor. Qed.

Lemma rule_shape_table : Forall (fun p : Z * (nonterm -> list item -> sem -> Prop) => forall N its v, snd p N its v ->
  Forall2 is_sym (rhs (fst p)) its /\ nth (Z.to_nat (lhs (fst p))) nonterms None = Some N) numbered.
Proof.
  unfold numbered, rule_table. cbn [seq map].
  apply in_combine_cons; [contradiction|].
  repeat (apply in_combine_cons; [
    intros N its v H; destruct H; (split; [|reflexivity]); cbn [fst];
    match goal with |- Forall2 _ ?r _ => let r' := eval vm_compute in r in change r with r' end;
    repeat first [apply Forall2_nil | apply Forall2_cons; [
      cbn [is_sym]; (split; [reflexivity|]); first [reflexivity|assumption]|]]|]).
  constructor.
Qed.

Lemma rule_shape n N its v : rule n N its v ->
  Forall2 is_sym (rhs n) its /\ nth (Z.to_nat (lhs n)) nonterms None = Some N /\ 0 < n < 292.
Proof.
  intros H. apply rule_numbered in H as (P & I & H & Hn).
  pose proof rule_shape_table as T. rewrite Forall_forall in T.
  destruct (T _ I _ _ _ H) as [A B]. auto.
Qed.

Lemma rule_fun_table : Forall (fun R : nonterm -> list item -> sem -> Prop => forall N its v N' v', R N its v -> R N' its v' -> N = N' /\ v = v')
  rule_table.
Proof.
  unfold rule_table. apply Forall_cons; [contradiction|].
  repeat (apply Forall_cons; [
    intros N its v N' v' H G; destruct H; inversion G; subst; split; reflexivity|]).
  constructor.
Qed.

(** A production determines its value. *)
Lemma rule_fun n N its v N' v' : rule n N its v -> rule n N' its v' -> N = N' /\ v = v'.
Proof.
  unfold rule. destruct (nth_error rule_table (Z.to_nat n)) as [P|] eqn:E.
  - rewrite (nth_error_nth _ _ (fun _ _ _ => False) E).
    pose proof rule_fun_table as T. rewrite Forall_forall in T. apply T. now apply nth_error_In in E.
  - apply nth_error_None in E. rewrite nth_overflow by exact E. contradiction.
Qed.

(** ** Trees *)

Section Trees.
  Context (P : tree -> item -> Prop).
  Context (Hleaf : forall t, P (Leaf t) (Tk t)).
  Context (Hnode : forall n N its v l, rule n N its v -> Forall2 yields l its -> Forall2 P l its ->
             P (Node n l) (Nt N v)).

  Fixpoint yields_rect (T : tree) (i : item) (y : yields T i) {struct y} : P T i :=
    match y in yields T i return P T i with
    | yields_leaf t => Hleaf t
    | yields_node n N its v l R F =>
        Hnode n N its v l R F
          ((fix go l its (F : Forall2 yields l its) : Forall2 P l its :=
              match F in Forall2 _ l its return Forall2 P l its with
              | Forall2_nil _ => Forall2_nil _
              | Forall2_cons _ _ y F' => Forall2_cons _ _ (yields_rect _ _ y) (go _ _ F')
              end) l its F)
    end.
End Trees.

Section TreeInd.
  Context (P : tree -> Prop).
  Context (Hleaf : forall t, P (Leaf t)).
  Context (Hnode : forall n l, Forall P l -> P (Node n l)).

  Fixpoint tree_ind2 (T : tree) : P T :=
    match T with
    | Leaf t => Hleaf t
    | Node n l =>
        Hnode n l ((fix go l : Forall P l :=
                      match l with [] => Forall_nil _ | T :: l' => Forall_cons _ (tree_ind2 T) (go l') end) l)
    end.
End TreeInd.

(** The phrase of an item. *)
Definition phrase (i : item) (w : list token) : Prop :=
  match i with Tk t => w = [t] | Nt N v => derives N w v end.

Lemma yields_phrase T i : yields T i -> phrase i (leaves T).
Proof.
  intros Y. destruct i as [t|N v].
  - now inversion Y; subst.
  - exists T. auto.
Qed.

Lemma phrase_yields i w : phrase i w -> exists T, yields T i /\ leaves T = w.
Proof.
  destruct i as [t|N v]; cbn [phrase].
  - intros ->. exists (Leaf t). split; [constructor|reflexivity].
  - easy.
Qed.

Lemma phrases_yields its ws : Forall2 phrase its ws ->
  exists l, Forall2 yields l its /\ flat_map leaves l = concat ws.
Proof.
  induction 1 as [|i w its ws Hw F IH].
  - exists []. split; [constructor|reflexivity].
  - destruct IH as (l & Fl & E). apply phrase_yields in Hw as (T & Y & <-).
    exists (T :: l). split; [now constructor|]. cbn [flat_map concat]. now rewrite E.
Qed.

Lemma derives_rule n N its v ws : rule n N its v -> Forall2 phrase its ws -> derives N (concat ws) v.
Proof.
  intros R F. apply phrases_yields in F as (l & Fl & E). exists (Node n l). split; [|exact E].
  now apply (yields_node n N its).
Qed.

Lemma derives_inv N w v : derives N w v ->
  exists n its ws, rule n N its v /\ Forall2 phrase its ws /\ w = concat ws.
Proof.
  intros (T & Y & <-). inversion Y as [|n N' its v' l R F]; subst.
  exists n, its, (map leaves l). split; [exact R|]. split.
  - clear R Y. induction F; cbn [map]; constructor; auto using yields_phrase.
  - cbn [leaves]. apply flat_map_concat_map.
Qed.

(** Productions of a nonterminal: [f] picks the nonterminal. *)
Lemma rules_of (f : nonterm -> bool) (ns : list Z) :
  forallb (fun n => match nth (Z.to_nat (lhs n)) nonterms None with
                    | Some N => negb (f N) || existsb (Z.eqb n) ns
                    | None => true
                    end) rules = true ->
  forall n N its v, rule n N its v -> f N = true -> In n ns.
Proof.
  intros C n N its v R F. destruct (rule_shape _ _ _ _ R) as (_ & E & Hn).
  rewrite forallb_forall in C. specialize (C n (proj2 (in_rules n) Hn)). cbv beta in C.
  rewrite E, F in C. cbn [negb orb] in C. apply existsb_exists in C as (m & I & Q).
  apply Z.eqb_eq in Q. now subst m.
Qed.

(** Trees over given tokens: the nodes are checked one by one. *)
Ltac tree_node :=
  match goal with
  | |- yields (Leaf _) _ => apply yields_leaf
  | |- yields (Node ?n _) _ =>
      eapply (yields_node n); [hnf; econstructor; shelve | repeat (apply Forall2_cons || apply Forall2_nil)]
  end.
Ltac tree_yields := unshelve (repeat tree_node); try reflexivity; try assumption.
