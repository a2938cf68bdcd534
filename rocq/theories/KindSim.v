(** The steps of the driver depend on the lexer only through the token codes and on the
    stack only through the states in it. *)
From Coq Require Import ZArith String List Bool Lia.
From Verif Require Import GoBase Tokens Tables Ast Actions Lexer Driver.
Import ListNotations.
Local Open Scope Z_scope.

Section Sim.
  Context {L1 L2 : Type}.
  Context (lex1 : L1 -> lexval -> res (Z * lexval * L1)) (err1 : L1 -> string -> L1).
  Context (lex2 : L2 -> lexval -> res (Z * lexval * L2)) (err2 : L2 -> string -> L2).
  Context (Q : L1 -> L2 -> Prop).
  Context (Q_lex : forall x y v w c v' x', Q x y -> lex1 x v = Ok (c, v', x') ->
             exists w' y', lex2 y w = Ok (c, w', y') /\ Q x' y').
  Context (Q_err : forall x y m, Q x y -> Q (err1 x m) (err2 y m)).

  (** The same control state. *)
  Definition same_control (a : pstate L1) (b : pstate L2) : Prop :=
    map sl_yys (ps_S b) = map sl_yys (ps_S a) /\ ps_p b = ps_p a /\ ps_state b = ps_state a /\ ps_char b = ps_char a /\
    ps_token b = ps_token a /\ ps_Errflag b = ps_Errflag a /\ Q (ps_lx a) (ps_lx b).

  Definition same_step (o : outcome L1) (o' : outcome L2) : Prop :=
    match o, o' with
    | Goto l a, Goto l' b => l = l' /\ same_control a b
    | Return c a, Return c' b => c = c' /\ same_control a b
    | _, _ => False
    end.

  Lemma grow_yys old old' (S1 S2 : list slot) i : map sl_yys S2 = map sl_yys S1 ->
    map sl_yys (snd (grow old' S2 i)) = map sl_yys (snd (grow old S1 i)).
  Proof.
    intros E. pose proof (f_equal (@length Z) E) as Len. rewrite !map_length in Len. unfold grow. rewrite Len.
    destruct (_ >=? _); cbn [snd]; [|exact E]. rewrite !map_app, E. reflexivity.
  Qed.

  Lemma update_yys (S1 : list slot) : forall S2 i x y, map sl_yys S2 = map sl_yys S1 -> sl_yys y = sl_yys x ->
    map sl_yys (update S2 i y) = map sl_yys (update S1 i x).
  Proof.
    induction S1 as [|a S1 IH]; intros [|b S2] i x y E Exy; try discriminate E; [reflexivity|].
    cbn [map] in E. injection E as Eab E. destruct i as [|i]; cbn [update map]; [now rewrite Exy, E|]. f_equal; [exact Eab|now apply IH].
  Qed.

  Lemma slot_yys (S1 S2 : list slot) i : map sl_yys S2 = map sl_yys S1 -> sl_yys (slot_at S2 i) = sl_yys (slot_at S1 i).
  Proof. intros E. unfold slot_at. rewrite <- !(map_nth sl_yys), E. reflexivity. Qed.

  Lemma error_pop_yys (S1 S2 : list slot) : map sl_yys S2 = map sl_yys S1 -> forall k, error_pop k S2 = error_pop k S1.
  Proof.
    intros E. induction k as [|k IH]; [reflexivity|]. cbn [error_pop]. rewrite IH.
    pose proof (f_equal (fun l => nth_error l k) E) as N. cbn beta in N. rewrite !nth_error_map in N.
    destruct (nth_error S1 k) as [a|], (nth_error S2 k) as [b|]; cbn in N; try discriminate N; [|reflexivity].
    injection N as N. cbn [rtab rbind]. now rewrite N.
  Qed.

  Lemma need_token_kind a b a' : same_control a b -> need_token lex1 a = Ok a' ->
    exists b', need_token lex2 b = Ok b' /\ same_control a' b'.
  Proof.
    intros (H1 & H2 & H3 & H4 & H5 & H6 & H7). unfold need_token, yylex1. rewrite H4.
    destruct (ps_char a <? 0); [|intros E; injection E as <-; exists b; repeat split; assumption].
    destruct (lex1 (ps_lx a) (ps_lval a)) as [[[c v] x]| |] eqn:E; try discriminate.
    destruct (Q_lex _ _ _ (ps_lval b) _ _ _ H7 E) as (w' & y' & -> & H'). cbn [rbind].
    destruct (yytranslate c); try discriminate. cbn [rbind]. intros F. injection F as <-. eexists. split; [reflexivity|].
    repeat split; assumption.
  Qed.

  Lemma action_some n : (Z.to_nat n < 292)%nat -> forall mkP mkR mkF, exists act, nth_error (actions (P:=ptrV) (R:=ptrD) mkP mkR mkF) (Z.to_nat n) = Some act.
  Proof.
    intros H mkP mkR mkF. destruct (nth_error (actions mkP mkR mkF) (Z.to_nat n)) as [act|] eqn:E; [eauto|].
    apply nth_error_None in E. change (length (actions mkP mkR mkF)) with 292%nat in E. lia.
  Qed.

  Lemma reduce_kind a b n o : same_control a b -> step_reduce a n = Ok o -> exists o', step_reduce b n = Ok o' /\ same_step o o'.
  Proof.
    intros (H1 & H2 & H3 & H4 & H5 & H6 & H7). unfold step_reduce. rewrite H2.
    destruct (rtab (tab yyR2 n)) as [r| |]; try discriminate. cbn [rbind].
    pose proof (grow_yys (ps_old a) (ps_old b) _ _ (ps_p a - r + 1) H1) as G.
    destruct (grow (ps_old a) (ps_S a) (ps_p a - r + 1)) as [old yyS].
    destruct (grow (ps_old b) (ps_S b) (ps_p a - r + 1)) as [old' yyS']. cbn [snd] in G.
    pose proof (f_equal (@length Z) G) as Len. rewrite !map_length in Len. rewrite Len, (slot_yys _ _ (ps_p a - r) G).
    destruct ((ps_p a - r <? 0) || _); [discriminate|].
    destruct (rtab (tab yyR1 n)) as [lh| |]; try discriminate. cbn [rbind].
    destruct (rtab (tab yyPgo lh)) as [g| |]; try discriminate. cbn [rbind].
    match goal with |- context [rbind ?m _] => destruct m as [st| |]; try discriminate end. cbn [rbind].
    match goal with |- context [nth_error (actions ?a ?b ?c) _] => destruct (nth_error (actions a b c) (Z.to_nat n)) as [act|] eqn:Ac; [|discriminate] end.
    assert (Ln : (Z.to_nat n < 292)%nat) by (apply (f_equal (fun o => match o with Some _ => true | None => false end)) in Ac;
      match type of Ac with match nth_error ?l ?k with _ => _ end = _ => destruct (Nat.lt_ge_cases k (length l)) as [A|A]; [exact A|];
        apply nth_error_None in A; rewrite A in Ac; discriminate Ac end).
    match goal with |- context [nth_error (actions ?x ?y ?z) _] => destruct (action_some n Ln x y z) as (act' & ->) end.
    cbn [rtab rbind].
    destruct (act _ _) as [v res]. destruct (act' _ _) as [v' res']. intros E. injection E as <-. eexists. split; [reflexivity|].
    split; [reflexivity|]. repeat split; try assumption; reflexivity.
  Qed.

  Lemma error_kind a b o : same_control a b -> step_error err1 a = Ok o -> exists o', step_error err2 b = Ok o' /\ same_step o o'.
  Proof.
    intros (H1 & H2 & H3 & H4 & H5 & H6 & H7). unfold step_error.
    cbn [with_look ps_S ps_p ps_old]. rewrite H2, H3, H5, H6, (error_pop_yys _ _ H1).
    destruct (ps_Errflag a =? 0).
    - destruct (yyErrorMessage _ _) as [m| |]; try discriminate. cbn [rbind].
      destruct (error_pop _ _) as [[[p s]|]| |]; try discriminate; cbn [rbind]; intros E; injection E as <-;
        (eexists; split; [reflexivity|]); (split; [reflexivity|]); repeat split; try assumption; now apply Q_err.
    - destruct ((ps_Errflag a =? 1) || (ps_Errflag a =? 2)).
      + destruct (error_pop _ _) as [[[p s]|]| |]; try discriminate; cbn [rbind]; intros E; injection E as <-;
          (eexists; split; [reflexivity|]); (split; [reflexivity|]); repeat split; assumption.
      + destruct (ps_token a =? yyEofCode); intros E; injection E as <-;
          (eexists; split; [reflexivity|]); (split; [reflexivity|]); repeat split; assumption.
  Qed.

  Ltac done := intros E; injection E as <-; (eexists; split; [reflexivity|]); (split; [reflexivity|]).

  Lemma step_kind l a b o : same_control a b -> step lex1 err1 l a = Ok o -> exists o', step lex2 err2 l b = Ok o' /\ same_step o o'.
  Proof.
    intros H. pose proof H as (H1 & H2 & H3 & H4 & H5 & H6 & H7). destruct l; cbn [step].
    - unfold step_stack. rewrite H2. pose proof (grow_yys (ps_old a) (ps_old b) _ _ (ps_p a + 1) H1) as G.
      destruct (grow (ps_old a) (ps_S a) (ps_p a + 1)) as [old yyS]. destruct (grow (ps_old b) (ps_S b) (ps_p a + 1)) as [old' yyS']. cbn [snd] in G.
      destruct (_ <? 0); [discriminate|]. done. repeat split; try assumption. cbn [with_stack ps_S]. apply update_yys; [exact G|exact H3].
    - unfold step_newstate. rewrite H3.
      destruct (rtab (tab yyPact (ps_state a))) as [n| |]; try discriminate. cbn [rbind].
      destruct (n <=? yyFlag); [done; exact H|].
      destruct (need_token lex1 a) as [a1| |] eqn:N; try discriminate.
      destruct (need_token_kind _ _ _ H N) as (b1 & -> & H'). pose proof H' as (K1 & K2 & K3 & K4 & K5 & K6 & K7). cbn [rbind]. rewrite K5.
      destruct (_ || _); [done; exact H'|].
      destruct (rtab (tab yyAct _)) as [x| |]; try discriminate. cbn [rbind].
      destruct (rtab (tab yyChk x)) as [c| |]; try discriminate. cbn [rbind].
      destruct (c =? ps_token a1); done; [|exact H'].
      repeat split; try assumption. cbn [with_state with_VAL with_look ps_Errflag]. now rewrite K6.
    - unfold step_default. rewrite H3.
      destruct (rtab (tab yyDef (ps_state a))) as [n| |]; try discriminate. cbn [rbind].
      destruct (n =? -2).
      + destruct (need_token lex1 a) as [a1| |] eqn:N; try discriminate.
        destruct (need_token_kind _ _ _ H N) as (b1 & -> & H'). pose proof H' as (K1 & K2 & K3 & K4 & K5 & K6 & K7). cbn [rbind]. rewrite K3, K5.
        destruct (exca_find _ _ _) as [i| |]; try discriminate. cbn [rbind].
        destruct (exca_lookup _ _ _) as [n1| |]; try discriminate. cbn [rbind].
        destruct (n1 <? 0); [done; exact H'|].
        destruct (n1 =? 0); [apply error_kind; exact H'|apply reduce_kind; exact H'].
      + destruct (n =? 0); [now apply error_kind|now apply reduce_kind].
  Qed.

  Lemma run_kind fuel : forall l a b c a', same_control a b -> run lex1 err1 fuel l a = Ok (c, a') ->
    exists b', run lex2 err2 fuel l b = Ok (c, b') /\ same_control a' b'.
  Proof.
    induction fuel as [|n IH]; intros l a b c a' H; cbn [run]; [discriminate|].
    destruct (step lex1 err1 l a) as [o| |] eqn:E; try discriminate.
    destruct (step_kind _ _ _ _ H E) as (o' & -> & H'). cbn [rbind].
    destruct o as [l1 a1|c1 a1], o' as [l2 b1|c2 b1]; cbn [same_step] in H'; try contradiction; destruct H' as (<- & H'); [now apply IH|].
    intros F. injection F as <- <-. exists b1. auto.
  Qed.

  Lemma yyParse_kind fuel x y c a : Q x y -> yyParse lex1 err1 fuel x = Ok (c, a) ->
    exists b, yyParse lex2 err2 fuel y = Ok (c, b) /\ same_control a b.
  Proof. intros H E. refine (run_kind fuel Lyystack (init x) (init y) c a _ E). repeat split. exact H. Qed.
End Sim.
