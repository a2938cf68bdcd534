(** The driver sees the lexer only through Lex and Error: two lexers that answer
    alike make it do the same. *)
From Coq Require Import ZArith String List Bool.
From Verif Require Import GoBase Tokens Tables Ast Actions Lexer Driver.
Import ListNotations.
Local Open Scope Z_scope.

Section Sim.
  Context {L1 L2 : Type}.
  Context (lex1 : L1 -> lexval -> res (Z * lexval * L1)) (err1 : L1 -> string -> L1).
  Context (lex2 : L2 -> lexval -> res (Z * lexval * L2)) (err2 : L2 -> string -> L2).
  Context (Q : L1 -> L2 -> Prop).
  Context (Q_lex : forall x y v c v' x', Q x y -> lex1 x v = Ok (c, v', x') ->
             exists y', lex2 y v = Ok (c, v', y') /\ Q x' y').
  Context (Q_err : forall x y m, Q x y -> Q (err1 x m) (err2 y m)).

  (** The state with another lexer. *)
  Definition relx (ps : pstate L1) (y : L2) : pstate L2 :=
    {| ps_old := ps_old ps; ps_S := ps_S ps; ps_p := ps_p ps; ps_VAL := ps_VAL ps; ps_state := ps_state ps;
       ps_char := ps_char ps; ps_token := ps_token ps; ps_Errflag := ps_Errflag ps;
       ps_lval := ps_lval ps; ps_lx := y; ps_result := ps_result ps |}.

  Definition relo (o : outcome L1) (y : L2) : outcome L2 :=
    match o with Goto l ps => Goto l (relx ps y) | Return c ps => Return c (relx ps y) end.

  Definition lx_of (o : outcome L1) : L1 := match o with Goto _ ps => ps_lx ps | Return _ ps => ps_lx ps end.

  Lemma need_token_sim ps y ps1 : Q (ps_lx ps) y -> need_token lex1 ps = Ok ps1 ->
    exists y', need_token lex2 (relx ps y) = Ok (relx ps1 y') /\ Q (ps_lx ps1) y'.
  Proof.
    intros H. unfold need_token, yylex1. cbn [relx ps_char ps_lx ps_lval].
    destruct (ps_char ps <? 0); [|intros E; injection E as <-; exists y; auto].
    destruct (lex1 (ps_lx ps) (ps_lval ps)) as [[[c v] x]| |] eqn:E; try discriminate.
    destruct (Q_lex _ _ _ _ _ _ H E) as (y' & -> & H'). cbn [rbind].
    destruct (yytranslate c); try discriminate. cbn [rbind]. intros F. injection F as <-. exists y'. auto.
  Qed.

  Lemma reduce_sim ps y n o : step_reduce ps n = Ok o ->
    step_reduce (relx ps y) n = Ok (relo o y) /\ lx_of o = ps_lx ps.
  Proof.
    unfold step_reduce. cbn [relx ps_p ps_old ps_S].
    destruct (rtab (tab yyR2 n)) as [r| |]; try discriminate. cbn [rbind].
    destruct (grow (ps_old ps) (ps_S ps) (ps_p ps - r + 1)) as [old yyS].
    destruct ((ps_p ps - r <? 0) || _); [discriminate|].
    destruct (rtab (tab yyR1 n)) as [lh| |]; try discriminate. cbn [rbind].
    destruct (rtab (tab yyPgo lh)) as [g| |]; try discriminate. cbn [rbind].
    match goal with |- context [rbind ?m _] => destruct m as [a| |]; try discriminate end. cbn [rbind].
    match goal with |- context [rbind ?m _] => destruct m as [act| |]; try discriminate end. cbn [rbind].
    destruct (act _ _) as [v res]. intros E. injection E as <-. split; [reflexivity|]. reflexivity.
  Qed.

  Lemma error_sim ps y o : Q (ps_lx ps) y -> step_error err1 ps = Ok o ->
    exists y', step_error err2 (relx ps y) = Ok (relo o y') /\ Q (lx_of o) y'.
  Proof.
    intros H. unfold step_error. cbn [relx ps_Errflag ps_state ps_token ps_p ps_S ps_old with_look ps_char ps_lval ps_lx].
    destruct (ps_Errflag ps =? 0).
    - destruct (yyErrorMessage _ _) as [m| |]; try discriminate. cbn [rbind].
      destruct (error_pop _ _) as [[[p s]|]| |]; try discriminate; cbn [rbind]; intros E; injection E as <-;
        exists (err2 y m); (split; [reflexivity|]); cbn; now apply Q_err.
    - destruct ((ps_Errflag ps =? 1) || (ps_Errflag ps =? 2)).
      + destruct (error_pop _ _) as [[[p s]|]| |]; try discriminate; cbn [rbind]; intros E; injection E as <-;
          exists y; (split; [reflexivity|]); exact H.
      + destruct (ps_token ps =? yyEofCode); intros E; injection E as <-; exists y; (split; [reflexivity|]); exact H.
  Qed.

  Lemma step_sim l ps y o : Q (ps_lx ps) y -> step lex1 err1 l ps = Ok o ->
    exists y', step lex2 err2 l (relx ps y) = Ok (relo o y') /\ Q (lx_of o) y'.
  Proof.
    intros H. destruct l; cbn [step].
    - unfold step_stack. cbn [relx ps_p ps_old ps_S]. destruct (grow _ _ _) as [old yyS].
      destruct (_ <? 0); [discriminate|]. intros E. injection E as <-. exists y. split; [reflexivity|]. exact H.
    - unfold step_newstate. cbn [relx ps_state].
      destruct (rtab (tab yyPact (ps_state ps))) as [n| |]; try discriminate. cbn [rbind].
      destruct (n <=? yyFlag); [intros E; injection E as <-; exists y; auto|].
      destruct (need_token lex1 ps) as [ps1| |] eqn:N; try discriminate.
      destruct (need_token_sim _ _ _ H N) as (y' & -> & H'). cbn [rbind relx ps_token].
      destruct (_ || _); [intros E; injection E as <-; exists y'; auto|].
      destruct (rtab (tab yyAct _)) as [a| |]; try discriminate. cbn [rbind].
      destruct (rtab (tab yyChk a)) as [c| |]; try discriminate. cbn [rbind].
      destruct (c =? ps_token ps1); intros E; injection E as <-; exists y'; auto.
    - unfold step_default. cbn [relx ps_state].
      destruct (rtab (tab yyDef (ps_state ps))) as [n| |]; try discriminate. cbn [rbind].
      destruct (n =? -2).
      + destruct (need_token lex1 ps) as [ps1| |] eqn:N; try discriminate.
        destruct (need_token_sim _ _ _ H N) as (y' & -> & H'). cbn [rbind relx ps_token ps_state].
        destruct (exca_find _ _ _) as [i| |]; try discriminate. cbn [rbind].
        destruct (exca_lookup _ _ _) as [n1| |]; try discriminate. cbn [rbind].
        destruct (n1 <? 0); [intros E; injection E as <-; exists y'; auto|].
        destruct (n1 =? 0); [apply error_sim; exact H'|].
        intros E. destruct (reduce_sim _ y' _ _ E) as (E1 & E2). exists y'. rewrite E2. auto.
      + destruct (n =? 0); [now apply error_sim|].
        intros E. destruct (reduce_sim _ y _ _ E) as (E1 & E2). exists y. rewrite E2. auto.
  Qed.

  Lemma run_sim fuel : forall l ps y c ps', Q (ps_lx ps) y -> run lex1 err1 fuel l ps = Ok (c, ps') ->
    exists y', run lex2 err2 fuel l (relx ps y) = Ok (c, relx ps' y') /\ Q (ps_lx ps') y'.
  Proof.
    induction fuel as [|f IH]; intros l ps y c ps' H; cbn [run]; [discriminate|].
    destruct (step lex1 err1 l ps) as [o| |] eqn:E; try discriminate.
    destruct (step_sim _ _ _ _ H E) as (y' & -> & H'). cbn [rbind].
    destruct o as [l' ps1|c1 ps1]; cbn [relo lx_of] in *; [now apply IH|].
    intros F. injection F as <- <-. exists y'. auto.
  Qed.

  Lemma yyParse_sim fuel x y c ps : Q x y -> yyParse lex1 err1 fuel x = Ok (c, ps) ->
    exists y', yyParse lex2 err2 fuel y = Ok (c, relx ps y') /\ Q (ps_lx ps) y'.
  Proof. intros H E. exact (run_sim fuel Lyystack (init x) y c ps H E). Qed.
End Sim.

(** ** Predicates on the lexer that Lex and Error keep *)

Section Inv.
  Context {L : Type} (lex : L -> lexval -> res (Z * lexval * L)) (err : L -> string -> L) (K : L -> Prop).
  Context (K_lex : forall x v c v' x', K x -> lex x v = Ok (c, v', x') -> K x').
  Context (K_err : forall x m, K x -> K (err x m)).

  Lemma yyParse_keeps fuel x c ps : K x -> yyParse lex err fuel x = Ok (c, ps) -> K (ps_lx ps).
  Proof.
    intros H E. destruct (yyParse_sim lex err lex err (fun a b => a = b /\ K a)) with (fuel := fuel) (x := x) (y := x) (c := c) (ps := ps)
      as (y & _ & _ & R); auto.
    - intros a b v c' v' x' [<- Ka] F. exists x'. split; [exact F|]. split; [reflexivity|]. exact (K_lex _ _ _ _ _ Ka F).
    - intros a b m [<- Ka]. auto.
  Qed.
End Inv.
