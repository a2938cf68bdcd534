(** Runs of the driver: no panic, termination, and what holds when it returns; for
    any lexer that meets the hypotheses stated in each section. *)
From Coq Require Import ZArith String List Bool Lia.
From Verif Require Import GoBase Tokens Tables Ast Actions Lexer Driver Grammar Automaton DriverTables
  DriverFacts.
Import ListNotations.
Local Open Scope Z_scope.

Section Moves.
  Context {L : Type}.
  Context (lex_Lex : L -> lexval -> res (Z * lexval * L)).
  Context (lex_Error : L -> string -> L).
  Notation pst := (pstate L).

  (** All that a step can do. *)
  Inductive move : label -> pst -> outcome L -> Prop :=
  | M_push ps ps' :
      live ps' = live ps ++ [{| sl_yys := ps_state ps; sl_val := ps_VAL ps |}] ->
      ps_state ps' = ps_state ps -> ps_result ps' = ps_result ps -> same_input ps ps' ->
      move Lyystack ps (Goto Lyynewstate ps')
  | M_skip ps : reads (ps_state ps) = false -> move Lyynewstate ps (Goto Lyydefault ps)
  | M_shift ps ps1 q : reads (ps_state ps) = true -> need_token lex_Lex ps = Ok ps1 ->
      shift (ps_state ps) (ps_token ps1) = Some q ->
      move Lyynewstate ps (Goto Lyystack (shifted ps1 q))
  | M_noshift ps ps1 : reads (ps_state ps) = true -> need_token lex_Lex ps = Ok ps1 ->
      shift (ps_state ps) (ps_token ps1) = None ->
      move Lyynewstate ps (Goto Lyydefault ps1)
  | M_quiet ps o : asks (ps_state ps) = false ->
      default_step lex_Error ps 4 o -> move Lyydefault ps o
  | M_asks ps ps1 o : asks (ps_state ps) = true -> need_token lex_Lex ps = Ok ps1 ->
      default_step lex_Error ps1 (ps_token ps1) o -> move Lyydefault ps o.

  Lemma reduces_inv n ps ps' : reduces (L:=L) n ps ps' -> pinv Lyystack ps'.
  Proof. intros (? & ? & ? & ? & ? & ? & ? & ? & ? & R). tauto. Qed.

  Lemma reduces_same n ps ps' : reduces (L:=L) n ps ps' -> same_input ps ps'.
  Proof. intros (? & ? & ? & ? & ? & ? & ? & ? & ? & R). tauto. Qed.

  Lemma default_step_inv ps t l' ps' : default_step lex_Error ps t (Goto l' ps') -> pinv l' ps'.
  Proof.
    intros H. inversion H; subst.
    match goal with R : reduces _ _ _ |- _ => now apply reduces_inv in R end.
  Qed.

  Lemma step_move l ps : pinv l ps ->
    (exists o, step lex_Lex lex_Error l ps = Ok o /\ move l ps o
               /\ forall l' ps', o = Goto l' ps' -> pinv l' ps')
    \/ (exists w, need_token lex_Lex ps = Panic w /\ step lex_Lex lex_Error l ps = Panic w)
    \/ (need_token lex_Lex ps = OutOfFuel /\ step lex_Lex lex_Error l ps = OutOfFuel).
  Proof.
    intros I. pose proof (pinv_state _ _ I) as Hs. destruct l; cbn [step].
    - left. destruct (stack_spec ps I) as (ps' & E & A & B & C & D & I').
      eexists. split; [exact E|]. split; [now constructor|].
      intros l' q Q. injection Q as <- <-. exact I'.
    - destruct (reads (ps_state ps)) eqn:R.
      + rewrite (newstate_read lex_Lex ps Hs (proj1 I) R).
        destruct (need_token lex_Lex ps) as [ps1|w|] eqn:N; cbn [rbind];
          [|right; left; eexists; split; reflexivity|right; right; split; reflexivity].
        left. destruct (shift (ps_state ps) (ps_token ps1)) as [q|] eqn:Sh; eexists.
        * split; [reflexivity|]. split; [econstructor; eassumption|].
          intros l' x Q. injection Q as <- <-. now apply (shifted_inv lex_Lex ps).
        * split; [reflexivity|]. split; [econstructor; eassumption|].
          intros l' x Q. injection Q as <- <-.
          apply (need_token_inv lex_Lex Lyynewstate ps); (discriminate || assumption).
      + left. rewrite (newstate_skip lex_Lex ps Hs R). eexists. split; [reflexivity|].
        split; [now constructor|]. intros l' x Q. injection Q as <- <-.
        destruct I as [B H]. split; assumption.
    - destruct (asks (ps_state ps)) eqn:A.
      + destruct (default_asks lex_Lex lex_Error ps I A) as [(ps1 & o & N & E & I1 & D)|[(w & N & E)|[N E]]].
        * left. exists o. split; [exact E|]. split; [econstructor; eassumption|].
          intros l' x ->. now apply default_step_inv in D.
        * right. left. eexists. split; eassumption.
        * right. right. split; assumption.
      + left. assert (T : is_token 4) by (unfold is_token; lia).
        destruct (default_quiet lex_Lex lex_Error ps I A 4 T) as (o & E & D).
        exists o. split; [exact E|]. split; [now constructor|].
        intros l' x ->. now apply default_step_inv in D.
  Qed.

  (** Induction over runs: an invariant [K] preserved by all moves holds at the
      return. *)
  Lemma run_invariant (K : label -> pst -> Prop) (Q : Z -> pst -> Prop) :
    (forall l ps l' ps', pinv l ps -> K l ps -> move l ps (Goto l' ps') -> pinv l' ps' -> K l' ps') ->
    (forall l ps c ps', pinv l ps -> K l ps -> move l ps (Return c ps') -> Q c ps') ->
    forall fuel l ps c ps', pinv l ps -> K l ps ->
      run lex_Lex lex_Error fuel l ps = Ok (c, ps') -> Q c ps'.
  Proof.
    intros HG HR fuel. induction fuel as [|f IH]; [discriminate|]. intros l ps c ps' I H R.
    cbn [run] in R.
    destruct (step_move l ps I) as [(o & E & M & P)|[(w & _ & E)|[_ E]]]; rewrite E in R;
      try discriminate. cbn [rbind] in R. destruct o as [l1 ps1|c1 ps1].
    - apply (IH l1 ps1); [now apply P| |assumption]. eapply HG; try eassumption. now apply P.
    - injection R as <- <-. eapply HR; eassumption.
  Qed.
End Moves.

(** ** Panics and termination *)

Section Total.
  Context {L : Type}.
  Context (lex_Lex : L -> lexval -> res (Z * lexval * L)).
  Context (lex_Error : L -> string -> L).
  Notation pst := (pstate L).
  (** [J]: the lexer is in order; [mu]: what is left for it to read. *)
  Context (J : L -> Prop).

  Lemma need_token_J ps ps1 :
    (forall x v c v' x', J x -> lex_Lex x v = Ok (c, v', x') -> J x') ->
    J (ps_lx ps) -> need_token lex_Lex ps = Ok ps1 -> J (ps_lx ps1).
  Proof.
    intros H Hj. unfold need_token, yylex1. destruct (ps_char ps <? 0).
    - destruct (lex_Lex (ps_lx ps) (ps_lval ps)) as [[[c v] x]| |] eqn:E; try discriminate. cbn [rbind].
      destruct (yytranslate c); try discriminate. cbn. intros Q. injection Q as <-. cbn.
      eapply H; eassumption.
    - intros Q. now injection Q as <-.
  Qed.

  Lemma move_J l ps o :
    (forall x v c v' x', J x -> lex_Lex x v = Ok (c, v', x') -> J x') ->
    J (ps_lx ps) -> move lex_Lex lex_Error l ps o -> forall l' ps', o = Goto l' ps' -> J (ps_lx ps').
  Proof.
    intros H Hj M l' ps' ->. inversion M; subst.
    - match goal with S : same_input _ _ |- _ => destruct S as (_ & _ & _ & -> & _) end. assumption.
    - assumption.
    - change (ps_lx (shifted ps1 q)) with (ps_lx ps1). eapply need_token_J; eassumption.
    - eapply need_token_J; eassumption.
    - match goal with D : default_step _ _ _ _ |- _ => inversion D; subst end.
      match goal with R : reduces _ _ _ |- _ => pose proof (reduces_same _ _ _ R) as S end.
      destruct S as (_ & _ & _ & -> & _). assumption.
    - match goal with D : default_step _ _ _ _ |- _ => inversion D; subst end.
      match goal with R : reduces _ _ _ |- _ => pose proof (reduces_same _ _ _ R) as S end.
      destruct S as (_ & _ & _ & -> & _). eapply need_token_J; eassumption.
  Qed.

  Theorem run_no_panic :
    (forall x v c v' x', J x -> lex_Lex x v = Ok (c, v', x') -> J x') ->
    (forall x v w, J x -> lex_Lex x v <> Panic w) ->
    forall fuel l ps w, pinv l ps -> J (ps_lx ps) -> run lex_Lex lex_Error fuel l ps <> Panic w.
  Proof.
    intros H1 H2 fuel. induction fuel as [|f IH]; [discriminate|]. intros l ps w I Hj. cbn [run].
    destruct (step_move lex_Lex lex_Error l ps I) as [(o & E & M & P)|[(w' & N & E)|[_ E]]]; rewrite E;
      try discriminate; cbn [rbind].
    - destruct o as [l1 ps1|c1 ps1]; [|discriminate].
      apply IH; [now apply P|]. eapply move_J; try eassumption. reflexivity.
    - exfalso. unfold need_token, yylex1 in N. destruct (ps_char ps <? 0); [|discriminate].
      destruct (lex_Lex (ps_lx ps) (ps_lval ps)) as [[[c v] x]| |] eqn:F; try discriminate.
      + cbn [rbind] in N. destruct (translate_ok c) as (t & T & _). rewrite T in N. discriminate.
      + now apply H2 in F.
  Qed.

  Context (mu : L -> nat).
  Context (lex_ok : forall x v, J x -> exists c v' x',
             lex_Lex x v = Ok (c, v', x') /\ J x' /\ (mu x' <= mu x)%nat
             /\ (0 < c -> (mu x' < mu x)%nat)).

  (** Weight of the stack. *)
  Definition pot (l : label) (ps : pst) : Z :=
    hw (ps_state ps) +
    match l with
    | Lyystack => gw (ps_state ps) + sum_gw (sts (live ps))
    | _ => sum_gw (sts (live ps))
    end.

  Definition rank (l : label) : Z :=
    match l with Lyystack => 2 | Lyynewstate => 1 | Lyydefault => 0 end.

  Definition pending (ps : pst) : Z := if 0 <? ps_char ps then 1 else 0.

  Definition budget (l : label) (ps : pst) : Z :=
    120 * (Z.of_nat (mu (ps_lx ps)) + pending ps) + 3 * pot l ps + rank l.

  Lemma sum_gw_app a b : sum_gw (a ++ b) = sum_gw a + sum_gw b.
  Proof.
    induction a as [|x a IH]; [reflexivity|]. cbn [app]. unfold sum_gw in *. cbn [fold_right]. lia.
  Qed.

  Lemma sum_gw_nonneg l : Forall is_state l -> 0 <= sum_gw l.
  Proof.
    unfold sum_gw. induction 1; cbn [fold_right]; [lia|]. pose proof (weight_range x H). lia.
  Qed.

  Lemma sum_gw_rev l : sum_gw (rev l) = sum_gw l.
  Proof. induction l; cbn [rev]; [reflexivity|]. rewrite sum_gw_app, IHl. unfold sum_gw. cbn [fold_right]. lia. Qed.

  Lemma need_token_budget ps ps1 : J (ps_lx ps) -> need_token lex_Lex ps = Ok ps1 ->
    Z.of_nat (mu (ps_lx ps1)) + pending ps1 <= Z.of_nat (mu (ps_lx ps)) + pending ps.
  Proof.
    intros Hj. unfold need_token, yylex1. destruct (ps_char ps <? 0) eqn:E.
    - destruct (lex_ok _ (ps_lval ps) Hj) as (c & v & x & F & J' & Le & Lt). rewrite F. cbn [rbind].
      destruct (yytranslate c); try discriminate. cbn [rbind]. intros Q. injection Q as <-.
      unfold pending. cbn [with_look ps_lx ps_char]. apply Z.ltb_lt in E.
      destruct (0 <? ps_char ps) eqn:E1; [apply Z.ltb_lt in E1; lia|].
      destruct (0 <? c) eqn:E2; [apply Z.ltb_lt in E2; specialize (Lt E2)|]; lia.
    - intros Q. injection Q as <-. lia.
  Qed.

  (** A token that is shifted came from the input. *)
  Lemma shifted_pending ps ps1 q : is_state (ps_state ps) -> base ps ->
    (0 <= ps_char ps -> yytranslate (ps_char ps) = Ok (ps_token ps)) ->
    need_token lex_Lex ps = Ok ps1 -> shift (ps_state ps) (ps_token ps1) = Some q -> 0 < ps_char ps1.
  Proof.
    intros Hs B Tr N Sh.
    assert (T1 : 3 < ps_token ps1).
    { destruct (need_token_ok lex_Lex ps ps1 B N) as (_ & T & _). unfold is_token in T.
      destruct (Z.eq_dec (ps_token ps1) 1) as [E|]; [rewrite shift_special in Sh by auto; discriminate|].
      destruct (Z.eq_dec (ps_token ps1) 2) as [E|]; [rewrite shift_special in Sh by auto; discriminate|].
      destruct (Z.eq_dec (ps_token ps1) 3) as [E|]; [rewrite shift_special in Sh by auto; discriminate|].
      lia. }
    destruct (need_token_ok lex_Lex ps ps1 B N) as (_ & _ & _ & _ & _ & _ & [(-> & C)|(c & v & x & t & C & _ & T & ->)]).
    - apply Tr in C. apply translate_val in C. lia.
    - cbn [with_look ps_char ps_token] in *. apply translate_val in T. lia.
  Qed.

  (** The lookahead token is the translation of the lookahead code. *)
  Definition look_ok (ps : pst) : Prop := 0 <= ps_char ps -> yytranslate (ps_char ps) = Ok (ps_token ps).

  Lemma need_token_look ps ps1 : look_ok ps -> need_token lex_Lex ps = Ok ps1 -> look_ok ps1.
  Proof.
    intros H. unfold need_token, yylex1. destruct (ps_char ps <? 0).
    - destruct (lex_Lex (ps_lx ps) (ps_lval ps)) as [[[c v] x]| |]; try discriminate. cbn [rbind].
      destruct (yytranslate c) as [t| |] eqn:T; try discriminate. cbn [rbind]. intros Q. injection Q as <-.
      intros _. exact T.
    - intros Q. now injection Q as <-.
  Qed.

  Lemma same_input_pending ps ps' : same_input ps ps' ->
    Z.of_nat (mu (ps_lx ps')) + pending ps' = Z.of_nat (mu (ps_lx ps)) + pending ps.
  Proof. intros (A & _ & _ & B & _). unfold pending. now rewrite A, B. Qed.

  Lemma same_input_look ps ps' : same_input ps ps' -> look_ok ps -> look_ok ps'.
  Proof. intros (A & B & _). unfold look_ok. now rewrite A, B. Qed.

  Lemma reduces_pot ps n ps' t : pinv Lyydefault ps -> is_token t -> n = deflt (ps_state ps) t ->
    0 < n -> reduces n ps ps' -> pot Lyystack ps' < pot Lyydefault ps.
  Proof.
    intros I T E Hn (below & args & s & r & d & mkP & mkR & mkF & act & Ls & La & Ma & Sb & I0 & Lv & St & R).
    destruct R as (_ & _ & _ & _ & _ & _ & _ & _ & Fo & _).
    destruct I as [B (r0 & E0 & P)].
    assert (Q : sts (live ps) = rev (follow s (rhs n)) ++ sts below).
    { rewrite Ls. unfold sts. rewrite map_app, rev_app_distr. now rewrite Fo. }
    unfold pot. rewrite Lv, St, Q, sum_gw_app, sum_gw_rev.
    assert (Hs : is_state s).
    { rewrite <- E0, Q, Sb in P. apply path_app in P. now apply path_head_state in P. }
    pose proof (for_states _ weight_check s Hs) as W. cbv beta in W. rewrite forallb_forall in W.
    specialize (W _ I0). unfold weight_ok in W. cbn [fst snd] in W.
    assert (Hp : (0 =? 0) && (0 <? n) = true) by (rewrite (proj2 (Z.ltb_lt _ _) Hn); reflexivity).
    rewrite Hp in W. cbv zeta in W.
    assert (Top : last (follow s (rhs n)) s = ps_state ps).
    { rewrite <- E0, Q, Sb in P. apply path_chain in P as [_ P]. rewrite rev_involutive in P. rewrite P.
      rewrite Q, Sb in E0. clear -E0. revert E0. generalize (rev (follow s (rhs n))) as x.
      intros [|y x] E0; cbn [app hd] in *; now injection E0. }
    rewrite Top in W. apply orb_prop in W as [W|W].
    - exfalso. apply negb_true_iff in W.
      assert (X : existsb (fun t0 => deflt (ps_state ps) t0 =? n) toks = true).
      { apply existsb_exists. exists t. split; [now apply in_toks|]. rewrite E. apply Z.eqb_refl. }
      congruence.
    - apply Z.ltb_lt in W. lia.
  Qed.

  Lemma move_budget l ps l' ps' : pinv l ps -> J (ps_lx ps) -> look_ok ps ->
    move lex_Lex lex_Error l ps (Goto l' ps') -> budget l' ps' < budget l ps /\ look_ok ps'.
  Proof.
    intros I Hj Lk M. pose proof (pinv_state _ _ I) as Hs. unfold budget.
    inversion M; subst;
      try match goal with N : need_token lex_Lex ps = Ok _ |- _ => rename N into H4 end;
      try match goal with N : shift _ _ = _ |- _ => rename N into H5 end.
    - split; [|now apply (same_input_look ps)].
      match goal with S : same_input _ _ |- _ => apply same_input_pending in S; rewrite S end.
      assert (P : pot Lyynewstate ps' = pot Lyystack ps).
      { unfold pot.
        match goal with A : live ps' = _, B : ps_state ps' = _ |- _ => rewrite A, B end.
        unfold sts. rewrite map_app, rev_app_distr. reflexivity. }
      rewrite P. cbn [rank]. lia.
    - split; [|assumption]. cbn [rank]. change (pot Lyydefault ps') with (pot Lyynewstate ps'). lia.
    - split.
      2:{ intros Q. cbn in Q. lia. }
      pose proof (need_token_budget _ _ Hj H4) as Nb.
      assert (Pn : 0 < ps_char ps1) by (apply (shifted_pending ps ps1 q); try assumption; apply I).
      destruct (need_token_ok lex_Lex ps ps1 (proj1 I) H4) as (B1 & T & Lv & St & _).
      assert (X : pending ps1 = 1) by (unfold pending; apply Z.ltb_lt in Pn; now rewrite Pn).
      assert (Y : pending (shifted ps1 q) = 0) by reflexivity.
      rewrite Y. change (ps_lx (shifted ps1 q)) with (ps_lx ps1).
      destruct (shift_edge _ _ _ Hs T H5) as (_ & _ & Hq).
      pose proof (weight_range _ Hq). pose proof (weight_range _ Hs).
      unfold pot. change (live (shifted ps1 q)) with (live ps1). change (ps_state (shifted ps1 q)) with q.
      rewrite Lv. cbn [rank]. lia.
    - pose proof (need_token_budget _ _ Hj H4) as Nb.
      destruct (need_token_ok lex_Lex ps ps' (proj1 I) H4) as (B1 & T & Lv & St & _).
      split; [|now apply (need_token_look ps)].
      assert (P : pot Lyydefault ps' = pot Lyynewstate ps) by (unfold pot; now rewrite Lv, St).
      rewrite P. cbn [rank]. lia.
    - match goal with D : default_step _ _ _ _ |- _ => inversion D; subst end.
      match goal with R : red_ok _ _ = true |- _ => apply red_ok_spec in R as [Hn _] end.
      assert (P : pot Lyystack ps' < pot Lyydefault ps).
      { eapply (reduces_pot ps _ ps' 4); try eassumption; try reflexivity; [unfold is_token; lia|lia]. }
      match goal with R : reduces _ _ _ |- _ => pose proof (reduces_same _ _ _ R) as S end.
      split; [|now apply (same_input_look ps)].
      apply same_input_pending in S. rewrite S. cbn [rank]. lia.
    - match goal with D : default_step _ _ _ _ |- _ => inversion D; subst end.
      match goal with R : red_ok _ _ = true |- _ => apply red_ok_spec in R as [Hn _] end.
      pose proof (need_token_budget _ _ Hj H4) as Nb.
      destruct (need_token_ok lex_Lex ps ps1 (proj1 I) H4) as (B1 & T & Lv & St & _).
      pose proof (need_token_inv lex_Lex Lyydefault ps ps1 ltac:(discriminate) I H4 Lyydefault ltac:(discriminate)) as I1.
      assert (P : pot Lyystack ps' < pot Lyydefault ps1).
      { eapply (reduces_pot ps1 _ ps' (ps_token ps1)); try eassumption; try reflexivity. lia. }
      assert (P1 : pot Lyydefault ps1 = pot Lyydefault ps) by (unfold pot; now rewrite Lv, St).
      match goal with R : reduces _ _ _ |- _ => pose proof (reduces_same _ _ _ R) as S end.
      pose proof (need_token_look _ _ Lk H4) as Lk1.
      split; [|now apply (same_input_look ps1)].
      apply same_input_pending in S. rewrite S. cbn [rank]. lia.
  Qed.

  Lemma budget_nonneg l ps : pinv l ps -> 0 <= budget l ps.
  Proof.
    intros I. pose proof (pinv_state _ _ I) as Hs. pose proof (weight_range _ Hs).
    assert (N : 0 <= sum_gw (sts (live ps))).
    { apply sum_gw_nonneg. destruct I as [B I]. destruct l.
      - apply path_states in I. now apply Forall_cons_iff in I.
      - destruct I as (r & -> & P). now apply path_states.
      - destruct I as (r & -> & P). now apply path_states. }
    unfold budget, pot, pending. destruct l, (0 <? ps_char ps); cbn [rank]; lia.
  Qed.

  Theorem run_terminates : forall fuel l ps,
    pinv l ps -> J (ps_lx ps) -> look_ok ps -> budget l ps < Z.of_nat fuel ->
    exists c ps', run lex_Lex lex_Error fuel l ps = Ok (c, ps').
  Proof.
    intros fuel. induction fuel as [|f IH]; intros l ps I Hj Lk Hf.
    { pose proof (budget_nonneg l ps I). lia. }
    cbn [run].
    assert (Nt : exists ps1, need_token lex_Lex ps = Ok ps1).
    { unfold need_token, yylex1. destruct (ps_char ps <? 0); [|eexists; reflexivity].
      destruct (lex_ok _ (ps_lval ps) Hj) as (c & v & x & F & _). rewrite F. cbn [rbind].
      destruct (translate_ok c) as (t & T & _). rewrite T. eexists. reflexivity. }
    destruct Nt as [ps1 Nt].
    destruct (step_move lex_Lex lex_Error l ps I) as [(o & E & M & P)|[(w' & N & E)|[N E]]];
      try congruence. rewrite E. cbn [rbind]. destruct o as [l' ps'|c ps']; [|do 2 eexists; reflexivity].
    destruct (move_budget _ _ _ _ I Hj Lk M) as [Bd Lk'].
    apply IH; [now apply P| |assumption|lia].
    eapply move_J; [|exact Hj|exact M|reflexivity].
    intros x v c v' x' Jx F. destruct (lex_ok x v Jx) as (c2 & v2 & x2 & F2 & J2 & _). congruence.
  Qed.

  Theorem parse_terminates fuel lx : J lx -> 120 * Z.of_nat (mu lx) + 120 <= Z.of_nat fuel ->
    exists c ps', yyParse lex_Lex lex_Error fuel lx = Ok (c, ps').
  Proof.
    intros Hj Hf. apply run_terminates; [apply init_inv|assumption| |].
    - intros Q. cbn in Q. lia.
    - unfold budget. change (pot Lyystack (init lx)) with (hw 0 + (gw 0 + 0)).
      change (pending (init lx)) with 0. change (ps_lx (init lx)) with lx.
      pose proof (weight_range 0 ltac:(unfold is_state; lia)). cbn [rank]. lia.
  Qed.
End Total.
