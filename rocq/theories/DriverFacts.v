(** What the goyacc driver does, for any lexer: the states on the stack form a path
    of the automaton, so no table access fails. *)
From Coq Require Import ZArith String List Bool Lia.
From Verif Require Import GoBase Tokens Tables Ast Actions Lexer Driver Grammar Automaton DriverTables.
Import ListNotations.
Local Open Scope Z_scope.

(** ** Paths of the automaton, last state first *)

Inductive path : list Z -> Prop :=
| path_zero : path [0]
| path_succ q s l : path (s :: l) -> In q (succs s) -> path (q :: s :: l).

Lemma path_states l : path l -> Forall is_state l.
Proof.
  induction 1.
  - constructor; [unfold is_state; lia|constructor].
  - constructor; [|assumption]. apply Forall_cons_iff in IHpath as [A _].
    now apply (succ_state s).
Qed.

Lemma path_tail q s l : path (q :: s :: l) -> path (s :: l) /\ In q (succs s).
Proof. intros H. inversion H; subst; tauto. Qed.

Lemma path_app a s l : path (a ++ s :: l) -> path (s :: l).
Proof.
  induction a as [|q a IH]; [easy|]. cbn [app]. intros H. apply IH.
  destruct a as [|q' a]; cbn [app] in *; now apply path_tail in H.
Qed.

Lemma path_head_state q l : path (q :: l) -> is_state q.
Proof. intros H. apply path_states in H. now apply Forall_cons_iff in H. Qed.

(** Successive states, first one first. *)
Fixpoint chain (s : Z) (l : list Z) : Prop :=
  match l with [] => True | q :: l' => In q (succs s) /\ chain q l' end.

Lemma last_default (l : list Z) a b : l <> [] -> last l a = last l b.
Proof.
  induction l as [|x l IH]; [easy|]. intros _. destruct l; [reflexivity|].
  change (last (x :: z :: l) a) with (last (z :: l) a).
  change (last (x :: z :: l) b) with (last (z :: l) b). apply IH. discriminate.
Qed.

Lemma last_cons (l : list Z) x s : last (x :: l) s = last l x.
Proof.
  destruct l; [reflexivity|]. change (last (x :: z :: l) s) with (last (z :: l) s).
  apply last_default. discriminate.
Qed.

Lemma chain_app s l q : chain s l -> In q (succs (last l s)) -> chain s (l ++ [q]).
Proof.
  revert s. induction l as [|x l IH]; cbn [app chain]; intros s.
  - tauto.
  - intros [A B] C. split; [assumption|]. apply IH; [assumption|]. now rewrite last_cons in C.
Qed.

Lemma path_chain a s l : path (a ++ s :: l) -> chain s (rev a) /\ last (rev a) s = hd s a.
Proof.
  induction a as [|q a IH]; [easy|]. cbn [app rev hd]. intros H.
  assert (P : path (a ++ s :: l)) by (destruct a; cbn [app] in *; now apply path_tail in H).
  apply IH in P as [C E]. split.
  - apply chain_app; [assumption|]. rewrite E.
    destruct a; cbn [app hd] in *; now apply path_tail in H.
  - apply last_last.
Qed.

Lemma chain_follow s l : is_state s -> chain s l -> l = follow s (map acc l).
Proof.
  revert s. induction l as [|q l IH]; [reflexivity|]. cbn [chain map follow]. intros s Hs [A B].
  destruct (find (fun q0 => acc q0 =? acc q) (succs s)) as [q'|] eqn:F.
  - apply find_some in F as [I E]. apply Z.eqb_eq in E.
    assert (q' = q) by (now apply (succs_det s)). subst q'. f_equal. apply IH; [|assumption].
    now apply (succ_state s).
  - apply (find_none _ _ F) in A. rewrite Z.eqb_refl in A. discriminate.
Qed.

(** Popping the right side of a production whose item is complete. *)
Lemma path_reduce d : forall q l n,
  path (q :: l) -> In (n, Z.of_nat d) (items q) ->
  exists a s base, q :: l = a ++ s :: base /\ length a = d /\ In (n, 0) (items s)
                   /\ map acc (rev a) = firstn d (rhs n).
Proof.
  induction d as [|d IH]; intros q l n P I.
  - exists [], q, l. repeat split; assumption || reflexivity.
  - destruct l as [|s l].
    { inversion P; subst. apply items_zero in I. lia. }
    apply path_tail in P as [P Q]. pose proof (path_head_state _ _ P) as Hs.
    apply (item_pred s) in I; [|assumption..|lia]. destruct I as (N & I & R).
    replace (Z.of_nat (S d) - 1) with (Z.of_nat d) in * by lia. rewrite Nat2Z.id in N.
    destruct (IH s l n P I) as (a & s0 & base & E & La & I0 & M).
    exists (q :: a), s0, base. split; [cbn; congruence|]. split; [cbn; congruence|].
    split; [assumption|]. cbn [rev]. rewrite map_app, M. cbn [map]. rewrite <- N.
    clear -R. revert R. generalize (rhs n) as r. intros r R.
    assert (H : (d < length r)%nat) by lia. clear R. revert r H.
    induction d as [|d IH]; intros [|x r] H; cbn in *; try lia; [reflexivity|].
    f_equal. apply IH. lia.
Qed.

Section Facts.
  Context {L : Type}.
  Context (lex_Lex : L -> lexval -> res (Z * lexval * L)).
  Context (lex_Error : L -> string -> L).
  Notation pst := (pstate L).

  (** The stack entries in use, bottom first. *)
  Definition live (ps : pst) : list slot := firstn (Z.to_nat (ps_p ps + 1)) (ps_S ps).

  (** Their states, top first. *)
  Definition sts (l : list slot) : list Z := rev (map sl_yys l).

  Record base (ps : pst) : Prop := {
    b_len : (0 < length (ps_S ps))%nat;
    b_p : -1 <= ps_p ps < Z.of_nat (length (ps_S ps));
    b_err : ps_Errflag ps = 0;
    b_tok : 0 <= ps_char ps -> is_token (ps_token ps)
  }.

  (** The invariant at a label. *)
  Definition pinv (l : label) (ps : pst) : Prop :=
    base ps /\
    match l with
    | Lyystack => path (ps_state ps :: sts (live ps))
    | _ => exists r, sts (live ps) = ps_state ps :: r /\ path (ps_state ps :: r)
    end.

  Lemma live_length ps : base ps -> Z.of_nat (length (live ps)) = ps_p ps + 1.
  Proof. intros [A B C D]. unfold live. rewrite firstn_length. lia. Qed.

  Lemma pinv_state l ps : pinv l ps -> is_state (ps_state ps).
  Proof.
    intros [B H]. destruct l.
    - now apply path_head_state in H.
    - destruct H as (r & _ & P). now apply path_head_state in P.
    - destruct H as (r & _ & P). now apply path_head_state in P.
  Qed.

  (** *** Label yystack *)

  Lemma firstn_update {A} (l : list A) i x :
    (i < length l)%nat -> firstn (S i) (update l i x) = firstn i l ++ [x].
  Proof.
    revert i. induction l as [|y l IH]; intros [|i] H; cbn in *; try lia; [reflexivity|].
    f_equal. apply IH. lia.
  Qed.

  Lemma update_length {A} (l : list A) i x : length (update l i x) = length l.
  Proof. revert i. induction l; intros [|i]; cbn; congruence. Qed.

  Lemma grow_spec old yyS i o s : (0 < length yyS)%nat -> i <= Z.of_nat (length yyS) ->
    grow old yyS i = (o, s) ->
    i < Z.of_nat (length s) /\ (exists e, s = yyS ++ e).
  Proof.
    unfold grow. intros H1 H2. destruct (i >=? Z.of_nat (length yyS)) eqn:E; intros G; injection G as <- <-.
    - rewrite app_length, repeat_length. split; [lia|]. eexists. reflexivity.
    - rewrite Z.geb_leb in E. apply Z.leb_gt in E. split; [lia|]. exists []. now rewrite app_nil_r.
  Qed.

  (** What stays the same when the driver only works on its stack. *)
  Definition same_input (ps ps' : pst) : Prop :=
    ps_char ps' = ps_char ps /\ ps_token ps' = ps_token ps /\ ps_lval ps' = ps_lval ps
    /\ ps_lx ps' = ps_lx ps /\ ps_Errflag ps' = ps_Errflag ps.

  Lemma stack_spec ps : pinv Lyystack ps ->
    exists ps', step_stack ps = Ok (Goto Lyynewstate ps')
      /\ live ps' = live ps ++ [{| sl_yys := ps_state ps; sl_val := ps_VAL ps |}]
      /\ ps_state ps' = ps_state ps /\ ps_result ps' = ps_result ps
      /\ same_input ps ps' /\ pinv Lyynewstate ps'.
  Proof.
    intros [B P]. unfold step_stack.
    destruct (grow (ps_old ps) (ps_S ps) (ps_p ps + 1)) as [o s] eqn:G.
    pose proof (b_p _ B) as Hp.
    pose proof (fun H => grow_spec _ _ _ _ _ (b_len _ B) H G) as Q.
    destruct Q as (Hl & e & ->); [lia|].
    destruct (ps_p ps + 1 <? 0) eqn:E; [apply Z.ltb_lt in E; lia|]. eexists. split; [reflexivity|].
    set (x := {| sl_yys := ps_state ps; sl_val := ps_VAL ps |}).
    match goal with |- live ?q = _ /\ _ => set (ps' := q) end.
    assert (Lv : live ps' = live ps ++ [x]).
    { unfold live at 1. cbn [ps' with_stack ps_p ps_S].
      replace (Z.to_nat (ps_p ps + 1 + 1)) with (S (Z.to_nat (ps_p ps + 1))) by lia.
      rewrite firstn_update by lia. f_equal. unfold live. rewrite firstn_app.
      replace (Z.to_nat (ps_p ps + 1) - length (ps_S ps))%nat with 0%nat by lia.
      cbn. apply app_nil_r. }
    split; [exact Lv|]. split; [reflexivity|]. split; [reflexivity|].
    split; [repeat split|]. split.
    - constructor; cbn [ps' with_stack ps_S ps_p ps_Errflag ps_char ps_token].
      + rewrite update_length, app_length. pose proof (b_len _ B). lia.
      + rewrite update_length. lia.
      + apply B.
      + apply B.
    - exists (sts (live ps)). rewrite Lv. unfold sts at 1. rewrite map_app, rev_app_distr.
      split; [reflexivity|exact P].
  Qed.

  (** *** Reading a token *)

  Lemma need_token_ok ps ps1 : base ps -> need_token lex_Lex ps = Ok ps1 ->
    base ps1 /\ is_token (ps_token ps1) /\ live ps1 = live ps /\ ps_state ps1 = ps_state ps
    /\ ps_result ps1 = ps_result ps /\ ps_VAL ps1 = ps_VAL ps
    /\ ((ps1 = ps /\ 0 <= ps_char ps) \/
        (exists c v x t, ps_char ps < 0 /\ lex_Lex (ps_lx ps) (ps_lval ps) = Ok (c, v, x)
                         /\ yytranslate c = Ok t /\ ps1 = with_look ps c t v x)).
  Proof.
    intros B. unfold need_token, yylex1. destruct (ps_char ps <? 0) eqn:E.
    - apply Z.ltb_lt in E. destruct (lex_Lex (ps_lx ps) (ps_lval ps)) as [[[c v] x]| |] eqn:F; try discriminate.
      cbn [rbind]. destruct (translate_ok c) as (t & T & I). rewrite T. cbn [rbind].
      intros H. injection H as <-. split; [destruct B; constructor; assumption || (intros; exact I)|].
      split; [exact I|]. repeat (split; [reflexivity|]). right. exists c, v, x, t. auto.
    - apply Z.ltb_ge in E. intros H. injection H as <-. split; [assumption|].
      split; [now apply B|]. repeat (split; [reflexivity|]). left. auto.
  Qed.

  (** *** Label yynewstate *)

  Definition reads (s : Z) : bool := negb (zn yyPact s <=? yyFlag).

  Lemma newstate_skip ps : is_state (ps_state ps) -> reads (ps_state ps) = false ->
    step_newstate lex_Lex ps = Ok (Goto Lyydefault ps).
  Proof.
    intros Hs R. unfold step_newstate. rewrite tab_zn by (change (length yyPact) with 432%nat; exact Hs).
    cbn [rtab rbind]. unfold reads in R. apply negb_false_iff in R. now rewrite R.
  Qed.

  Definition shifted (ps : pst) (q : Z) : pst :=
    with_state (with_VAL (with_look ps (-1) (-1) (ps_lval ps) (ps_lx ps)) (sym_of_lexval (ps_lval ps))) q 0.

  Lemma newstate_read ps : is_state (ps_state ps) -> base ps -> reads (ps_state ps) = true ->
    step_newstate lex_Lex ps =
    rbind (need_token lex_Lex ps) (fun ps1 =>
      match shift (ps_state ps) (ps_token ps1) with
      | Some q => Ok (Goto Lyystack (shifted ps1 q))
      | None => Ok (Goto Lyydefault ps1)
      end).
  Proof.
    intros Hs B R. unfold step_newstate. rewrite tab_zn by (change (length yyPact) with 432%nat; exact Hs).
    cbn [rtab rbind]. unfold reads in R. apply negb_true_iff in R. rewrite R.
    destruct (need_token lex_Lex ps) as [ps1| |] eqn:N; try reflexivity. cbn [rbind].
    apply need_token_ok in N; [|assumption]. destruct N as (B1 & T & _ & _ & _ & _ & _).
    unfold shift. rewrite R. cbv zeta.
    destruct ((zn yyPact (ps_state ps) + ps_token ps1 <? 0) || (zn yyPact (ps_state ps) + ps_token ps1 >=? yyLast)) eqn:X;
      [reflexivity|].
    apply orb_false_elim in X as [X1 X2]. apply Z.ltb_ge in X1. rewrite Z.geb_leb in X2. apply Z.leb_gt in X2.
    unfold yyLast in X2.
    rewrite tab_zn by (change (length yyAct) with 912%nat; lia). cbn [rtab rbind].
    rewrite tab_zn by (change (length yyChk) with 432%nat; apply act_state; lia). cbn [rtab rbind].
    destruct (zn yyChk (zn yyAct (zn yyPact (ps_state ps) + ps_token ps1)) =? ps_token ps1); [|reflexivity].
    unfold shifted. cbn [with_VAL with_look ps_Errflag ps_lval]. rewrite (b_err _ B1). reflexivity.
  Qed.

  Lemma shifted_inv ps ps1 q : pinv Lyynewstate ps -> need_token lex_Lex ps = Ok ps1 ->
    shift (ps_state ps) (ps_token ps1) = Some q -> pinv Lyystack (shifted ps1 q).
  Proof.
    intros I N Sh. pose proof (pinv_state _ _ I) as Hs. destruct I as [B (r & E & P)].
    apply need_token_ok in N; [|assumption]. destruct N as (B1 & T & Lv & _).
    split.
    - destruct B1. constructor; try assumption; cbn; [reflexivity|lia].
    - change (live (shifted ps1 q)) with (live ps1). rewrite Lv, E.
      constructor; [assumption|]. now apply (shift_edge _ (ps_token ps1)).
  Qed.

  Lemma need_token_inv l ps ps1 : l <> Lyystack -> pinv l ps -> need_token lex_Lex ps = Ok ps1 ->
    forall l', l' <> Lyystack -> pinv l' ps1.
  Proof.
    intros Hl [B H] N l' Hl'. apply need_token_ok in N; [|assumption].
    destruct N as (B1 & T & Lv & St & _). split; [assumption|].
    destruct l; [congruence| |]; (destruct l'; [congruence| |]); rewrite Lv, St; exact H.
  Qed.

  (** *** Reductions *)

  (** The effect of a reduction by production [n]. *)
  Definition reduces (n : Z) (ps ps' : pst) : Prop :=
    exists below args s r d mkP mkR mkF act,
      live ps = below ++ args /\ length args = length (rhs n)
      /\ map (fun x => acc (sl_yys x)) args = rhs n
      /\ sts below = s :: r /\ In (n, 0) (items s)
      /\ live ps' = below
      /\ ps_state ps' = goto s (lhs n)
      /\ (forall k x, nth_error args k = Some x -> d (S k) = sl_val x)
      /\ (forall k v, pv_snap (mkP k v) = v) /\ (forall k x, pd_snap (mkR k x) = x)
      /\ (forall x, pd_snap (mkF x) = x)
      /\ nth_error (actions mkP mkR mkF) (Z.to_nat n) = Some act
      /\ ps_VAL ps' = fst (act d (d 1%nat))
      /\ ps_result ps' = match snd (act d (d 1%nat)) with Some m => Some m | None => ps_result ps end
      /\ same_input ps ps'
      /\ rev (map sl_yys args) = rev (follow s (rhs n))
      /\ pinv Lyystack ps'.

  Lemma actions_length mkP mkR mkF : length (actions (P:=ptrV) (R:=ptrD) mkP mkR mkF) = 292%nat.
  Proof. reflexivity. Qed.

  Lemma reduce_spec ps n : pinv Lyydefault ps -> red_ok (ps_state ps) n = true ->
    exists ps', step_reduce ps n = Ok (Goto Lyystack ps') /\ reduces n ps ps'.
  Proof.
    intros [B (r & E & P)] R. apply red_ok_spec in R as [Hn Hi].
    destruct (rule_facts n Hn) as (R1 & R2 & Hl).
    destruct (path_reduce _ _ _ _ P Hi) as (a & s & bs & Ea & La & I0 & M).
    rewrite firstn_all in M. rewrite Ea in P.
    pose proof (path_app _ _ _ P) as Pb. pose proof (path_head_state _ _ Pb) as Hs.
    destruct (path_chain _ _ _ P) as (Ch & _).
    apply (chain_follow s) in Ch; [|assumption]. rewrite M in Ch.
    destruct (goto_edge s n Hs I0 ltac:(lia)) as (Ge & Ga & Gj & Gg).
    set (k := length (rhs n)) in *.
    pose proof (live_length _ B) as Ll.
    assert (Lst : length (sts (live ps)) = length (live ps)) by (unfold sts; now rewrite rev_length, map_length).
    assert (Lk : (length (live ps) = k + S (length bs))%nat).
    { rewrite <- Lst, E, Ea, app_length. cbn. lia. }
    set (below := firstn (length (live ps) - k) (live ps)).
    set (args := skipn (length (live ps) - k) (live ps)).
    assert (Ls : live ps = below ++ args) by (symmetry; apply firstn_skipn).
    assert (Largs : length args = k) by (unfold args; rewrite skipn_length; lia).
    assert (Sb : sts args = a /\ sts below = s :: bs).
    { assert (Q : sts (live ps) = sts args ++ sts below).
      { rewrite Ls. unfold sts. now rewrite map_app, rev_app_distr. }
      rewrite E, Ea in Q.
      assert (Lq : length (sts args) = length a) by (unfold sts; rewrite rev_length, map_length; lia).
      clear -Q Lq. revert Q Lq. generalize (sts args) as x, (sts below) as y. induction a as [|z a IH]; intros [|w x] y Q Lq; cbn in *; try lia.
      - auto.
      - injection Q as -> Q. destruct (IH x y Q ltac:(lia)) as [-> ->]. auto. }
    destruct Sb as [Sa Sb].
    unfold step_reduce.
    rewrite tab_zn by (change (length yyR2) with 292%nat; lia). cbn [rtab rbind]. rewrite R2. fold k.
    destruct (grow (ps_old ps) (ps_S ps) (ps_p ps - Z.of_nat k + 1)) as [o yyS] eqn:G.
    pose proof (b_p _ B) as Hp.
    pose proof (fun H => grow_spec _ _ _ _ _ (b_len _ B) H G) as Q.
    destruct Q as (Hg & e & ->); [lia|].
    assert (C1 : (ps_p ps - Z.of_nat k <? 0) || (ps_p ps >=? Z.of_nat (length (ps_S ps ++ e))) = false).
    { rewrite app_length. apply orb_false_intro; [apply Z.ltb_ge; lia|]. rewrite Z.geb_leb. apply Z.leb_gt. lia. }
    rewrite C1. cbv zeta.
    rewrite tab_zn by (change (length yyR1) with 292%nat; lia). cbn [rtab rbind]. rewrite R1.
    rewrite tab_zn by lia. cbn [rtab rbind].
    assert (Slot : forall i, (i < length (live ps))%nat ->
              slot_at (ps_S ps ++ e) (Z.of_nat i) = nth i (live ps) slot_zero).
    { intros i Hi'. unfold slot_at. rewrite Nat2Z.id. rewrite app_nth1 by lia.
      unfold live. rewrite <- (firstn_skipn (Z.to_nat (ps_p ps + 1)) (ps_S ps)) at 1.
      rewrite app_nth1; [reflexivity|]. fold (live ps). exact Hi'. }
    assert (Bl : (0 < length below)%nat /\ length below = S (length bs)).
    { assert (length (sts below) = length below) by (unfold sts; now rewrite rev_length, map_length).
      rewrite Sb in H. cbn in H. lia. }
    assert (Pp : ps_p ps - Z.of_nat k = Z.of_nat (length bs)) by lia.
    assert (Ss : sl_yys (slot_at (ps_S ps ++ e) (ps_p ps - Z.of_nat k)) = s).
    { rewrite Pp, Slot by lia. rewrite Ls, app_nth1 by lia.
      unfold sts in Sb. clear -Sb Bl. destruct Bl as [_ Bl].
      assert (Q : map sl_yys below = rev bs ++ [s]).
      { rewrite <- (rev_involutive (map sl_yys below)), Sb. reflexivity. }
      change s with (nth 0 [s] (sl_yys slot_zero)).
      change (sl_yys (nth (length bs) below slot_zero)) with ((fun x => sl_yys x) (nth (length bs) below slot_zero)).
      rewrite <- (map_nth sl_yys below slot_zero), Q, app_nth2; rewrite rev_length; [|lia].
      now rewrite Nat.sub_diag. }
    rewrite Ss.
    assert (Gt : (if zn yyPgo (lhs n) + s + 1 >=? yyLast then rtab (tab yyAct (zn yyPgo (lhs n)))
                  else rbind (rtab (tab yyAct (zn yyPgo (lhs n) + s + 1))) (fun a0 =>
                       rbind (rtab (tab yyChk a0)) (fun c =>
                       if c =? - lhs n then Ok a0 else rtab (tab yyAct (zn yyPgo (lhs n))))))
                 = Ok (goto s (lhs n))).
    { unfold goto. cbv zeta. unfold yyLast in *. rewrite (tab_zn yyAct (zn yyPgo (lhs n))) by (change (length yyAct) with 912%nat; lia).
      destruct (zn yyPgo (lhs n) + s + 1 >=? 912) eqn:X; [reflexivity|].
      rewrite Z.geb_leb in X. apply Z.leb_gt in X.
      rewrite tab_zn by (change (length yyAct) with 912%nat; lia). cbn [rtab rbind].
      rewrite tab_zn by (change (length yyChk) with 432%nat; apply act_state; lia). cbn [rtab rbind].
      now destruct (zn yyChk (zn yyAct (zn yyPgo (lhs n) + s + 1)) =? - lhs n). }
    rewrite Gt. cbn [rbind]. clear Gt.
    match goal with |- context [actions ?p ?q ?f] => set (mkP := p); set (mkR := q); set (mkF := f) end.
    destruct (nth_error (actions mkP mkR mkF) (Z.to_nat n)) as [act|] eqn:Ac.
    2:{ apply nth_error_None in Ac. rewrite actions_length in Ac. lia. }
    cbn [rtab rbind].
    set (d := fun k0 : nat => sl_val (slot_at (ps_S ps ++ e) (ps_p ps - Z.of_nat k + Z.of_nat k0))).
    change (sl_val (slot_at (ps_S ps ++ e) (ps_p ps - Z.of_nat k + 1))) with (d 1%nat).
    destruct (act d (d 1%nat)) as [v result] eqn:Av.
    eexists. split; [reflexivity|].
    match goal with |- reduces n ps ?q => set (ps' := q) end.
    assert (Lv : live ps' = below).
    { unfold live at 1. cbn [ps' with_state with_result with_VAL with_stack ps_p ps_S].
      unfold below, live. rewrite firstn_firstn. rewrite firstn_app.
      replace (Z.to_nat (ps_p ps - Z.of_nat k + 1) - length (ps_S ps))%nat with 0%nat by lia.
      cbn [firstn]. rewrite app_nil_r. f_equal. fold (live ps). lia. }
    exists below, args, s, bs, d, mkP, mkR, mkF, act.
    split; [exact Ls|]. split; [exact Largs|]. split.
    { rewrite <- M, <- Sa. unfold sts. rewrite rev_involutive, map_map. reflexivity. }
    split; [exact Sb|]. split; [exact I0|]. split; [exact Lv|]. split; [reflexivity|].
    split.
    { intros j x Hx. unfold d.
      assert (Hj : (j < length args)%nat) by (apply nth_error_Some; congruence).
      replace (ps_p ps - Z.of_nat k + Z.of_nat (S j)) with (Z.of_nat (length below + j)) by lia.
      rewrite Slot by (rewrite Ls, app_length; lia).
      rewrite Ls, app_nth2 by lia. replace (length below + j - length below)%nat with j by lia.
      erewrite nth_error_nth; [reflexivity|exact Hx]. }
    split; [reflexivity|]. split; [reflexivity|]. split; [reflexivity|]. split; [exact Ac|].
    rewrite Av. split; [reflexivity|]. split; [now destruct result|].
    split; [repeat split|].
    split. { change (rev (map sl_yys args)) with (sts args). now rewrite Sa, <- Ch, rev_involutive. }
    split.
    - constructor; cbn [ps' with_state with_result with_VAL with_stack ps_p ps_S ps_Errflag ps_char ps_token].
      + rewrite app_length. pose proof (b_len _ B). lia.
      + lia.
      + apply B.
      + apply B.
    - rewrite Lv, Sb. constructor; assumption.
  Qed.

  (** *** Errors *)

  Lemma error_pop_none yyS k : (k <= length yyS)%nat ->
    Forall (fun x => is_state (sl_yys x)) (firstn k yyS) -> error_pop k yyS = Ok None.
  Proof.
    revert yyS. induction k as [|k IH]; intros yyS Hk F; [reflexivity|]. cbn [error_pop].
    destruct (nth_error yyS k) as [x|] eqn:N; [|apply nth_error_None in N; lia]. cbn [rtab rbind].
    assert (Sp : firstn (S k) yyS = firstn k yyS ++ [x]).
    { clear -N. revert k N. induction yyS as [|y l IH]; intros [|k] N; cbn in *; try discriminate.
      - now injection N as ->.
      - f_equal. now apply IH. }
    rewrite Sp in F. apply Forall_app in F as [F1 F2]. apply Forall_cons_iff in F2 as [Hx _].
    rewrite tab_zn by (change (length yyPact) with 432%nat; exact Hx). cbn [rtab rbind]. cbv zeta.
    pose proof (for_states _ error_check _ Hx) as C. cbv beta zeta in C.
    destruct ((0 <=? zn yyPact (sl_yys x) + yyErrCode) && (zn yyPact (sl_yys x) + yyErrCode <? yyLast)) eqn:X.
    - apply andb_prop in X as [X1 X2]. apply Z.leb_le in X1. apply Z.ltb_lt in X2. unfold yyLast in X2.
      rewrite tab_zn by (change (length yyAct) with 912%nat; lia). cbn [rtab rbind].
      rewrite tab_zn by (change (length yyChk) with 432%nat; apply act_state; lia). cbn [rtab rbind].
      apply negb_true_iff in C. rewrite C. apply IH; [lia|assumption].
    - apply IH; [lia|assumption].
  Qed.

  Lemma error_spec ps : pinv Lyydefault ps ->
    exists m ps', yyErrorMessage (ps_state ps) (ps_token ps) = Ok m
      /\ step_error lex_Error ps = Ok (Return 1 ps')
      /\ ps_lx ps' = lex_Error (ps_lx ps) m /\ ps_result ps' = ps_result ps.
  Proof.
    intros I. pose proof (pinv_state _ _ I) as Hs. destruct I as [B (r & E & P)].
    destruct (message_ok (ps_state ps) (ps_token ps) Hs) as [m Hm].
    unfold step_error. rewrite (b_err _ B), Hm. cbn [Z.eqb rbind].
    cbn [with_look ps_p ps_S].
    rewrite error_pop_none.
    - cbn [rbind]. do 2 eexists. repeat split.
    - pose proof (b_p _ B). lia.
    - fold (live ps). apply path_states in P. rewrite <- E in P. unfold sts in P.
      apply Forall_rev in P. rewrite rev_involutive in P. rewrite Forall_map in P. exact P.
  Qed.

  (** *** Label yydefault *)

  (** The default of a state that does not look at the input. *)
  Lemma deflt_quiet s t : zn yyDef s <> -2 -> deflt s t = zn yyDef s.
  Proof. intros H. unfold deflt. destruct (zn yyDef s =? -2) eqn:E; [apply Z.eqb_eq in E; congruence|reflexivity]. Qed.

  Definition asks (s : Z) : bool := zn yyDef s =? -2.

  (** yydefault once the token, if wanted, is there. *)
  Inductive default_step (ps : pst) (t : Z) : outcome L -> Prop :=
  | DS_accept : ps_state ps = 1 -> t = 1 -> deflt (ps_state ps) t = -1 ->
      default_step ps t (Return 0 ps)
  | DS_error m ps' : deflt (ps_state ps) t = 0 ->
      yyErrorMessage (ps_state ps) (ps_token ps) = Ok m ->
      ps_lx ps' = lex_Error (ps_lx ps) m -> ps_result ps' = ps_result ps ->
      default_step ps t (Return 1 ps')
  | DS_reduce n ps' : n = deflt (ps_state ps) t -> red_ok (ps_state ps) n = true -> reduces n ps ps' ->
      step_reduce ps n = Ok (Goto Lyystack ps') ->
      default_step ps t (Goto Lyystack ps').

  Lemma default_quiet ps : pinv Lyydefault ps -> asks (ps_state ps) = false ->
    forall t, is_token t ->
    exists o, step_default lex_Lex lex_Error ps = Ok o /\ default_step ps t o.
  Proof.
    intros I A t T. pose proof (pinv_state _ _ I) as Hs. unfold asks in A.
    unfold step_default. rewrite tab_zn by (change (length yyDef) with 432%nat; exact Hs).
    cbn [rtab rbind]. rewrite A.
    assert (N : zn yyDef (ps_state ps) <> -2) by (intros Q; rewrite Q in A; discriminate).
    pose proof (deflt_quiet _ t N) as D.
    destruct (deflt_cases _ t Hs T) as [C|[C|(C & S1 & T1)]].
    - rewrite C in D. rewrite <- D. cbn [Z.eqb].
      destruct (error_spec ps I) as (m & ps' & M & Se & Lx & Rs). rewrite Se. eexists. split; [reflexivity|].
      eapply DS_error; eassumption.
    - rewrite <- D. destruct (deflt (ps_state ps) t =? 0) eqn:Z0.
      { apply Z.eqb_eq in Z0. rewrite Z0 in C. apply red_ok_spec in C. lia. }
      destruct (reduce_spec ps _ I C) as (ps' & Sr & Re). rewrite Sr. eexists. split; [reflexivity|].
      eapply DS_reduce; [reflexivity|eassumption..].
    - exfalso. rewrite S1 in N. vm_compute in N. congruence.
  Qed.

  Lemma default_asks ps : pinv Lyydefault ps -> asks (ps_state ps) = true ->
    (exists ps1 o, need_token lex_Lex ps = Ok ps1 /\ step_default lex_Lex lex_Error ps = Ok o
                   /\ pinv Lyydefault ps1 /\ default_step ps1 (ps_token ps1) o)
    \/ (exists w, need_token lex_Lex ps = Panic w /\ step_default lex_Lex lex_Error ps = Panic w)
    \/ (need_token lex_Lex ps = OutOfFuel /\ step_default lex_Lex lex_Error ps = OutOfFuel).
  Proof.
    intros I A. pose proof (pinv_state _ _ I) as Hs. unfold asks in A. apply Z.eqb_eq in A.
    unfold step_default. rewrite tab_zn by (change (length yyDef) with 432%nat; exact Hs).
    cbn [rtab rbind]. rewrite A. change (-2 =? -2) with true. cbv iota.
    destruct (need_token lex_Lex ps) as [ps1|w|] eqn:N; [|right; left; exists w; auto|right; right; auto].
    left. pose proof (need_token_inv Lyydefault ps ps1 ltac:(discriminate) I N Lyydefault ltac:(discriminate)) as I1.
    destruct I as [B _]. destruct (need_token_ok _ _ B N) as (B1 & T & Lv & St & _).
    exists ps1. cbn [rbind]. rewrite St.
    destruct (exca_eval (ps_state ps) (ps_token ps1) Hs T A) as (i & F & Lk). rewrite F. cbn [rbind].
    rewrite Lk. cbn [rbind]. rewrite <- St in *.
    destruct (deflt_cases _ (ps_token ps1) Hs T) as [C|[C|(C & S1 & T1)]].
    - rewrite C. cbn [Z.ltb Z.compare Z.eqb].
      destruct (error_spec ps1 I1) as (m & ps' & M & Se & Lx & Rs). rewrite Se. eexists. split; [reflexivity|].
      split; [reflexivity|]. split; [assumption|]. eapply DS_error; eassumption.
    - pose proof (red_ok_spec _ _ C) as [Hn _].
      destruct (deflt (ps_state ps1) (ps_token ps1) <? 0) eqn:Z0; [apply Z.ltb_lt in Z0; lia|].
      destruct (deflt (ps_state ps1) (ps_token ps1) =? 0) eqn:Z1; [apply Z.eqb_eq in Z1; lia|].
      destruct (reduce_spec ps1 _ I1 C) as (ps' & Sr & Re). rewrite Sr. eexists. split; [reflexivity|].
      split; [reflexivity|]. split; [assumption|]. eapply DS_reduce; [reflexivity|eassumption..].
    - rewrite C. cbn [Z.ltb Z.compare]. eexists. split; [reflexivity|]. split; [reflexivity|].
      split; [assumption|]. eapply DS_accept; assumption.
  Qed.

  (** *** The initial state *)

  Lemma init_inv lx : pinv Lyystack (init lx).
  Proof.
    split.
    - constructor; cbn; try lia.
    - cbn. constructor.
  Qed.

End Facts.
