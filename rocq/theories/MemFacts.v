(** The memory of the parser: what the slots of its stack can hold.  The fields
    Value and DefinedValue of every slot, also of those that are free, are blank or
    were made from a part of the text that was read. *)
From Coq Require Import ZArith String List Bool Lia.
From Verif Require Import GoBase Tokens Tables Ast Actions Lexer Driver Grammar Automaton DriverTables
  DriverFacts DriverRun ActionSound GrammarFacts DriverSound Pointers.
Import ListNotations.
Local Open Scope list_scope.
Local Open Scope Z_scope.

Lemma part_more w ts more : part_of w ts -> part_of w (ts ++ more).
Proof. intros (a & b & ->). exists a, (b ++ more). now rewrite <- !app_assoc. Qed.

Lemma part_concat (w : list token) ws : In w ws -> part_of w (concat ws).
Proof.
  intros H. apply in_split in H as (l1 & l2 & ->). exists (concat l1), (concat l2).
  now rewrite concat_app.
Qed.

(** The nonterminals whose value is in the field Value. *)
Definition is_value (N : nonterm) : bool :=
  match N with
  | N_AssignedIdentifier | N_Value | N_BuiltinValue | N_BooleanValue | N_IntegerValue | N_RealValue
  | N_NumericRealValue | N_SpecialRealValue | N_ClassNumber | N_LowerEndValue | N_UpperEndValue => true
  | _ => false
  end.

Lemma is_value_sem N v : is_value N = true -> sem_of N v = S_Value (value_map snapD (yy_Value v)).
Proof. destruct N; try discriminate; reflexivity. Qed.

(** A value of the field Value that is nil or made from a part of [ts]. *)
Definition seenV (ts : list token) (v : value ptrD) : Prop :=
  v = VNil \/ exists N w, is_value N = true /\ part_of w ts /\ derives N w (S_Value (value_map snapD v)).

(** A value of the field DefinedValue that is blank or made from a part of [ts]. *)
Definition seenD (ts : list token) (d : DefinedValue) : Prop :=
  d = {| dv_ModuleName := ""; dv_ValueName := "" |} \/
  exists w, part_of w ts /\ derives N_DefinedValue w (S_DefinedValue d).

Definition seen (ts : list token) (v : sym) : Prop := seenV ts (yy_Value v) /\ seenD ts (yy_DefinedValue v).

Lemma seen_more ts more v : seen ts v -> seen (ts ++ more) v.
Proof.
  intros [[V|(N & w & Hv & P & D)] [E|(w' & P' & D')]]; split; try (left; assumption); right.
  - exists w'. split; [now apply part_more|assumption].
  - exists N, w. repeat split; try assumption. now apply part_more.
  - exists N, w. repeat split; try assumption. now apply part_more.
  - exists w'. split; [now apply part_more|assumption].
Qed.

Lemma seen_zero ts : seen ts yy_zero.
Proof. split; now left. Qed.

(** Which productions write these fields. *)
Definition writes_value (n : nat) : bool :=
  match nth (Z.to_nat (lhs (Z.of_nat n))) nonterms None with Some N => is_value N | None => false end.
Definition writes_defined (n : nat) : bool :=
  match nth (Z.to_nat (lhs (Z.of_nat n))) nonterms None with Some N_DefinedValue => true | _ => false end.

Lemma action_fields mkP mkR mkF n act d (v : sym) :
  nth_error (actions (P:=ptrV) (R:=ptrD) mkP mkR mkF) n = Some act ->
  (writes_value n = false -> yy_Value (fst (act d v)) = yy_Value v) /\
  (writes_defined n = false -> yy_DefinedValue (fst (act d v)) = yy_DefinedValue v).
Proof.
  intros H. 
  assert (Ln : (n < 292)%nat).
  { rewrite <- (actions_length mkP mkR mkF). apply nth_error_Some. congruence. }
  do 292 (destruct n as [|n];
    [injection H as <-; split; intros W; first [reflexivity|discriminate W]|]).
  lia.
Qed.

(** All slots of the memory of [ps] and its yyVAL. *)
Definition memory_seen {L} (ts : list token) (ps : pstate L) : Prop :=
  Forall (Forall (fun sl => seen ts (sl_val sl))) (arrays ps) /\ seen ts (ps_VAL ps).

Lemma grow_seen (ts : list token) old yyS i old' yyS' : grow old yyS i = (old', yyS') ->
  Forall (Forall (fun sl => seen ts (sl_val sl))) (old ++ [yyS]) ->
  Forall (Forall (fun sl => seen ts (sl_val sl))) (old' ++ [yyS']).
Proof.
  unfold grow. destruct (i >=? Z.of_nat (length yyS)); intros E F; injection E as <- <-; [|exact F].
  apply Forall_app. split; [exact F|]. constructor; [|constructor].
  apply Forall_app in F as [_ F]. apply Forall_cons_iff in F as [F _].
  apply Forall_app. split; [exact F|]. apply Forall_forall. intros x Hx. apply repeat_spec in Hx as ->. apply seen_zero.
Qed.

Lemma update_forall {A} (P : A -> Prop) l i x : Forall P l -> P x -> Forall P (update l i x).
Proof.
  intros F Px. revert i. induction F as [|y l Py F IH]; intros [|i]; cbn [update]; constructor; auto.
Qed.

Section Memory.
  Context {L : Type}.
  Context (lex_Lex : L -> lexval -> res (Z * lexval * L)).
  Context (lex_Error : L -> string -> L).
  Notation pst := (pstate L).
  Context (Bad : L -> Prop).
  Context (Bad_keep : forall x v c v' x', Bad x -> lex_Lex x v = Ok (c, v', x') -> Bad x').
  Context (Bad_neg : forall x v c v' x', lex_Lex x v = Ok (c, v', x') -> c < 0 -> Bad x').
  Context (Bad_Error : forall x m, Bad (lex_Error x m)).
  Context (x0 : L).

  Lemma seen_memory_more ts more (ps : pst) : memory_seen ts ps -> memory_seen (ts ++ more) ps.
  Proof.
    intros [F V]. split; [|now apply seen_more].
    eapply Forall_impl; [|exact F]. intros a Fa. eapply Forall_impl; [|exact Fa]. intros sl. apply seen_more.
  Qed.

  Lemma memory_same ts (ps ps' : pst) : ps_old ps' = ps_old ps -> ps_S ps' = ps_S ps -> ps_VAL ps' = ps_VAL ps ->
    memory_seen ts ps -> memory_seen ts ps'.
  Proof. intros E1 E2 E3. unfold memory_seen, arrays. now rewrite E1, E2, E3. Qed.

  Lemma need_token_memory (ps ps1 : pst) : need_token lex_Lex ps = Ok ps1 ->
    ps_old ps1 = ps_old ps /\ ps_S ps1 = ps_S ps /\ ps_VAL ps1 = ps_VAL ps.
  Proof.
    unfold need_token, yylex1. destruct (ps_char ps <? 0); [|intros Q; injection Q as <-; auto].
    destruct (lex_Lex (ps_lx ps) (ps_lval ps)) as [[[c v] x]| |]; try discriminate. cbn [rbind].
    destruct (yytranslate c); try discriminate. cbn [rbind]. intros Q. injection Q as <-. auto.
  Qed.

  Lemma stack_memory ts (ps ps' : pst) l' : step_stack ps = Ok (Goto l' ps') -> memory_seen ts ps -> memory_seen ts ps'.
  Proof.
    unfold step_stack. destruct (grow (ps_old ps) (ps_S ps) (ps_p ps + 1)) as [old yyS] eqn:G.
    destruct (ps_p ps + 1 <? 0); [discriminate|]. intros Q [F V]. injection Q as <- <-.
    pose proof (grow_seen ts _ _ _ _ _ G F) as F'. apply Forall_app in F' as [F1 F2].
    apply Forall_cons_iff in F2 as [F2 _]. split; [|exact V].
    unfold arrays. cbn [with_stack ps_old ps_S]. apply Forall_app. split; [exact F1|].
    constructor; [|constructor]. apply update_forall; [exact F2|exact V].
  Qed.

  (** The value of the last entry belongs to a part of the text. *)
  Lemma last_entry (ps : pst) w : good_at lex_Lex x0 Lyystack ps w -> (exists r, live ps <> [] /\ r = live ps) ->
    exists u, part_of u w /\ sym_ok (ps_result ps) (acc (ps_state ps)) u (ps_VAL ps).
  Proof.
    intros (e0 & es & ws & Ee & Fe & _ & ->) (r & Nl & _). cbn [entries] in Ee.
    destruct (live ps) as [|e l] eqn:El; [congruence|]. cbn [app] in Ee. injection Ee as -> Es.
    rewrite <- Es in Fe. apply Forall2_app_split in Fe as (w1 & w2 & -> & _ & F2).
    inversion F2 as [|? u ? w3 F3 F4]; subst. inversion F4; subst. exists u. split.
    - apply part_concat. apply in_or_app. right. now left.
    - exact F3.
  Qed.

  Lemma reduce_memory ts (ps ps' : pst) n : step_reduce ps n = Ok (Goto Lyystack ps') -> 0 < n < 292 ->
    reduces n ps ps' -> good_at lex_Lex x0 Lyystack ps' ts -> memory_seen ts ps -> memory_seen ts ps'.
  Proof.
    intros Sr Hn R G [F V].
    assert (Live : exists r, live ps' <> [] /\ r = live ps').
    { destruct R as (below & args & s & r & d & mkP & mkR & mkF & act & _ & _ & _ & Sb & _ & Lv & _).
      eexists. split; [|reflexivity]. rewrite Lv. destruct below; [discriminate Sb|discriminate]. }
    destruct (last_entry ps' ts G Live) as (u & Pu & Ok_u).
    assert (Ga : acc (ps_state ps') = - lhs n).
    { destruct R as (below & args & s & r & d & mkP & mkR & mkF & act & _ & _ & _ & Sb & I0 & Lv & St & _ & _ & _ & _ & _ & _ & _ & _ & _ & I').
      rewrite St. apply goto_edge; [|exact I0|lia].
      destruct I' as [_ P]. rewrite Lv, Sb in P. apply path_tail in P as [P _]. now apply path_head_state in P. }
    rewrite Ga in Ok_u. unfold sym_ok in Ok_u. rewrite Z.opp_involutive in Ok_u.
    assert (Ln : 0 < lhs n) by (destruct (rule_facts n Hn) as (_ & _ & Q & _); exact Q).
    replace (0 <? - lhs n) with false in Ok_u by (symmetry; apply Z.ltb_ge; lia).
    assert (New : (writes_value (Z.to_nat n) = true -> seenV ts (yy_Value (ps_VAL ps'))) /\
                  (writes_defined (Z.to_nat n) = true -> seenD ts (yy_DefinedValue (ps_VAL ps')))).
    { unfold writes_value, writes_defined. rewrite Z2Nat.id by lia.
      destruct (nth (Z.to_nat (lhs n)) nonterms None) as [N|]; [|contradiction]. split; intros W.
      - right. exists N, u. split; [exact W|]. split; [exact Pu|]. rewrite <- (is_value_sem N _ W).
        destruct N; try discriminate W; exact Ok_u.
      - right. exists u. split; [exact Pu|]. destruct N; try discriminate W. exact Ok_u. }
    destruct New as [NV ND]. clear Ok_u Pu u Live R Ga G.
    unfold step_reduce in Sr. destruct (rtab (tab yyR2 n)) as [r| |]; try discriminate Sr. cbn [rbind] in Sr.
    destruct (grow (ps_old ps) (ps_S ps) (ps_p ps - r + 1)) as [old yyS] eqn:Gr.
    destruct ((ps_p ps - r <? 0) || (ps_p ps >=? Z.of_nat (length yyS))); [discriminate Sr|].
    destruct (rtab (tab yyR1 n)) as [lh| |]; try discriminate Sr. cbn [rbind] in Sr.
    destruct (rtab (tab yyPgo lh)) as [g| |]; try discriminate Sr. cbn [rbind] in Sr.
    match type of Sr with rbind ?e _ = _ => destruct e as [st| |]; try discriminate Sr end. cbn [rbind] in Sr.
    match type of Sr with rbind (rtab (nth_error ?l _)) _ = _ => destruct (nth_error l (Z.to_nat n)) as [act|] eqn:Ac; try discriminate Sr end.
    cbn [rtab rbind] in Sr.
    destruct (act _ _) as [v result] eqn:Ea in Sr. injection Sr as <-.
    change (ps_VAL _) with v in NV, ND.
    pose proof (grow_seen ts _ _ _ _ _ Gr F) as F'. split; [exact F'|]. change (ps_VAL _) with v.
    pose proof (action_fields _ _ _ _ _ (fun k => sl_val (slot_at yyS (ps_p ps - r + Z.of_nat k)))
      (sl_val (slot_at yyS (ps_p ps - r + 1))) Ac) as [AV AD]. rewrite Ea in AV, AD. cbn [fst] in AV, AD.
    assert (Old : seen ts (sl_val (slot_at yyS (ps_p ps - r + 1)))).
    { apply Forall_app in F' as [_ F']. apply Forall_cons_iff in F' as [F' _]. unfold slot_at.
      destruct (nth_in_or_default (Z.to_nat (ps_p ps - r + 1)) yyS slot_zero) as [I|E]; [|rewrite E; apply seen_zero].
      rewrite Forall_forall in F'. now apply F'. }
    destruct Old as [OV OD]. split.
    - destruct (writes_value (Z.to_nat n)); [now apply NV|now rewrite AV].
    - destruct (writes_defined (Z.to_nat n)); [now apply ND|now rewrite AD].
  Qed.

  (** One step keeps the memory in order. *)
  Lemma step_memory l (ps : pst) l' ps' w w' : pinv l ps -> step lex_Lex lex_Error l ps = Ok (Goto l' ps') ->
    move lex_Lex lex_Error l ps (Goto l' ps') -> good_at lex_Lex x0 l' ps' (w ++ w') ->
    memory_seen w ps -> memory_seen (w ++ w') ps'.
  Proof.
    intros I St M G Me. apply (seen_memory_more w w') in Me. inversion M; subst.
    - eapply stack_memory; [exact St|exact Me].
    - exact Me.
    - match goal with N : need_token _ _ = Ok _ |- _ => destruct (need_token_memory _ _ N) as (E1 & E2 & E3) end.
      destruct Me as [F V]. split; [unfold arrays; cbn [shifted with_look with_VAL with_state ps_old ps_S]; now rewrite E1, E2|].
      split; now left.
    - match goal with N : need_token _ _ = Ok _ |- _ => destruct (need_token_memory _ _ N) as (E1 & E2 & E3) end.
      eapply memory_same; eassumption.
    - match goal with D : default_step _ _ _ _ |- _ => inversion D; subst end.
      match goal with R : red_ok _ _ = true |- _ => apply red_ok_spec in R as [Hn _] end.
      eapply reduce_memory; eassumption.
    - match goal with N : need_token _ _ = Ok _ |- _ => destruct (need_token_memory _ _ N) as (E1 & E2 & E3) end.
      match goal with D : default_step _ _ _ _ |- _ => inversion D; subst end.
      match goal with R : red_ok _ _ = true |- _ => apply red_ok_spec in R as [Hn _] end.
      eapply reduce_memory; try eassumption. eapply memory_same; eassumption.
  Qed.

  Definition minv (l : label) (ps : pst) : Prop :=
    Bad (ps_lx ps) \/ exists w, good_at lex_Lex x0 l ps w /\ memory_seen w ps.

  (** What holds when Parse returns: the lexer has an error, or the tokens read derive
      the result and account for the memory. *)
  Definition memory_ok (c : Z) (ps : pst) : Prop :=
    Bad (ps_lx ps) \/ exists w x v v' m, feed lex_Lex x0 lexval0 w x v /\ lex_Lex x v = Ok (0, v', ps_lx ps)
      /\ ps_result ps = Some m /\ derives N_ModuleDefinition w (S_module (snapM m)) /\ memory_seen w ps.

  Lemma default_memory (ps : pst) t c ps' w : pinv Lyydefault ps ->
    good_at lex_Lex x0 Lyydefault ps w -> memory_seen w ps ->
    (deflt (ps_state ps) t = -1 -> t = ps_token ps /\ 0 <= ps_char ps) ->
    default_step lex_Error ps t (Return c ps') -> memory_ok c ps'.
  Proof.
    intros I G Me Hc D. inversion D; subst.
    - right. match goal with Q : deflt _ _ = -1 |- _ => destruct (Hc Q) as [T C] end.
      destruct (accept_ok_at lex_Lex x0 ps' w I G) as (x & v & v' & m & A1 & A2 & A3 & A4); [auto ..|].
      exists w, x, v, v', m. auto.
    - left. match goal with Q : ps_lx ps' = _ |- _ => rewrite Q end. apply Bad_Error.
  Qed.

  Lemma outcome_memory l (ps : pst) c ps' : pinv l ps -> minv l ps ->
    move lex_Lex lex_Error l ps (Return c ps') -> memory_ok c ps'.
  Proof.
    intros I [B|(w & G & Me)] M.
    { left. inversion M; subst; match goal with D : default_step _ _ _ _ |- _ => inversion D; subst end;
        try (match goal with Q : ps_lx ps' = _ |- _ => rewrite Q end; apply Bad_Error).
      - exact B.
      - eapply need_token_bad; eassumption. }
    inversion M; subst.
    - eapply (default_memory ps 4); try eassumption. intros Q. exfalso.
      eapply quiet_accept; try eassumption; [now apply (pinv_state Lyydefault)|unfold is_token; lia].
    - match goal with N : need_token _ _ = Ok _ |- _ =>
        pose proof (need_token_inv lex_Lex Lyydefault ps ps1 ltac:(discriminate) I N Lyydefault ltac:(discriminate)) as I1;
        destruct (need_token_ok lex_Lex ps ps1 (proj1 I) N) as (B1 & T & Lv & St & Rs & Vs & _);
        destruct (need_token_memory _ _ N) as (E1 & E2 & E3) end.
      destruct G as (e0 & es & ws & Ee & Fe & Ip & ->).
      match goal with N : need_token _ _ = Ok _ |- _ =>
        destruct (need_token_input lex_Lex Bad Bad_neg x0 ps ps1 _ Ip N) as [Bd|[Ip1 C]] end.
      + left. match goal with D : default_step _ _ _ _ |- _ => inversion D; subst end; [exact Bd|].
        match goal with Q : ps_lx ps' = _ |- _ => rewrite Q end. apply Bad_Error.
      + eapply (default_memory ps1 (ps_token ps1) c ps' (concat ws)); try eassumption.
        * exists e0, es, ws. cbn [entries] in *. rewrite Lv, Rs. auto.
        * eapply memory_same; eassumption.
        * intros _. split; [reflexivity|exact C].
  Qed.

  Theorem parse_memory fuel c ps : yyParse lex_Lex lex_Error fuel x0 = Ok (c, ps) -> memory_ok c ps.
  Proof.
    unfold yyParse. 
    assert (R : forall fuel l ps0, pinv l ps0 -> minv l ps0 -> run lex_Lex lex_Error fuel l ps0 = Ok (c, ps) -> memory_ok c ps).
    { clear fuel. intros fuel. induction fuel as [|f IH]; [discriminate|]. intros l ps0 I K R. cbn [run] in R.
      destruct (step_move lex_Lex lex_Error l ps0 I) as [(o & E & M & P)|[(w & _ & E)|[_ E]]]; rewrite E in R;
        try discriminate. cbn [rbind] in R. destruct o as [l1 ps1|c1 ps1].
      - apply (IH l1 ps1); [now apply P| |assumption]. destruct K as [B|(w & G & Me)].
        + left. eapply (move_J lex_Lex lex_Error Bad l ps0 (Goto l1 ps1)); try eassumption. reflexivity.
        + destruct (move_good_at lex_Lex lex_Error x0 l ps0 l1 ps1 w I G M) as [(w' & G')|(_ & e0 & es & ws & _ & _ & S1)].
          * right. exists (w ++ w'). split; [exact G'|]. eapply step_memory; eassumption.
          * left. eapply slip_bad; eassumption.
      - injection R as <- <-. eapply outcome_memory; eassumption. }
    apply R; [apply init_inv|]. right. exists []. split.
    - exists {| sl_yys := 0; sl_val := yy_zero |}, [], []. split; [reflexivity|]. split; [constructor|].
      split; [|reflexivity]. exists x0, lexval0. left. cbn. split; [lia|]. constructor.
    - split; [|apply seen_zero]. unfold arrays. cbn [init ps_old ps_S app]. constructor; [|constructor].
      apply Forall_forall. intros sl Hs. apply repeat_spec in Hs as ->. apply seen_zero.
  Qed.
End Memory.
