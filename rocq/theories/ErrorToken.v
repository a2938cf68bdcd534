(** What the messages of the driver say: the token that a syntax error names and the
    tokens it expects; for any lexer. *)
From Coq Require Import ZArith String List Bool Lia.
From Verif Require Import GoBase Tokens Tables Ast Actions Lexer Driver Grammar Automaton DriverTables
  DriverFacts DriverRun ActionSound GrammarFacts DriverSound Viable.
Import ListNotations.
Local Open Scope Z_scope.

(** ** The text of a message *)

(** The tokens named after "expecting", by internal number. *)
Definition named (s : Z) : list Z :=
  match rtab (tab yyPact s) with
  | Ok b =>
      match expected_shifts b candidate_tokens [] with
      | Ok (Some l) =>
          match rtab (tab yyDef s) with
          | Ok d =>
              if d =? -2 then
                match exca_find (length yyExca) 0 s with
                | Ok i => match expected_exca (length yyExca) (i + 2) l with
                          | Ok (Some (j, l')) => match rtab (tab yyExca (j + 1)) with
                                                 | Ok d' => if d' =? 0 then l' else []
                                                 | _ => []
                                                 end
                          | _ => []
                          end
                | _ => []
                end
              else l
          | _ => []
          end
      | _ => []
      end
  | _ => []
  end.

Lemma append_nil (s : string) : (s ++ "")%string = s.
Proof. induction s as [|c s IH]; cbn; congruence. Qed.

Lemma append_assoc (a b c : string) : ((a ++ b) ++ c)%string = (a ++ b ++ c)%string.
Proof. induction a as [|x a IH]; cbn; congruence. Qed.

Lemma message_named s t m : yyErrorMessage s t = Ok m ->
  m = ("syntax error: unexpected " ++ yyTokname t ++ expecting_text true (named s))%string.
Proof.
  unfold yyErrorMessage, named. rewrite <- append_assoc. generalize ("syntax error: unexpected " ++ yyTokname t)%string as msg. intros msg.
  destruct (rtab (tab yyPact s)) as [b| |]; try discriminate. cbn [rbind].
  destruct (expected_shifts _ _ _) as [[l|]| |]; try discriminate; cbn [rbind];
    [|intros H; injection H as <-; cbn [expecting_text]; now rewrite append_nil].
  destruct (rtab (tab yyDef s)) as [d| |]; try discriminate. cbn [rbind].
  destruct (d =? -2); [|intros H; now injection H as <-].
  destruct (exca_find _ _ _) as [i| |]; try discriminate. cbn [rbind].
  destruct (expected_exca _ _ _) as [[[j l']|]| |]; try discriminate; cbn [rbind];
    [|intros H; injection H as <-; cbn [expecting_text]; now rewrite append_nil].
  destruct (rtab (tab yyExca _)) as [d'| |]; try discriminate. cbn [rbind].
  destruct (d' =? 0); intros H; injection H as <-; [reflexivity|]. cbn [expecting_text]. now rewrite append_nil.
Qed.

(** At most four tokens are named. *)
Lemma named_few_check : forallb (fun s => forallb (fun k => (4 <=? k) && (k <=? 128)) (named s) && (length (named s) <=? 4)%nat) states = true.
Proof. vm_compute. reflexivity. Qed.

Lemma named_few s : is_state s -> Forall (fun k => 4 <= k <= 128) (named s) /\ (length (named s) <= 4)%nat.
Proof.
  intros Hs. pose proof (for_states _ named_few_check s Hs) as C. cbv beta in C. apply andb_true_iff in C as [C1 C2].
  apply Nat.leb_le in C2. split; [|exact C2]. rewrite forallb_forall in C1. apply Forall_forall. intros k K. specialize (C1 k K). cbv beta in C1.
  apply andb_true_iff in C1 as [A B]. apply Z.leb_le in A, B. lia.
Qed.

(** Where an error is found, the tokens named can be shifted. *)
Lemma named_check :
  forallb (fun s => negb (existsb (fun t => deflt s t =? 0) toks) ||
    forallb (fun k => (4 <=? k) && (k <=? 128) && match shift s k with Some _ => true | None => false end) (named s)) states = true.
Proof. vm_compute. reflexivity. Qed.

Lemma named_shift s t k : is_state s -> is_token t -> deflt s t = 0 -> In k (named s) ->
  4 <= k <= 128 /\ exists q, shift s k = Some q.
Proof.
  intros Hs T D I. pose proof (for_states _ named_check s Hs) as C. cbv beta in C. apply orb_true_iff in C as [C|C].
  - exfalso. apply negb_true_iff in C. assert (E : existsb (fun t => deflt s t =? 0) toks = true).
    { apply existsb_exists. exists t. split; [now apply in_toks|]. now apply Z.eqb_eq. }
    congruence.
  - rewrite forallb_forall in C. specialize (C k I). cbv beta in C. apply andb_true_iff in C as [C1 C2]. apply andb_true_iff in C1 as [C0 C1].
    apply Z.leb_le in C0, C1. split; [lia|]. destruct (shift s k) as [q|]; [eauto|discriminate C2].
Qed.

Lemma quiet_error_check : forallb (fun s => DriverFacts.reads s || negb (zn yyDef s =? 0)) states = true.
Proof. vm_compute. reflexivity. Qed.

Lemma quiet_error s : is_state s -> asks s = false -> deflt s 4 = 0 -> DriverFacts.reads s = true /\ forall t, deflt s t = 0.
Proof.
  intros Hs A D. pose proof (for_states _ quiet_error_check s Hs) as C. cbv beta in C.
  assert (N : zn yyDef s <> -2) by (unfold asks in A; apply Z.eqb_neq in A; exact A).
  rewrite deflt_quiet in D by exact N. rewrite D in C. cbn [Z.eqb negb] in C. rewrite orb_false_r in C.
  split; [exact C|]. intros t. rewrite deflt_quiet by exact N. exact D.
Qed.

Lemma shifts_one_check : forallb (fun t => match shift 1 t with None => true | _ => false end) toks = true.
Proof. vm_compute. reflexivity. Qed.

Lemma succs_one : succs 1 = [].
Proof. vm_compute. reflexivity. Qed.

(** ** Stacks of the driver *)

Lemma path_no_one q l : path (q :: l) -> q <> 1 -> ~ In 1 (q :: l).
Proof.
  intros P. remember (q :: l) as ql eqn:E. revert q l E. induction P as [|q s l P IH I]; intros q0 l0 E N.
  - injection E as <- <-. cbn. intros [H|[]]; lia.
  - injection E as <- <-. intros [H|H]; [congruence|]. apply (IH s l eq_refl); [|exact H].
    intros ->. rewrite succs_one in I. exact I.
Qed.

Section Stack.
  Context {L : Type}.
  Context (res0 : option (ModuleDefinition ptrV ptrD)).

  Lemma entries_stk e0 : forall es ws, path (rev (map sl_yys (e0 :: es))) -> ~ In 1 (map sl_yys (e0 :: es)) ->
    Forall2 (entry_ok res0) es ws -> stk (rev (map sl_yys (e0 :: es))) (rev ws).
  Proof.
    intros es. induction es as [|e es IH] using rev_ind; intros ws P N F.
    - inversion F; subst. cbn in P |- *. inversion P; subst. constructor.
    - destruct (Forall2_app_split _ _ _ _ F) as (wa & wb & -> & Fa & Fb).
      inversion Fb as [|? w ? ws' F1 F2]; subst. inversion F2; subst. clear Fb F2.
      assert (Q0 : map sl_yys (e0 :: es ++ [e]) = map sl_yys (e0 :: es) ++ [sl_yys e]) by (rewrite app_comm_cons, map_app; reflexivity).
      rewrite Q0 in *. clear Q0. rewrite rev_app_distr in P |- *. cbn [rev app] in P |- *.
      rewrite in_app_iff in N. rewrite rev_app_distr. cbn [rev app].
      assert (P' : path (rev (map sl_yys (e0 :: es))) /\ exists s l, rev (map sl_yys (e0 :: es)) = s :: l /\ In (sl_yys e) (succs s)).
      { cbn [map rev] in *. destruct (rev (map sl_yys es) ++ [sl_yys e0]) as [|s l] eqn:R.
        - destruct (rev (map sl_yys es)); discriminate R.
        - apply path_tail in P as [P1 P2]. split; [exact P1|]. eauto. }
      destruct P' as (P' & s & l & R & I). specialize (IH wa P' ltac:(tauto) Fa). cbn [map rev] in *. rewrite R in *.
      constructor; [exact IH|exact I|]. exists (sl_val e). unfold entry_ok in F1.
      eapply sym_ok_res; [|exact F1]. intros Q. apply N. right. left. apply acc_one.
      + apply (succ_state s); [|exact I]. exact (path_head_state _ _ P').
      + rewrite Q. vm_compute. reflexivity.
  Qed.
End Stack.

Section Errors.
  Context {L : Type}.
  Context (lex_Lex : L -> lexval -> res (Z * lexval * L)).
  Context (lex_Error : L -> string -> L).
  Notation pst := (pstate L).
  Context (x0 : L).

  (** The tokens are the beginning of a module. *)
  Definition begins (ts : list token) : Prop := exists ts', is_module (ts ++ ts').

  Lemma good_stack l (ps : pst) e0 es ws : l <> Lyystack -> pinv l ps -> entries l ps = e0 :: es ->
    Forall2 (entry_ok (ps_result ps)) es ws ->
    (exists r, stk (ps_state ps :: r) (rev ws) /\ ps_state ps <> 1) \/ (ps_state ps = 1 /\ is_module (concat ws)).
  Proof.
    intros Hl I E F. assert (P : exists r, sts (live ps) = ps_state ps :: r /\ path (ps_state ps :: r)).
    { destruct l; [contradiction|exact (proj2 I)|exact (proj2 I)]. }
    assert (E' : live ps = e0 :: es) by (destruct l; [contradiction|exact E|exact E]). clear E.
    destruct P as (r & Es & P). unfold sts in Es. rewrite E' in Es.
    destruct (Z.eq_dec (ps_state ps) 1) as [S1|S1].
    - right. split; [exact S1|]. rewrite S1 in *. destruct r as [|q r]; [inversion P|].
      apply path_tail in P as [P1 P2]. apply state_one_pred in P2; [|now apply path_head_state in P1]. subst q.
      assert (r = []).
      { destruct r as [|q r]; [reflexivity|]. apply path_tail in P1 as [P1 P2].
        exfalso. eapply no_succ_zero; [|exact P2]. now apply path_head_state in P1. }
      subst r. cbn [map rev] in Es. destruct es as [|e1 es]; [discriminate Es|].
      destruct es as [|e2 es].
      2:{ exfalso. apply (f_equal (@length Z)) in Es. cbn [map rev] in Es. rewrite !app_length in Es. cbn in Es. lia. }
      cbn in Es. injection Es as E1 E0. inversion F as [|? w ? ws' F1 F2]; subst. inversion F2; subst. cbn [concat]. rewrite app_nil_r.
      unfold entry_ok, sym_ok in F1. rewrite E1 in F1.
      change (acc 1) with (- lhs 1) in F1. rewrite Z.opp_involutive, (proj1 module_index) in F1.
      change (0 <? - lhs 1) with false in F1. cbv iota in F1. destruct F1 as (m & _ & D). exists (snapM m). exact D.
    - left. exists r. split; [|exact S1]. rewrite <- Es. apply entries_stk with (res0 := ps_result ps).
      + rewrite Es. exact P.
      + intros H. apply in_rev in H. rewrite Es in H. revert H. now apply path_no_one.
      + exact F.
  Qed.

  Lemma stack_begins (ps : pst) ws :
    (exists r, stk (ps_state ps :: r) (rev ws) /\ ps_state ps <> 1) \/ (ps_state ps = 1 /\ is_module (concat ws)) ->
    begins (concat ws).
  Proof.
    intros [(r & K & N)|(_ & M)].
    - apply stk_viable in K; [|exact N]. rewrite rev_involutive in K. exact K.
    - exists []. now rewrite app_nil_r.
  Qed.

  (** [Lex] fails after the beginning of a module. *)
  Definition lexical : Prop :=
    exists ts x v c v' x', begins ts /\ feed lex_Lex x0 lexval0 ts x v /\ lex_Lex x v = Ok (c, v', x') /\ c < 0.

  (** A syntax error at the token with code [c] read after the tokens [ts]. *)
  Definition syntactic (z : L) : Prop :=
    exists ts x v c v' x' m s t, begins ts /\ feed lex_Lex x0 lexval0 ts x v /\ lex_Lex x v = Ok (c, v', x') /\ 0 <= c /\
      yytranslate c = Ok t /\ is_state s /\ yyErrorMessage s t = Ok m /\ z = lex_Error x' m /\
      forall k tok, In k (named s) -> tk_kind tok = k + 57342 -> begins (ts ++ [tok]).

  Definition known (l : label) (ps : pst) : Prop :=
    lexical \/ (good lex_Lex x0 l ps /\ (l = Lyydefault -> DriverFacts.reads (ps_state ps) = true -> 0 <= ps_char ps)).

  Definition reported (c : Z) (ps : pst) : Prop :=
    lexical \/ (exists x v v', lex_Lex x v = Ok (0, v', ps_lx ps) /\ exists ts, feed lex_Lex x0 lexval0 ts x v) \/ syntactic (ps_lx ps).

  Lemma slipped_lexical l ps x' : l <> Lyystack -> pinv l ps -> slipped lex_Lex x0 l ps x' -> lexical.
  Proof.
    intros Hl I (e0 & es & ws & E & F & Fd & c & v & Lx & C).
    exists (concat ws), (ps_lx ps), (ps_lval ps), c, v, x'. split; [|auto].
    apply (stack_begins ps). eapply good_stack; eassumption.
  Qed.

  Lemma move_known l ps l' ps' : pinv l ps -> known l ps -> move lex_Lex lex_Error l ps (Goto l' ps') -> known l' ps'.
  Proof.
    intros I [K|[G R]] M; [now left|].
    destruct (move_good lex_Lex lex_Error x0 l ps l' ps' I G M) as [G'|[Hl S1]].
    - assert (D : l' = Lyydefault -> DriverFacts.reads (ps_state ps') = true -> lexical \/ 0 <= ps_char ps').
      { intros -> R'. inversion M; subst; try congruence.
        - destruct G as (e0 & es & ws & Ee & Fe & Ip).
          match goal with N : need_token _ _ = Ok _ |- _ => destruct (need_token_slip lex_Lex x0 ps ps' _ Ip N) as [Sl|[_ C]] end.
          + left. apply (slipped_lexical Lyynewstate ps (ps_lx ps')); [discriminate|exact I|]. exists e0, es, ws. auto.
          + right. exact C.
        - match goal with D : default_step _ _ _ _ |- _ => inversion D end.
        - match goal with D : default_step _ _ _ _ |- _ => inversion D end. }
      destruct l'; try (right; split; [exact G'|congruence]).
      destruct (DriverFacts.reads (ps_state ps')) eqn:R'.
      + destruct (D eq_refl eq_refl) as [X|X]; [now left|]. right. split; [exact G'|auto].
      + right. split; [exact G'|]. congruence.
    - left. exact (slipped_lexical l ps (ps_lx ps') Hl I S1).
  Qed.

  Lemma error_syntactic ps t m z : pinv Lyydefault ps -> good lex_Lex x0 Lyydefault ps -> 0 <= ps_char ps ->
    is_token t -> deflt (ps_state ps) t = 0 -> yyErrorMessage (ps_state ps) (ps_token ps) = Ok m ->
    z = lex_Error (ps_lx ps) m -> syntactic z.
  Proof.
    intros I (e0 & es & ws & E & F & (x & v & Ip)) C T D M ->.
    pose proof (good_stack Lyydefault ps e0 es ws ltac:(discriminate) I E F) as G. pose proof (pinv_state _ _ I) as Hs.
    assert (X : forall k tok, In k (named (ps_state ps)) -> tk_kind tok = k + 57342 -> begins (concat ws ++ [tok])).
    { intros k tok Ik K. destruct (named_shift _ t k Hs T D Ik) as (Rk & q & Sh).
      assert (Tk : is_token k) by (unfold is_token; lia). destruct (shift_edge _ _ _ Hs Tk Sh) as (Iq & Aq & Hq).
      destruct G as [(r & K1 & N)|(S1 & _)].
      - assert (K2 : stk (q :: ps_state ps :: r) ([tok] :: rev ws)).
        { constructor; [exact K1|exact Iq|]. rewrite Aq. apply token_has; [lia|exact K]. }
        apply stk_viable in K2 as (ts' & K2).
        + cbn [rev] in K2. rewrite rev_involutive, concat_app in K2. cbn [concat] in K2. exists ts'. exact K2.
        + intros ->. assert (acc 1 < 0) by (vm_compute; reflexivity). lia.
      - rewrite S1 in Iq. rewrite succs_one in Iq. destruct Iq. }
    apply stack_begins in G.
    destruct Ip as [(N & _)|[(Pc & Tr & Fd)|(Z0 & T1 & Fd & Lx)]]; [lia| |].
    - assert (Q : exists x1 v1, feed lex_Lex x0 lexval0 (concat ws) x1 v1 /\ lex_Lex x1 v1 = Ok (ps_char ps, ps_lval ps, ps_lx ps)).
      { remember (concat ws ++ [token_of (ps_char ps) (ps_lval ps)]) as us eqn:U.
        destruct Fd as [x1 v1|x1 v1 ts x' v' c v'' x'' Fd Lx Cp].
        - destruct (concat ws); discriminate U.
        - apply app_inj_tail in U as [-> U]. apply (f_equal tk_kind) in U. cbn [token_of tk_kind] in U. subst c. exists x', v'. auto. }
      destruct Q as (x1 & v1 & Fd1 & Lx1). exists (concat ws), x1, v1, (ps_char ps), (ps_lval ps), (ps_lx ps), m, (ps_state ps), (ps_token ps).
      repeat (split; [first [assumption|reflexivity|lia]|]). exact X.
    - exists (concat ws), x, v, 0, (ps_lval ps), (ps_lx ps), m, (ps_state ps), (ps_token ps).
      rewrite T1 in *. repeat (split; [first [assumption|reflexivity|lia]|]). exact X.
  Qed.

  Lemma move_reported l ps c ps' : pinv l ps -> known l ps -> move lex_Lex lex_Error l ps (Return c ps') -> reported c ps'.
  Proof.
    intros I [K|[G R]] M; [now left|]. inversion M; subst.
    - match goal with D : default_step _ _ _ _ |- _ => inversion D; subst end.
      + exfalso. eapply quiet_accept; try eassumption; [now apply (pinv_state Lyydefault)|unfold is_token; lia].
      + right. right. pose proof (pinv_state _ _ I) as Hs.
        match goal with A : asks _ = false, D : deflt _ 4 = 0 |- _ => destruct (quiet_error _ Hs A D) as [Rd _] end.
        eapply (error_syntactic ps 4); try eassumption; [now apply R|unfold is_token; lia].
    - match goal with N : need_token _ _ = Ok _ |- _ =>
        pose proof (need_token_inv lex_Lex Lyydefault ps ps1 ltac:(discriminate) I N Lyydefault ltac:(discriminate)) as I1;
        destruct (need_token_ok lex_Lex ps ps1 (proj1 I) N) as (B1 & T & Lv & St & Rs & Vs & _);
        destruct G as (e0 & es & ws & Ee & Fe & Ip);
        destruct (need_token_slip lex_Lex x0 ps ps1 _ Ip N) as [Bd|[Ip1 C]] end.
      + left. apply (slipped_lexical Lyydefault ps (ps_lx ps1)); [discriminate|exact I|]. exists e0, es, ws. auto.
      + assert (G1 : good lex_Lex x0 Lyydefault ps1).
        { exists e0, es, ws. cbn [entries] in *. rewrite Lv, Rs. auto. }
        match goal with D : default_step _ _ _ _ |- _ => inversion D; subst end.
        * right. left. destruct (accept_ok lex_Lex x0 ps' I1 G1) as (w & x & v & v' & m & Fd & Lx & _); try assumption.
          exists x, v, v'. split; [exact Lx|]. eauto.
        * right. right. eapply (error_syntactic ps1 (ps_token ps1)); try eassumption.
  Qed.

  Theorem parse_reported fuel c ps : yyParse lex_Lex lex_Error fuel x0 = Ok (c, ps) -> reported c ps.
  Proof.
    unfold yyParse. intros R.
    refine (run_invariant lex_Lex lex_Error known reported _ _ fuel Lyystack (init x0) c ps _ _ R).
    - intros l0 ps0 l' ps' H1 H2 H3 _. exact (move_known l0 ps0 l' ps' H1 H2 H3).
    - intros l0 ps0 c0 ps' H1 H2 H3. exact (move_reported l0 ps0 c0 ps' H1 H2 H3).
    - apply init_inv.
    - right. split; [|discriminate]. exists {| sl_yys := 0; sl_val := yy_zero |}, [], []. split; [reflexivity|]. split; [constructor|].
      exists x0, lexval0. left. cbn. split; [lia|]. constructor.
  Qed.
End Errors.

(** ** Any error *)

Section Look.
  Context {L : Type}.
  Context (lex_Lex : L -> lexval -> res (Z * lexval * L)).
  Context (lex_Error : L -> string -> L).
  Notation pst := (pstate L).
  Context (V : L -> Prop).
  Context (V_lex : forall x v c v' x', V x -> lex_Lex x v = Ok (c, v', x') -> V x').

  (** The lookahead comes from the last call of Lex. *)
  Definition looked (ps : pst) : Prop :=
    exists x v c v', V x /\ lex_Lex x v = Ok (c, v', ps_lx ps) /\ yytranslate c = Ok (ps_token ps).

  Definition watched (l : label) (ps : pst) : Prop :=
    V (ps_lx ps) /\ (0 <= ps_char ps -> looked ps) /\
    (l = Lyydefault -> DriverFacts.reads (ps_state ps) = true -> looked ps).

  (** No syntax error, or one that names the token that was last read. *)
  Definition announced (c0 : Z) (ps : pst) : Prop :=
    V (ps_lx ps) \/ exists x v c v' x' s t m, V x /\ lex_Lex x v = Ok (c, v', x') /\ yytranslate c = Ok t /\
      is_state s /\ yyErrorMessage s t = Ok m /\ ps_lx ps = lex_Error x' m.

  Lemma need_looked ps ps1 : V (ps_lx ps) -> (0 <= ps_char ps -> looked ps) -> need_token lex_Lex ps = Ok ps1 ->
    V (ps_lx ps1) /\ looked ps1.
  Proof.
    intros HV HL. unfold need_token, yylex1. destruct (ps_char ps <? 0) eqn:E.
    - destruct (lex_Lex (ps_lx ps) (ps_lval ps)) as [[[c v] x]| |] eqn:F; try discriminate. cbn [rbind].
      destruct (yytranslate c) as [t| |] eqn:T; try discriminate. cbn [rbind]. intros Q. injection Q as <-. cbn.
      split; [eapply V_lex; eassumption|]. exists (ps_lx ps), (ps_lval ps), c, v. auto.
    - intros Q. injection Q as <-. apply Z.ltb_ge in E. auto.
  Qed.

  Lemma same_looked ps ps' : same_input ps ps' -> looked ps -> looked ps'.
  Proof. intros (_ & A & _ & B & _). unfold looked. now rewrite A, B. Qed.

  Lemma same_watched ps ps' l : l <> Lyydefault -> same_input ps ps' -> V (ps_lx ps) -> (0 <= ps_char ps -> looked ps) -> watched l ps'.
  Proof.
    intros Hl Sm HV HL. pose proof Sm as (A & _ & _ & B & _). unfold watched. rewrite A, B. split; [exact HV|].
    split; [intros H; apply (same_looked ps _ Sm); auto|congruence].
  Qed.

  Lemma move_watched l ps l' ps' : pinv l ps -> watched l ps -> move lex_Lex lex_Error l ps (Goto l' ps') -> watched l' ps'.
  Proof.
    intros I (HV & HL & HD) M. inversion M; subst.
    - eapply same_watched; try eassumption. discriminate.
    - split; [exact HV|]. split; [exact HL|]. congruence.
    - match goal with N : need_token _ _ = Ok _ |- _ => destruct (need_looked _ _ HV HL N) as [V1 L1] end.
      split; [exact V1|]. split; [cbn; lia|discriminate].
    - match goal with N : need_token _ _ = Ok _ |- _ => destruct (need_looked _ _ HV HL N) as [V1 L1] end.
      split; [exact V1|]. auto.
    - match goal with D : default_step _ _ _ _ |- _ => inversion D; subst end.
      match goal with R : reduces _ _ _ |- _ => pose proof (reduces_same _ _ _ R) as S1 end.
      eapply same_watched; try eassumption. discriminate.
    - match goal with N : need_token _ _ = Ok _ |- _ => destruct (need_looked _ _ HV HL N) as [V1 L1] end.
      match goal with D : default_step _ _ _ _ |- _ => inversion D; subst end.
      match goal with R : reduces _ _ _ |- _ => pose proof (reduces_same _ _ _ R) as S1 end.
      eapply same_watched; try eassumption; [discriminate|auto].
  Qed.

  Lemma move_announced l ps c ps' : pinv l ps -> watched l ps -> move lex_Lex lex_Error l ps (Return c ps') -> announced c ps'.
  Proof.
    intros I (HV & HL & HD) M.
    assert (G : forall p t, is_state (ps_state p) -> looked p -> V (ps_lx p) -> default_step lex_Error p t (Return c ps') -> announced c ps').
    { intros p t Hp (x & v & c1 & v' & Vx & Lx & Tr) Vp D. inversion D; subst; [left; exact Vp|].
      right. do 8 eexists. split; [exact Vx|]. split; [exact Lx|]. split; [exact Tr|]. split; [exact Hp|]. split; eassumption. }
    inversion M; subst.
    - destruct (DriverFacts.reads (ps_state ps)) eqn:Rd; [apply (G ps 4); auto; exact (pinv_state _ _ I)|].
      match goal with D : default_step _ _ _ _ |- _ => inversion D; subst end; [left; exact HV|].
      match goal with A : asks _ = false, D : deflt _ 4 = 0 |- _ => destruct (quiet_error _ (pinv_state _ _ I) A D) as [Q _] end. congruence.
    - match goal with N : need_token _ _ = Ok _ |- _ => destruct (need_looked _ _ HV HL N) as [V1 L1] end.
      match goal with N : need_token _ _ = Ok _ |- _ =>
        pose proof (need_token_inv lex_Lex Lyydefault ps ps1 ltac:(discriminate) I N Lyydefault ltac:(discriminate)) as I1 end.
      eapply (G ps1); try eassumption. exact (pinv_state _ _ I1).
  Qed.

  Theorem parse_announced fuel x0 c ps : V x0 -> yyParse lex_Lex lex_Error fuel x0 = Ok (c, ps) -> announced c ps.
  Proof.
    unfold yyParse. intros V0 R.
    refine (run_invariant lex_Lex lex_Error watched announced _ _ fuel Lyystack (init x0) c ps _ _ R).
    - intros l0 ps0 l' ps' H1 H2 H3 _. exact (move_watched l0 ps0 l' ps' H1 H2 H3).
    - intros l0 ps0 c0 ps' H1 H2 H3. exact (move_announced l0 ps0 c0 ps' H1 H2 H3).
    - apply init_inv.
    - split; [exact V0|]. split; [cbn; lia|discriminate].
  Qed.
End Look.
