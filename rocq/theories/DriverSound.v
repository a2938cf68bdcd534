(** Soundness of the driver, for any lexer: when it accepts, the tokens read are a
    phrase of the grammar and the result is its value. *)
From Coq Require Import ZArith String List Bool Lia.
From Verif Require Import GoBase Tokens Tables Ast Actions Lexer Driver Grammar Automaton DriverTables
  DriverFacts DriverRun ActionSound GrammarFacts.
Import ListNotations.
Local Open Scope Z_scope.

(** The token a call of Lex delivers: only identifiers and numbers carry a text and
    only numbers a number. *)
Definition token_of (c : Z) (v : lexval) : token :=
  {| tk_kind := c;
     tk_name := if (c =? T_TYPEORMODULEREFERENCE) || (c =? T_VALUEIDENTIFIER) then lv_name v
                else if c =? T_NUMBER then lv_numberRepr v else EmptyString;
     tk_number := if c =? T_NUMBER then lv_Number v else 0 |}.

Lemma token_of_vals c v : tok_vals (token_of c v) (sym_of_lexval v).
Proof.
  split; cbn [token_of tk_kind tk_name tk_number].
  - intros [->| ->]; reflexivity.
  - intros ->. reflexivity.
Qed.

(** ** Checks on the productions *)

Lemma rhs_no_module_check :
  forallb (fun n => forallb (fun X => negb (X =? - lhs 1)) (rhs n)) rules = true.
Proof. vm_compute. reflexivity. Qed.

Lemma rhs_no_module n X : 0 < n < 292 -> In X (rhs n) -> X <> - lhs 1.
Proof.
  intros Hn Hx E. pose proof rhs_no_module_check as C. rewrite forallb_forall in C.
  specialize (C n (proj2 (in_rules n) Hn)). rewrite forallb_forall in C. specialize (C X Hx).
  rewrite E, Z.eqb_refl in C. discriminate.
Qed.

Lemma module_index : nth (Z.to_nat (lhs 1)) nonterms None = Some N_ModuleDefinition
  /\ forallb (fun k => match nth k nonterms None with Some N_ModuleDefinition => (Z.of_nat k =? lhs 1) | _ => true end)
       (seq 0 (length nonterms)) = true.
Proof. vm_compute. split; reflexivity. Qed.

(** A stack entry with accessing symbol [X] and value [v] stands for the tokens [w]. *)
Definition sym_ok (res : option (ModuleDefinition ptrV ptrD)) (X : Z) (w : list token) (v : sym) : Prop :=
  if 0 <? X then exists t, w = [t] /\ tk_kind t = X + 57342 /\ tok_vals t v
  else match nth (Z.to_nat (- X)) nonterms None with
       | None => False
       | Some N_ModuleDefinition =>
           exists m, res = Some m /\ derives N_ModuleDefinition w (S_module (snapM m))
       | Some N => derives N w (sem_of N v)
       end.

Lemma sym_ok_res r r' X w v : X <> - lhs 1 -> sym_ok r X w v -> sym_ok r' X w v.
Proof.
  intros N. unfold sym_ok. destruct (0 <? X) eqn:E; [easy|]. apply Z.ltb_ge in E.
  destruct (nth (Z.to_nat (- X)) nonterms None) as [M|] eqn:F; [|easy].
  assert (Q : M <> N_ModuleDefinition).
  { intros ->. destruct module_index as [_ C]. rewrite forallb_forall in C.
    destruct (le_lt_dec (length nonterms) (Z.to_nat (- X))) as [G|G].
    - rewrite nth_overflow in F by assumption. discriminate.
    - specialize (C (Z.to_nat (- X))). rewrite F, Z.eqb_eq in C. rewrite Z2Nat.id in C by lia.
      apply N. rewrite <- C; [lia|]. apply in_seq. split; [lia|exact G]. }
  destruct M; congruence || easy.
Qed.

Lemma sym_ok_items (r : list Z) : forall k d ws (vs : list sym),
  length vs = length r ->
  (forall i v, nth_error vs i = Some v -> d (k + i)%nat = v) ->
  (forall X, In X r -> X <> - lhs 1) ->
  Forall2 (fun Xv w => sym_ok None (fst Xv) w (snd Xv)) (combine r vs) ws ->
  exists its, matches r k d its /\ Forall2 phrase its ws.
Proof.
  induction r as [|X r IH]; intros k d ws vs Lv Hd Hm F.
  - destruct vs; [|discriminate]. inversion F; subst. exists []. split; [reflexivity|constructor].
  - destruct vs as [|v vs]; [discriminate|]. cbn [combine] in F.
    inversion F as [|a w c ws' F1 F2]; subst. cbn [fst snd] in F1.
    assert (E : d k = v) by (rewrite <- (Hd 0%nat v eq_refl); f_equal; lia).
    destruct (IH (S k) d ws' vs) as (its & M & P).
    { cbn in Lv. lia. }
    { intros i x Hx. rewrite <- (Hd (S i) x Hx). f_equal. lia. }
    { intros Y Hy. apply Hm. now right. }
    { exact F2. }
    assert (G : exists i, holds X v i /\ phrase i w).
    { unfold sym_ok in F1. destruct (0 <? X) eqn:Z.
      - destruct F1 as (t & -> & K & T). exists (Tk t). cbn [holds phrase]. apply Z.ltb_lt in Z. auto.
      - apply Z.ltb_ge in Z. destruct (nth (Z.to_nat (- X)) nonterms None) as [N|] eqn:Nx; [|contradiction].
        exists (Nt N (sem_of N v)). cbn [holds phrase].
        assert (Xn : X <> 0).
        { intros ->. vm_compute in Nx. discriminate Nx. }
        split; [repeat split; [lia|exact Nx]|].
        destruct N; try exact F1. destruct F1 as (m & Q & _). discriminate Q. }
    destruct G as (i & Hi & Pi). exists (i :: its). split.
    + cbn [matches]. exists i, its. rewrite E. auto.
    + now constructor.
Qed.

Section Sound.
  Context {L : Type}.
  Context (lex_Lex : L -> lexval -> res (Z * lexval * L)).
  Context (lex_Error : L -> string -> L).
  Notation pst := (pstate L).
  (** [Bad]: the lexer has recorded an error. *)
  Context (Bad : L -> Prop).
  Context (Bad_keep : forall x v c v' x', Bad x -> lex_Lex x v = Ok (c, v', x') -> Bad x').
  Context (Bad_neg : forall x v c v' x', lex_Lex x v = Ok (c, v', x') -> c < 0 -> Bad x').
  Context (Bad_Error : forall x m, Bad (lex_Error x m)).

  (** Calls of Lex that deliver the tokens [ts]. *)
  Inductive feed : L -> lexval -> list token -> L -> lexval -> Prop :=
  | feed_nil x v : feed x v [] x v
  | feed_snoc x v ts x' v' c v'' x'' :
      feed x v ts x' v' -> lex_Lex x' v' = Ok (c, v'', x'') -> 0 < c ->
      feed x v (ts ++ [token_of c v''])%list x'' v''.

  Context (x0 : L).

  (** The lookahead and the tokens shifted account for all that was read. *)
  Definition input_ok (ps : pst) (shifted : list token) : Prop :=
    exists x v, 
      (ps_char ps < 0 /\ feed x0 lexval0 shifted (ps_lx ps) (ps_lval ps))
      \/ (0 < ps_char ps /\ yytranslate (ps_char ps) = Ok (ps_token ps)
          /\ feed x0 lexval0 (shifted ++ [token_of (ps_char ps) (ps_lval ps)]) (ps_lx ps) (ps_lval ps))
      \/ (ps_char ps = 0 /\ ps_token ps = 1 /\ feed x0 lexval0 shifted x v
          /\ lex_Lex x v = Ok (0, ps_lval ps, ps_lx ps)).

  Definition entries (l : label) (ps : pst) : list slot :=
    match l with
    | Lyystack => live ps ++ [{| sl_yys := ps_state ps; sl_val := ps_VAL ps |}]
    | _ => live ps
    end.

  Definition entry_ok res (e : slot) (w : list token) : Prop :=
    sym_ok res (acc (sl_yys e)) w (sl_val e).

  Definition good (l : label) (ps : pst) : Prop :=
    exists e0 es ws, entries l ps = e0 :: es
      /\ Forall2 (entry_ok (ps_result ps)) es ws /\ input_ok ps (concat ws).

  (** [good], with the tokens shifted so far. *)
  Definition good_at (l : label) (ps : pst) (w : list token) : Prop :=
    exists e0 es ws, entries l ps = e0 :: es
      /\ Forall2 (entry_ok (ps_result ps)) es ws /\ input_ok ps (concat ws) /\ w = concat ws.

  Lemma good_iff l ps : good l ps <-> exists w, good_at l ps w.
  Proof.
    split; [intros (e0 & es & ws & H1 & H2 & H3); exists (concat ws), e0, es, ws; auto|].
    intros (w & e0 & es & ws & H1 & H2 & H3 & _). exists e0, es, ws. auto.
  Qed.

  Definition sinv (l : label) (ps : pst) : Prop := Bad (ps_lx ps) \/ good l ps.

  (** The next call of Lex fails. *)
  Definition slip (ps : pst) (w : list token) (x' : L) : Prop :=
    feed x0 lexval0 w (ps_lx ps) (ps_lval ps) /\
    exists c v, lex_Lex (ps_lx ps) (ps_lval ps) = Ok (c, v, x') /\ c < 0.

  Lemma need_token_slip ps ps1 w : input_ok ps w -> need_token lex_Lex ps = Ok ps1 ->
    slip ps w (ps_lx ps1) \/ (input_ok ps1 w /\ 0 <= ps_char ps1).
  Proof.
    intros I N. unfold need_token, yylex1 in N. destruct (ps_char ps <? 0) eqn:E.
    - apply Z.ltb_lt in E.
      destruct (lex_Lex (ps_lx ps) (ps_lval ps)) as [[[c v] x]| |] eqn:F; try discriminate. cbn [rbind] in N.
      destruct (yytranslate c) as [t| |] eqn:T; try discriminate. cbn [rbind] in N. injection N as <-.
      destruct I as (x' & v' & [(_ & Fd)|[(A & _)|(A & _)]]); try lia.
      destruct (Z.lt_trichotomy c 0) as [C|[C|C]].
      + left. split; [exact Fd|]. exists c, v. auto.
      + subst c. right. split; [|cbn; lia]. exists (ps_lx ps), (ps_lval ps). right. right.
        cbn. repeat split; try assumption. apply translate_val in T. lia.
      + right. split; [|cbn; lia]. exists x', v'. right. left. cbn.
        repeat split; try assumption. eapply feed_snoc; eassumption.
    - injection N as <-. apply Z.ltb_ge in E. right. auto.
  Qed.

  Lemma slip_bad ps w x' : slip ps w x' -> Bad x'.
  Proof. intros (_ & c & v & E & C). eapply Bad_neg; eassumption. Qed.

  Lemma need_token_input ps ps1 w : input_ok ps w -> need_token lex_Lex ps = Ok ps1 ->
    Bad (ps_lx ps1) \/ (input_ok ps1 w /\ 0 <= ps_char ps1).
  Proof.
    intros I N. destruct (need_token_slip ps ps1 w I N) as [S1|S1]; [left|right; exact S1]. exact (slip_bad _ _ _ S1).
  Qed.

  Lemma need_token_bad ps ps1 : Bad (ps_lx ps) -> need_token lex_Lex ps = Ok ps1 -> Bad (ps_lx ps1).
  Proof.
    intros B. unfold need_token, yylex1. destruct (ps_char ps <? 0).
    - destruct (lex_Lex (ps_lx ps) (ps_lval ps)) as [[[c v] x]| |] eqn:F; try discriminate. cbn [rbind].
      destruct (yytranslate c); try discriminate. cbn [rbind]. intros Q. injection Q as <-. cbn.
      eapply Bad_keep; eassumption.
    - intros Q. now injection Q as <-.
  Qed.

  Lemma same_input_ok ps ps' w : same_input ps ps' -> input_ok ps w -> input_ok ps' w.
  Proof. intros (A & B & C & D & _). unfold input_ok. now rewrite A, B, C, D. Qed.

  Lemma Forall2_app_split {A B} (R : A -> B -> Prop) l1 l2 ws :
    Forall2 R (l1 ++ l2) ws ->
    exists w1 w2, ws = (w1 ++ w2)%list /\ Forall2 R l1 w1 /\ Forall2 R l2 w2.
  Proof.
    revert ws. induction l1 as [|a l1 IH]; cbn [app]; intros ws F.
    - exists [], ws. auto.
    - inversion F as [|? b ? ws' F1 F2]; subst. destruct (IH _ F2) as (w1 & w2 & -> & G1 & G2).
      exists (b :: w1), w2. auto.
  Qed.

  Lemma reduces_good_at ps n ps' w : pinv Lyydefault ps -> 0 < n < 292 -> reduces n ps ps' ->
    good_at Lyydefault ps w -> good_at Lyystack ps' w.
  Proof.
    intros I Hn (below & args & s & r & d & mkP & mkR & mkF & act & Ls & La & Ma & Sb & I0 & Lv & St
                 & Hd & HP & HR & HF & Ac & Va & Re & Si & Fo & I').
    intros (e0 & es & ws & Ee & Fe & Ip & ->). cbn [entries] in Ee.
    destruct below as [|b0 below].
    { discriminate Sb. }
    rewrite Ls in Ee. cbn [app] in Ee. injection Ee as -> <-.
    destruct (Forall2_app_split _ _ _ _ Fe) as (wb & wa & -> & Fb & Fa).
    pose proof (all_sound mkP mkR mkF HP HR HF n act Hn Ac) as Sd.
    specialize (Sd d).
    assert (Q : sym_ok (snd (act d (d 1%nat))) (- lhs n) (concat wa) (fst (act d (d 1%nat)))
                /\ (snd (act d (d 1%nat)) = None \/ n = 1)).
    { destruct (sym_ok_items (rhs n) 1 d wa (map sl_val args)) as (its & Mi & Pi).
      - now rewrite map_length.
      - intros i v Hv. rewrite nth_error_map in Hv. destruct (nth_error args i) as [x|] eqn:X; [|discriminate].
        injection Hv as <-. now apply Hd in X.
      - intros X Hx. now apply (rhs_no_module n).
      - rewrite <- Ma. clear -Fa Hn Ma.
        assert (Nm : forall x, In x args -> acc (sl_yys x) <> - lhs 1).
        { intros x Hx. apply (rhs_no_module n); [assumption|]. rewrite <- Ma.
          now apply (in_map (fun x => acc (sl_yys x))). }
        clear Ma. induction Fa as [|x w args wa F1 F2 IH]; [constructor|]. cbn [map combine]. constructor.
        + cbn [fst snd]. eapply sym_ok_res; [|exact F1]. apply Nm. now left.
        + apply IH. intros y Hy. apply Nm. now right.
      - specialize (Sd its Mi). destruct (n =? 1) eqn:N1.
        + apply Z.eqb_eq in N1. subst n. destruct Sd as (m & Em & Rm). split; [|now right].
          unfold sym_ok. rewrite Z.opp_involutive, (proj1 module_index).
          change (0 <? - lhs 1) with false. cbv iota. exists m. split; [exact Em|].
          eapply derives_rule; eassumption.
        + apply Z.eqb_neq in N1. destruct Sd as (En & N & Nn & Rn). split; [|now left].
          unfold sym_ok. rewrite Z.opp_involutive, Nn.
          assert (Ln : 0 < lhs n) by (destruct (rule_facts n Hn) as (_ & _ & Q & _); exact Q).
          assert (Zn : (0 <? - lhs n) = false) by (apply Z.ltb_ge; lia). rewrite Zn.
          assert (Dn : derives N (concat wa) (sem_of N (fst (act d (d 1%nat))))) by (eapply derives_rule; eassumption).
          destruct N; try exact Dn. exfalso. apply N1. apply lhs_one; [assumption|].
          destruct module_index as [_ C]. rewrite forallb_forall in C.
          destruct (le_lt_dec (length nonterms) (Z.to_nat (lhs n))) as [G|G].
          { rewrite nth_overflow in Nn by assumption. discriminate. }
          specialize (C (Z.to_nat (lhs n))). rewrite Nn, Z.eqb_eq, Z2Nat.id in C by lia.
          apply C. apply in_seq. split; [lia|exact G]. }
    destruct Q as [Q Qn].
    assert (Ga : acc (goto s (lhs n)) = - lhs n).
    { apply goto_edge; [|assumption|lia]. destruct I' as [_ P]. rewrite Lv, Sb in P.
      apply path_tail in P as [P _]. now apply path_head_state in P. }
    assert (New : entry_ok (ps_result ps') {| sl_yys := ps_state ps'; sl_val := ps_VAL ps' |} (concat wa)).
    { unfold entry_ok. cbn [sl_yys sl_val]. rewrite St, Ga, Va, Re.
      destruct Qn as [E|E].
      - rewrite E in Q |- *. destruct (Z.eq_dec n 1) as [->|Nn].
        + exfalso. unfold sym_ok in Q. rewrite Z.opp_involutive, (proj1 module_index) in Q.
          change (0 <? - lhs 1) with false in Q. cbv iota in Q. destruct Q as (m & Q & _). discriminate.
        + eapply sym_ok_res; [|exact Q]. intros X. apply Nn. apply lhs_one; [assumption|lia].
      - destruct (snd (act d (d 1%nat))) eqn:X; [exact Q|]. subst n.
        exfalso. unfold sym_ok in Q. rewrite Z.opp_involutive, (proj1 module_index) in Q.
        change (0 <? - lhs 1) with false in Q. cbv iota in Q. destruct Q as (m & Q & _). discriminate. }
    exists e0, (below ++ [{| sl_yys := ps_state ps'; sl_val := ps_VAL ps' |}])%list, (wb ++ [concat wa])%list.
    split; [cbn [entries]; now rewrite Lv|]. split.
    - apply Forall2_app; [|now repeat constructor].
      destruct (Z.eq_dec n 1) as [->|Nn].
      + (* state 1 is entered from state 0 *)
        assert (S1 : ps_state ps' = 1).
        { apply acc_one; [now apply (pinv_state Lyystack)|]. rewrite St, Ga. reflexivity. }
        destruct I' as [_ P]. rewrite S1, Lv, Sb in P. apply path_tail in P as [P1 P2].
        apply state_one_pred in P2; [|now apply path_head_state in P1]. subst s.
        assert (r = []).
        { destruct r as [|q r]; [reflexivity|]. apply path_tail in P1 as [P1 P2].
          exfalso. eapply no_succ_zero; [|exact P2]. now apply path_head_state in P1. }
        subst r. destruct below as [|b1 below].
        * inversion Fb; subst. constructor.
        * exfalso. unfold sts in Sb. cbn [map rev] in Sb. apply (f_equal (@length Z)) in Sb.
          rewrite !app_length in Sb. cbn in Sb. lia.
      + assert (E : ps_result ps' = ps_result ps).
        { rewrite Re. destruct Qn as [->|]; [reflexivity|contradiction]. }
        now rewrite E.
    - rewrite concat_app in Ip. rewrite !concat_app. cbn [concat]. rewrite app_nil_r.
      split; [now apply (same_input_ok ps)|reflexivity].
  Qed.

  Lemma reduces_good ps n ps' : pinv Lyydefault ps -> 0 < n < 292 -> reduces n ps ps' ->
    good Lyydefault ps -> good Lyystack ps'.
  Proof.
    rewrite !good_iff. intros I Hn R (w & G). exists w. eapply reduces_good_at; eassumption.
  Qed.

  Lemma input_shift (ps ps1 : pst) q w : is_state (ps_state ps) -> is_token (ps_token ps1) ->
    shift (ps_state ps) (ps_token ps1) = Some q ->
    input_ok ps1 w -> 0 <= ps_char ps1 ->
    acc q = ps_token ps1 /\ 0 < ps_char ps1
    /\ ps_char ps1 = ps_token ps1 + 57342
    /\ input_ok (shifted ps1 q) (w ++ [token_of (ps_char ps1) (ps_lval ps1)]).
  Proof.
    intros Hs T Sh (x & v & I) C.
    destruct (shift_edge _ _ _ Hs T Sh) as (_ & A & _). split; [exact A|].
    destruct I as [(N & _)|[(P & Tr & F)|(Z0 & T1 & _)]]; [lia| |].
    - split; [exact P|].
      assert (T3 : ps_token ps1 <> 1 /\ ps_token ps1 <> 3).
      { split; intros E; rewrite shift_special in Sh by auto; discriminate. }
      apply translate_val in Tr.
      split; [lia|]. exists x, v. left. cbn. split; [lia|exact F].
    - rewrite T1 in Sh. rewrite shift_special in Sh by auto. discriminate.
  Qed.

  Lemma live_cons l (ps : pst) : pinv l ps -> l <> Lyystack -> exists e es, live ps = e :: es.
  Proof.
    intros [_ H] Hl. destruct l; [congruence| |]; destruct H as (r & E & _);
      (destruct (live ps) as [|e es]; [discriminate E|eauto]).
  Qed.

  (** [good] at [ps], but the next call of Lex fails and leaves [x']. *)
  Definition slipped (l : label) (ps : pst) (x' : L) : Prop :=
    exists e0 es ws, entries l ps = e0 :: es
      /\ Forall2 (entry_ok (ps_result ps)) es ws /\ slip ps (concat ws) x'.

  Lemma move_good_at l ps l' ps' w : pinv l ps -> good_at l ps w ->
    move lex_Lex lex_Error l ps (Goto l' ps') ->
    (exists w', good_at l' ps' (w ++ w')) \/ (l <> Lyystack /\ slipped l ps (ps_lx ps')).
  Proof.
    intros I G M. inversion M; subst.
    - left. destruct G as (e0 & es & ws & Ee & Fe & Ip & ->). exists []. rewrite app_nil_r. exists e0, es, ws.
      split; [|split; [|split; [now apply (same_input_ok ps)|reflexivity]]].
      + cbn [entries] in *. congruence.
      + match goal with E : ps_result ps' = _ |- _ => rewrite E end. exact Fe.
    - left. exists []. rewrite app_nil_r. exact G.
    - pose proof (pinv_state _ _ I) as Hs.
      match goal with N : need_token _ _ = Ok _ |- _ =>
        destruct (need_token_ok lex_Lex ps ps1 (proj1 I) N) as (B1 & T & Lv & St & Rs & Vs & _);
        destruct G as (e0 & es & ws & Ee & Fe & Ip & ->);
        destruct (need_token_slip ps ps1 _ Ip N) as [Bd|[Ip1 C]] end.
      { right. split; [discriminate|]. exists e0, es, ws. split; [exact Ee|]. split; [exact Fe|exact Bd]. }
      left.
      match goal with Sh : shift _ _ = Some q |- _ =>
        destruct (input_shift ps ps1 q _ Hs T Sh Ip1 C) as (Aq & Pc & Kc & Ip2) end.
      exists [token_of (ps_char ps1) (ps_lval ps1)].
      exists e0, (es ++ [{| sl_yys := q; sl_val := sym_of_lexval (ps_lval ps1) |}])%list,
        (ws ++ [[token_of (ps_char ps1) (ps_lval ps1)]])%list.
      cbn [entries] in *. split.
      { change (live (shifted ps1 q)) with (live ps1). rewrite Lv, Ee. reflexivity. }
      split.
      + change (ps_result (shifted ps1 q)) with (ps_result ps1). rewrite Rs.
        apply Forall2_app; [exact Fe|]. constructor; [|constructor].
        unfold entry_ok, sym_ok. cbn [sl_yys sl_val]. rewrite Aq.
        unfold is_token in T. destruct (0 <? ps_token ps1) eqn:Z; [|apply Z.ltb_ge in Z; lia].
        eexists. split; [reflexivity|]. split; [exact Kc|apply token_of_vals].
      + rewrite concat_app. cbn [concat]. rewrite app_nil_r. split; [exact Ip2|reflexivity].
    - match goal with N : need_token _ _ = Ok _ |- _ =>
        destruct (need_token_ok lex_Lex ps ps' (proj1 I) N) as (B1 & T & Lv & St & Rs & Vs & _);
        destruct G as (e0 & es & ws & Ee & Fe & Ip & ->);
        destruct (need_token_slip ps ps' _ Ip N) as [Bd|[Ip1 C]] end.
      { right. split; [discriminate|]. exists e0, es, ws. split; [exact Ee|]. split; [exact Fe|exact Bd]. }
      left. exists []. rewrite app_nil_r. exists e0, es, ws. cbn [entries] in *. rewrite Lv, Rs. auto.
    - left. match goal with D : default_step _ _ _ _ |- _ => inversion D; subst end.
      match goal with R : red_ok _ _ = true |- _ => apply red_ok_spec in R as [Hn _] end.
      exists []. rewrite app_nil_r. eapply reduces_good_at; eassumption.
    - match goal with N : need_token _ _ = Ok _ |- _ =>
        destruct (need_token_ok lex_Lex ps ps1 (proj1 I) N) as (B1 & T & Lv & St & Rs & Vs & _);
        pose proof (need_token_inv lex_Lex Lyydefault ps ps1 ltac:(discriminate) I N Lyydefault ltac:(discriminate)) as I1;
        destruct G as (e0 & es & ws & Ee & Fe & Ip & ->);
        destruct (need_token_slip ps ps1 _ Ip N) as [Bd|[Ip1 C]] end.
      + right. match goal with D : default_step _ _ _ _ |- _ => inversion D; subst end.
        match goal with R : reduces _ _ _ |- _ => apply reduces_same in R; destruct R as (_ & _ & _ & -> & _) end.
        split; [discriminate|]. exists e0, es, ws. split; [exact Ee|]. split; [exact Fe|exact Bd].
      + left. match goal with D : default_step _ _ _ _ |- _ => inversion D; subst end.
        match goal with R : red_ok _ _ = true |- _ => apply red_ok_spec in R as [Hn _] end.
        exists []. rewrite app_nil_r. eapply reduces_good_at; try eassumption. exists e0, es, ws. cbn [entries] in *. rewrite Lv, Rs. auto.
  Qed.

  Lemma move_good l ps l' ps' : pinv l ps -> good l ps ->
    move lex_Lex lex_Error l ps (Goto l' ps') -> good l' ps' \/ (l <> Lyystack /\ slipped l ps (ps_lx ps')).
  Proof.
    intros I G M. apply good_iff in G as (w & G). destruct (move_good_at l ps l' ps' w I G M) as [(w' & G')|G'];
      [left; apply good_iff; exists (w ++ w')%list; exact G'|right; exact G'].
  Qed.

  Lemma move_sinv l ps l' ps' : pinv l ps -> sinv l ps ->
    move lex_Lex lex_Error l ps (Goto l' ps') -> sinv l' ps'.
  Proof.
    intros I [B|G] M.
    { left. eapply (move_J lex_Lex lex_Error Bad l ps (Goto l' ps')); try eassumption. reflexivity. }
    destruct (move_good l ps l' ps' I G M) as [G'|(_ & e0 & es & ws & _ & _ & S1)]; [right; exact G'|left].
    exact (slip_bad _ _ _ S1).
  Qed.

  (** What holds when Parse returns. *)
  Definition outcome_ok (c : Z) (ps : pst) : Prop :=
    (c = 1 /\ Bad (ps_lx ps))
    \/ (c = 0 /\ (Bad (ps_lx ps)
         \/ exists w x v v' m, feed x0 lexval0 w x v /\ lex_Lex x v = Ok (0, v', ps_lx ps)
              /\ ps_result ps = Some m /\ derives N_ModuleDefinition w (S_module (snapM m)))).

  Lemma accept_ok_at ps w : pinv Lyydefault ps -> good_at Lyydefault ps w -> ps_state ps = 1 ->
    ps_token ps = 1 -> 0 <= ps_char ps ->
    exists x v v' m, feed x0 lexval0 w x v /\ lex_Lex x v = Ok (0, v', ps_lx ps)
      /\ ps_result ps = Some m /\ derives N_ModuleDefinition w (S_module (snapM m)).
  Proof.
    intros [_ (r & E & P)] (e0 & es & ws & Ee & Fe & (x & v & Ip) & ->) S1 T1 C. cbn [entries] in Ee.
    rewrite S1 in *.
    destruct r as [|q r].
    { inversion P. }
    apply path_tail in P as [P1 P2].
    apply state_one_pred in P2; [|now apply path_head_state in P1]. subst q.
    assert (r = []).
    { destruct r as [|q r]; [reflexivity|]. apply path_tail in P1 as [P1 P2].
      exfalso. eapply no_succ_zero; [|exact P2]. now apply path_head_state in P1. }
    subst r. rewrite Ee in E. unfold sts in E. cbn [map rev] in E.
    destruct es as [|e1 es]; [discriminate E|].
    destruct es as [|e2 es].
    2:{ exfalso. apply (f_equal (@length Z)) in E. cbn [map rev] in E. rewrite !app_length in E. cbn in E. lia. }
    cbn in E. injection E as E1 E0.
    inversion Fe as [|? w ? ws' F1 F2]; subst. inversion F2; subst. cbn [concat] in *. rewrite app_nil_r in *.
    unfold entry_ok, sym_ok in F1. rewrite E1 in F1.
    change (acc 1) with (- lhs 1) in F1. rewrite Z.opp_involutive, (proj1 module_index) in F1.
    change (0 <? - lhs 1) with false in F1. cbv iota in F1. destruct F1 as (m & Hm & D).
    destruct Ip as [(N & _)|[(Pc & Tr & F)|(Z0 & _ & F & Lx)]]; [lia| |].
    - apply translate_val in Tr. lia.
    - exists x, v, (ps_lval ps), m. auto.
  Qed.

  Lemma accept_ok ps : pinv Lyydefault ps -> good Lyydefault ps -> ps_state ps = 1 ->
    ps_token ps = 1 -> 0 <= ps_char ps ->
    exists w x v v' m, feed x0 lexval0 w x v /\ lex_Lex x v = Ok (0, v', ps_lx ps)
      /\ ps_result ps = Some m /\ derives N_ModuleDefinition w (S_module (snapM m)).
  Proof.
    intros I G S1 T1 C. apply good_iff in G as (w & G). exists w. now apply accept_ok_at.
  Qed.

  Lemma default_outcome ps t c ps' : pinv Lyydefault ps -> sinv Lyydefault ps ->
    (deflt (ps_state ps) t = -1 -> t = ps_token ps /\ (Bad (ps_lx ps) \/ 0 <= ps_char ps)) ->
    default_step lex_Error ps t (Return c ps') -> outcome_ok c ps'.
  Proof.
    intros I G Hc D. inversion D; subst.
    - right. split; [reflexivity|]. destruct G as [B|G]; [left; exact B|].
      match goal with Q : deflt _ _ = -1 |- _ => destruct (Hc Q) as [T [B|C]] end; [left; exact B|].
      right. apply accept_ok; auto.
    - left. split; [reflexivity|]. match goal with Q : ps_lx ps' = _ |- _ => rewrite Q end. apply Bad_Error.
  Qed.

  Lemma quiet_accept s t : is_state s -> asks s = false -> is_token t -> deflt s t <> -1.
  Proof.
    intros Hs A T E. destruct (deflt_cases s t Hs T) as [C|[C|(_ & C & _)]].
    - lia.
    - apply red_ok_spec in C. lia.
    - subst s. vm_compute in A. discriminate.
  Qed.

  Lemma move_outcome l ps c ps' : pinv l ps -> sinv l ps ->
    move lex_Lex lex_Error l ps (Return c ps') -> outcome_ok c ps'.
  Proof.
    intros I G M. inversion M; subst.
    - eapply (default_outcome ps 4); try eassumption. intros Q. exfalso.
      eapply quiet_accept; try eassumption; [now apply (pinv_state Lyydefault)|unfold is_token; lia].
    - match goal with N : need_token _ _ = Ok _ |- _ =>
        pose proof (need_token_inv lex_Lex Lyydefault ps ps1 ltac:(discriminate) I N Lyydefault ltac:(discriminate)) as I1;
        destruct (need_token_ok lex_Lex ps ps1 (proj1 I) N) as (B1 & T & Lv & St & Rs & Vs & _);
        assert (G1 : Bad (ps_lx ps1) \/ (good Lyydefault ps1 /\ 0 <= ps_char ps1)) end.
      { destruct G as [B|G]; [left; eapply need_token_bad; eassumption|].
        destruct G as (e0 & es & ws & Ee & Fe & Ip).
        match goal with N : need_token _ _ = Ok _ |- _ => destruct (need_token_input ps ps1 _ Ip N) as [Bd|[Ip1 C]] end.
        - left. exact Bd.
        - right. split; [|exact C]. exists e0, es, ws. cbn [entries] in *. rewrite Lv, Rs. auto. }
      eapply (default_outcome ps1 (ps_token ps1)); try eassumption.
      + destruct G1 as [B|[G1 _]]; [now left|now right].
      + intros _. split; [reflexivity|]. tauto.
  Qed.

  Theorem parse_sound fuel c ps : yyParse lex_Lex lex_Error fuel x0 = Ok (c, ps) -> outcome_ok c ps.
  Proof.
    unfold yyParse. intros R.
    refine (run_invariant lex_Lex lex_Error sinv outcome_ok _ _ fuel Lyystack (init x0) c ps _ _ R).
    - intros l0 ps0 l' ps' H1 H2 H3 _. exact (move_sinv l0 ps0 l' ps' H1 H2 H3).
    - intros l0 ps0 c0 ps' H1 H2 H3. exact (move_outcome l0 ps0 c0 ps' H1 H2 H3).
    - apply init_inv.
    - right. exists {| sl_yys := 0; sl_val := yy_zero |}, [], []. split; [reflexivity|]. split; [constructor|].
      exists x0, lexval0. left. cbn. split; [lia|]. constructor.
  Qed.
End Sound.
