(** The driver accepts only what [Complete] says: when it accepts, the tokens have a
    derivation tree that loses no conflict. *)
From Coq Require Import ZArith String List Bool Lia.
From Verif Require Import GoBase Tokens Tables Ast Actions Lexer Driver Grammar Automaton DriverTables
  DriverFacts DriverRun ActionSound GrammarFacts DriverSound Conflicts Lookahead LookTables Complete Exact.
Import ListNotations.
Local Open Scope Z_scope.

(** ** Trees on the stack *)

Definition entry_is (X : Z) (e : slot) (i : item) : Prop :=
  if X =? - lhs 1 then exists v, i = Nt N_ModuleDefinition v else holds X (sl_val e) i.

(** [kept], except for one case that the next token excludes later. *)
Definition kept_or (up next : Z) (T : tree) : Prop :=
  kept up next T = true \/ (up = 292 /\ next = T_CLOSE_CURLY).

(** The entries [es] above a state [s] stand for the trees [Ts]; the tokens [rest]
    are still to come. *)
Fixpoint stands (s : Z) (es : list slot) (Ts : list tree) (rest : list token) : Prop :=
  match es, Ts with
  | [], [] => True
  | e :: es', T :: Ts' =>
      (exists i, yields T i /\ entry_is (acc (sl_yys e)) e i)
      /\ (forall up, In up (ups s (acc (sl_yys e))) -> kept_or up (head_kind (flat_map leaves Ts' ++ rest) 0) T)
      /\ stands (sl_yys e) es' Ts' rest
  | _, _ => False
  end.

Definition top_state (s : Z) (es : list slot) : Z := last (map sl_yys es) s.

Lemma last_cons {A} (x d : A) l : last (x :: l) d = last l x.
Proof.
  revert x. induction l as [|y l IH]; intros x; [reflexivity|]. change (last (x :: y :: l) d) with (last (y :: l) d).
  rewrite IH. revert y IH. induction l as [|z l IHl]; intros y IH; [reflexivity|].
  change (last (y :: z :: l) x) with (last (z :: l) x). change (last (z :: l) y = last (z :: l) x).
  clear. revert z. induction l as [|w l IH]; intros z; [reflexivity|]. exact (IH w).
Qed.

Lemma top_cons s e es : top_state s (e :: es) = top_state (sl_yys e) es.
Proof. unfold top_state. cbn [map]. apply last_cons. Qed.

Lemma stands_app es : forall s fs Ts rest, stands s (es ++ fs) Ts rest ->
  exists T1 T2, Ts = (T1 ++ T2)%list /\ stands s es T1 (flat_map leaves T2 ++ rest)
    /\ stands (top_state s es) fs T2 rest.
Proof.
  induction es as [|e es IH]; intros s fs Ts rest H.
  - exists [], Ts. split; [reflexivity|]. split; [exact I|exact H].
  - destruct Ts as [|T Ts]; [destruct H|]. cbn [app stands] in H. destruct H as (A & B & C).
    destruct (IH _ _ _ _ C) as (T1 & T2 & -> & S1 & S2). exists (T :: T1), T2. split; [reflexivity|].
    split; [|now rewrite top_cons]. cbn [stands]. split; [exact A|]. split; [|exact S1].
    intros up Hu. specialize (B up Hu). rewrite flat_map_app, <- app_assoc in B. exact B.
Qed.

Lemma stands_join es : forall s fs T1 T2 rest, stands s es T1 (flat_map leaves T2 ++ rest) ->
  stands (top_state s es) fs T2 rest -> stands s (es ++ fs) (T1 ++ T2) rest.
Proof.
  induction es as [|e es IH]; intros s fs T1 T2 rest S1 S2; (destruct T1 as [|T T1]; [|]); try (destruct S1; fail).
  - exact S2.
  - cbn [stands app] in *. destruct S1 as (A & B & C). split; [exact A|]. split.
    + intros up Hu. rewrite flat_map_app, <- app_assoc. now apply B.
    + rewrite top_cons in S2. now apply IH.
Qed.

Lemma holds_sym X v i : holds X v i -> is_sym X i.
Proof. destruct i; cbn; tauto. Qed.

(** The trees of a right side. *)
Lemma stands_rhs n : 0 < n < 292 -> forall es s Ts rest d,
  is_state s -> chain s (map sl_yys es) -> In (n, Z.of_nat d) (items s) ->
  map (fun e => acc (sl_yys e)) es = skipn d (rhs n) -> stands s es Ts rest ->
  exists its, Forall2 yields Ts its /\ Forall2 held (combine (skipn d (rhs n)) es) its
    /\ Forall2 is_sym (skipn d (rhs n)) its /\ kept_all n (head_kind rest 0) Ts = true.
Proof.
  intros Hn es. induction es as [|e es IH]; intros s Ts rest d Hs Ch Hi Ma St.
  - destruct Ts; [|destruct St]. cbn [map] in Ma. rewrite <- Ma. exists []. repeat split; constructor.
  - destruct Ts as [|T Ts]; [destruct St|]. cbn [stands] in St. destruct St as ((i & Y & En) & Kp & St).
    cbn [map chain] in Ma, Ch. destruct Ch as [Cq Ch]. symmetry in Ma.
    destruct (skipn_step _ _ _ _ Ma) as [Ex Er]. rewrite Ma.
    assert (Hq : is_state (sl_yys e)) by (eapply succ_state; eassumption).
    destruct (IH (sl_yys e) Ts rest (S d) Hq Ch) as (its & F1 & F2 & F3 & F4).
    { apply (forward s (sl_yys e) n d (acc (sl_yys e))); (assumption || lia || reflexivity). }
    { now rewrite Er. }
    { exact St. }
    rewrite Er in F2, F3.
    assert (H : holds (acc (sl_yys e)) (sl_val e) i).
    { unfold entry_is in En. destruct (acc (sl_yys e) =? - lhs 1) eqn:Q; [|exact En].
      apply Z.eqb_eq in Q. exfalso. apply (rhs_no_module n (acc (sl_yys e))); [assumption| |assumption].
      eapply nth_error_In. exact Ex. }
    exists (i :: its). split; [now constructor|]. split; [cbn [combine]; now constructor|].
    split; [constructor; [eapply holds_sym; exact H|exact F3]|].
    cbn [kept_all]. rewrite F4, andb_true_r.
    destruct (Kp n (ups_item _ _ _ _ Hi Ex)) as [K|[K _]]; [|lia]. rewrite head_kind_app in K. exact K.
Qed.

(** A list of components as a whole. *)
Lemma kept_top T1 T2 i1 i2 s rest : is_state s -> In (187, 1) (items s) -> In (190, 0) (items s) ->
  yields T1 i1 -> yields T2 i2 -> is_sym (-27) i1 -> is_sym (-28) i2 ->
  kept_or 292 (head_kind (leaves T2 ++ rest) 0) T1 ->
  kept 190 (head_kind rest 0) T2 = true ->
  kept_all 292 (head_kind rest 0) [T1; T2] = true.
Proof.
  intros Hs I1 I2 Y1 Y2 S1 S2 K1 K2.
  destruct list_first_check as (_ & _ & _ & W & Fc).
  destruct (yields_root T2 (-28) i2 Y2 S2 ltac:(lia)) as (n2 & l2 & -> & In2 & Hn2).
  change (- -28) with 28 in In2. rewrite W in In2.
  cbn [kept_all flat_map]. rewrite app_nil_r, andb_true_r. apply andb_true_intro. split.
  - destruct K1 as [K1|[_ K1]]; [rewrite head_kind_app in K1; exact K1|]. exfalso.
    pose proof (yields_begins _ _ Y2 190 _ n2 l2 eq_refl K2) as B.
    rewrite forallb_forall in Fc. specialize (Fc n2 In2). cbv beta in Fc. apply andb_prop in Fc as [Fc1 Fc2].
    apply negb_true_iff in Fc1, Fc2.
    assert (P : place 190 n2 = n2) by (destruct In2 as [<-|[<-|[]]]; reflexivity). rewrite P in B.
    destruct B as [[_ E]|(t & w & E & Pt & F)]; [congruence|]. rewrite E in K1. cbn [app head_kind] in K1.
    rewrite K1 in F. change (code T_CLOSE_CURLY) with 27 in F. congruence.
  - rewrite kept_node in K2 |- *.
    assert (P : place 190 n2 = n2 /\ place 292 n2 = n2 /\ shadowed 190 n2 = false /\ shadowed 292 n2 = false)
      by (destruct In2 as [<-|[<-|[]]]; repeat split).
    destruct P as (P1 & P2 & P3 & P4). rewrite P1, P3 in K2. rewrite P2, P4. exact K2.
Qed.

Lemma rev_last {A} (l : list A) x r d : rev l = x :: r -> last l d = x.
Proof.
  intros E. apply (f_equal (@rev A)) in E. rewrite rev_involutive in E. subst l. cbn [rev]. apply last_last.
Qed.

Lemma top_of s b es x r : sl_yys b = s -> sts (b :: es) = x :: r -> top_state s es = x.
Proof.
  intros E H. unfold sts in H. apply (rev_last _ _ _ 0) in H. cbn [map] in H. rewrite last_cons, E in H. exact H.
Qed.

Section Run.
  Context {L : Type}.
  Context (lex_Lex : L -> lexval -> res (Z * lexval * L)).
  Context (lex_Error : L -> string -> L).
  Notation pst := (pstate L).
  Local Open Scope list_scope.
  Notation kinds_ok ts := (Forall (fun t => kind_ok (tk_kind t)) ts).
  Context (ts : list token) (xf : L).

  Definition next_code (rest : list token) : Z := code (head_kind rest 0).

  Definition stacked (l : label) (ps : pst) (rest : list token) : Prop :=
    exists e0 es Ts, entries l ps = e0 :: es /\ sl_yys e0 = 0 /\ stands 0 es Ts rest /\ flat_map leaves Ts ++ rest = ts.

  Definition einv (l : label) (ps : pst) : Prop :=
    exists rest, ahead lex_Lex ps rest xf /\ kinds_ok rest
      /\ (l = Lyydefault -> shift (ps_state ps) (next_code rest) = None)
      /\ (in_set (next_code rest) (hopeless (ps_state ps)) = true
          \/ (enters (ps_state ps) (next_code rest) = true /\ stacked l ps rest)).

  Lemma next_token rest : kinds_ok rest -> is_token (next_code rest).
  Proof. intros K. apply code_token. now apply head_ok. Qed.

  Lemma next_kind rest : kinds_ok rest -> rest <> [] -> next_code rest + 57342 = head_kind rest 0 \/ head_kind rest 0 = 0.
  Proof.
    intros K N. pose proof (head_ok _ K) as [H|H]; [now right|left]. unfold next_code. rewrite code_pos by lia. lia.
  Qed.

  (** A reduction. *)
  Lemma reduce_einv ps n ps' rest : pinv Lyydefault ps -> 0 < n < 292 -> reduces n ps ps' ->
    ahead lex_Lex ps rest xf -> kinds_ok rest -> shift (ps_state ps) (next_code rest) = None ->
    deflt (ps_state ps) (next_code rest) = n ->
    (in_set (next_code rest) (hopeless (ps_state ps)) = true
     \/ (enters (ps_state ps) (next_code rest) = true /\ stacked Lyydefault ps rest)) ->
    einv Lyystack ps'.
  Proof.
    intros I Hn Re A K Sh Df H. assert (Rd := Re).
    destruct Re as (below & args & s & r & d & mkP & mkR & mkF & act & Ls & La & Ma & Sb & I0 & Lv & St
                 & Hd & HP & HR & HF & Ac & Va & Rs & Si & Fo & I').
    assert (Hs : is_state s).
    { destruct I' as [_ P]. rewrite Lv, Sb in P. apply path_tail in P as [P _]. now apply path_head_state in P. }
    assert (Fa : map sl_yys args = follow s (rhs n)).
    { apply (f_equal (@rev Z)) in Fo. now rewrite !rev_involutive in Fo. }
    assert (Tq : last (follow s (rhs n)) s = ps_state ps).
    { destruct I as [_ (r0 & E0 & _)]. rewrite Ls in E0. unfold sts in E0, Sb. rewrite map_app, rev_app_distr, Sb, Fo in E0.
      destruct (rev (follow s (rhs n))) as [|x l] eqn:Q.
      - apply (f_equal (@rev Z)) in Q. rewrite rev_involutive in Q. rewrite Q. cbn in E0. cbn. congruence.
      - rewrite (rev_last _ _ _ s Q). cbn in E0. congruence. }
    pose proof (reductions s n (next_code rest) Hs I0 ltac:(lia) (next_token _ K)) as C. cbv zeta in C.
    rewrite Tq in C. specialize (C Sh Df). rewrite <- St in C. destruct C as [C1 C2].
    exists rest. split; [eapply ahead_same; eassumption|]. split; [exact K|]. split; [discriminate|].
    destruct (in_set (next_code rest) (hopeless (ps_state ps))) eqn:Hq.
    { left. now apply C1. }
    destruct H as [H|[En (e0 & es & Ts & Ee & E0 & Sd & Lt)]]; [discriminate H|].
    destruct (C2 eq_refl En) as [Hg|(Eg & Ln & Sw)]; [now left|right].
    split.
    { unfold enters. rewrite Eg. now rewrite !orb_true_r. }
    cbn [entries] in Ee. rewrite Ls in Ee. destruct below as [|b0 below]; [discriminate Sb|].
    cbn [app] in Ee. injection Ee as -> <-.
    destruct (stands_app _ _ _ _ _ Sd) as (T1 & T2 & -> & S1 & S2).
    rewrite (top_of 0 e0 below s r E0 Sb) in S2.
    assert (Ch : chain s (map sl_yys args)).
    { destruct I as [_ (r0 & E1 & P)]. rewrite <- E1, Ls in P. unfold sts in P, Sb.
      rewrite map_app, rev_app_distr, Sb in P. apply path_chain in P as [P _]. now rewrite rev_involutive in P. }
    destruct (stands_rhs n Hn args s T2 rest 0 Hs Ch I0 Ma S2) as (its & F1 & F2 & F3 & F4). cbn [skipn] in F2, F3.
    pose proof (all_sound mkP mkR mkF HP HR HF n act Hn Ac d its) as Sn.
    assert (Mt : matches (rhs n) 1 d its).
    { eapply held_matches; try eassumption. }
    specialize (Sn Mt).
    assert (Ga : acc (goto s (lhs n)) = - lhs n) by (apply goto_edge; [assumption|assumption|lia]).
    assert (Y : exists i, yields (Node n T2) i /\ entry_is (- lhs n) {| sl_yys := ps_state ps'; sl_val := ps_VAL ps' |} i).
    { destruct (n =? 1) eqn:N1.
      - apply Z.eqb_eq in N1. destruct Sn as (m & _ & Rm). rewrite N1. eexists. split; [econstructor; eassumption|].
        unfold entry_is. rewrite Z.eqb_refl. eauto.
      - apply Z.eqb_neq in N1. destruct Sn as (_ & N & Nn & Rn). eexists. split; [econstructor; eassumption|].
        unfold entry_is. destruct (- lhs n =? - lhs 1) eqn:Q.
        { apply Z.eqb_eq in Q. exfalso. apply N1. apply lhs_one; [assumption|lia]. }
        cbn [holds sl_val]. rewrite Va, Z.opp_involutive.
        destruct (rule_facts n Hn) as (_ & _ & Q1 & _). repeat split; [lia|exact Nn]. }
    exists e0, (below ++ [{| sl_yys := ps_state ps'; sl_val := ps_VAL ps' |}]), (T1 ++ [Node n T2]).
    split; [cbn [entries]; now rewrite Lv|]. split; [exact E0|]. split.
    - apply stands_join.
      + cbn [flat_map leaves]. rewrite app_nil_r. exact S1.
      + rewrite (top_of 0 e0 below s r E0 Sb). cbn [stands]. cbn [sl_yys]. rewrite St, Ga.
        rewrite St in Y. split; [exact Y|]. split; [|exact Logic.I].
        intros up Hu. cbn [flat_map app]. unfold kept_or. rewrite kept_node.
        assert (Ln' : lost n (head_kind rest 0) = false).
        { rewrite <- Ln. symmetry. apply lost_code. now apply head_ok. }
        rewrite Ln'. cbn [negb andb].
        destruct (shadowed up n) eqn:Su.
        { right. destruct (Sw up Hu Su) as [-> Q]. split; [reflexivity|].
          destruct (head_ok _ K) as [H0|H0].
          - exfalso. unfold next_code in Q. rewrite H0 in Q. vm_compute in Q. discriminate Q.
          - unfold next_code in Q. rewrite code_pos in Q by lia. lia. }
        left. cbn [negb andb]. unfold place. destruct ((up =? 187) && (n =? 190)) eqn:Pl; [|exact F4].
        apply andb_prop in Pl as [P1 P2]. apply Z.eqb_eq in P1, P2. clear Df. subst up n.
        destruct list_first_check as (R1 & _ & R2 & _). rewrite R2 in Hu. change (- (28)) with (-28) in Hu.
        pose proof (ups_list s Hs Hu) as I187.
        rewrite R1 in F2, F3. inversion F3 as [|? i1 ? its1 Y1 F3']; subst. inversion F3' as [|? i2 ? its2 Y2 F3'']; subst.
        inversion F3''; subst. inversion F1 as [|Ta ? Tl ? Ya F1']; subst. inversion F1' as [|Tb ? Tl' ? Yb F1'']; subst.
        inversion F1''; subst. cbn [kept_all flat_map] in F4. apply andb_prop in F4 as [_ F4].
        apply andb_prop in F4 as [F4 _].
        apply (kept_top Ta Tb i1 i2 s rest); try assumption.
        destruct args as [|e1 args]; [destruct S2|]. cbn [stands] in S2. destruct S2 as (_ & S2 & _).
        rewrite R1 in Ma. cbn [map] in Ma. injection Ma as Ma1 Ma2. rewrite Ma1 in S2.
        specialize (S2 292 (ups_top s I187 I0)). cbn [flat_map] in S2. rewrite app_nil_r in S2. exact S2.
    - rewrite flat_map_app in Lt |- *. cbn [flat_map leaves]. rewrite app_nil_r. exact Lt.
  Qed.

  Lemma need_einv ps ps1 rest : ahead lex_Lex ps rest xf -> kinds_ok rest -> need_token lex_Lex ps = Ok ps1 ->
    ahead lex_Lex ps1 rest xf /\ 0 <= ps_char ps1 /\ ps_token ps1 = next_code rest.
  Proof.
    intros A K N. destruct (ahead_need lex_Lex ps rest xf A K) as (p & N' & A1 & C & T). rewrite N in N'.
    injection N' as <-. auto.
  Qed.

  Lemma move_einv l ps l' ps' : pinv l ps -> einv l ps -> move lex_Lex lex_Error l ps (Goto l' ps') -> einv l' ps'.
  Proof.
    intros I (rest & A & K & Sd & H) M. pose proof (pinv_state _ _ I) as Hs. inversion M as
      [p p' Lv St Rs Si|p Rd|p p1 q Rd N Sh|p p1 Rd N Sh|p o As Ds|p p1 o As N Ds]; subst.
    - exists rest. split; [eapply ahead_same; eassumption|]. split; [exact K|]. split; [discriminate|]. rewrite St.
      destruct H as [H|[En (e0 & es & Ts & Ee & Q)]]; [now left|right]. split; [exact En|]. exists e0, es, Ts.
      split; [|exact Q]. cbn [entries] in *. congruence.
    - exists rest. split; [exact A|]. split; [exact K|]. split; [|exact H]. intros _.
      unfold reads in Rd. apply negb_false_iff in Rd. unfold shift. now rewrite Rd.
    - destruct (need_einv ps p1 rest A K N) as (A1 & C & T).
      destruct (need_token_ok lex_Lex ps p1 (proj1 I) N) as (B1 & Tk & Lv & St & Rs & _).
      rewrite T in Sh.
      destruct H as [H|[En (e0 & es & Ts & Ee & E0 & Sn & Lt)]].
      { destruct (hopeless_spec _ _ Hs (next_token _ K) H) as [Q _]. congruence. }
      destruct (shift_edge _ _ _ Hs (next_token _ K) Sh) as (Sq & Aq & Hq).
      destruct rest as [|t rest].
      { exfalso. change (next_code []) with 1 in Sh. rewrite shift_special in Sh by auto. discriminate Sh. }
      destruct (ahead_shifted lex_Lex p1 q t rest xf A1 C) as [A2 Et].
      rewrite Et in *. clear Et t. assert (K2 : kinds_ok rest) by (now inversion K).
      exists rest. split; [exact A2|]. split; [exact K2|]. split; [discriminate|]. right.
      assert (Tp : 0 < next_code (token_of (ps_char p1) (ps_lval p1) :: rest)).
      { pose proof (next_token _ K) as Q. unfold is_token in Q. lia. }
      split.
      { unfold enters. cbn [shifted with_state ps_state]. rewrite Aq. apply Z.ltb_lt in Tp. rewrite Tp. now rewrite orb_true_r. }
      cbn [entries] in Ee.
      exists e0, (es ++ [{| sl_yys := q; sl_val := sym_of_lexval (ps_lval p1) |}]), (Ts ++ [Leaf (token_of (ps_char p1) (ps_lval p1))]).
      split; [cbn [entries]; change (live (shifted p1 q)) with (live p1); rewrite Lv, Ee; reflexivity|].
      split; [exact E0|]. split; [|rewrite flat_map_app, <- app_assoc; exact Lt].
      apply stands_join; [exact Sn|]. cbn [stands sl_yys]. split; [|split; [|exact Logic.I]].
      + eexists. split; [constructor|]. unfold entry_is. cbn [sl_yys sl_val]. rewrite Aq.
        destruct (next_code (token_of (ps_char p1) (ps_lval p1) :: rest) =? - lhs 1) eqn:Q.
        { apply Z.eqb_eq in Q. exfalso. rewrite Q in Tp. vm_compute in Tp. discriminate Tp. }
        cbn [holds]. split; [exact Tp|]. split; [|apply token_of_vals].
        assert (Pc : 0 < ps_char p1).
        { destruct A1 as [(Q1 & _)|[(w & Q1 & _)|(_ & Q1 & _)]]; [lia|exact Q1|discriminate Q1]. }
        unfold next_code. cbn [head_kind token_of tk_kind]. rewrite code_pos by assumption. lia.
      + intros up _. left. reflexivity.
    - destruct (need_einv ps ps' rest A K N) as (A1 & C & T).
      destruct (need_token_ok lex_Lex ps ps' (proj1 I) N) as (B1 & Tk & Lv & St & Rs & _).
      rewrite T in Sh. exists rest. split; [exact A1|]. split; [exact K|]. rewrite St. split; [intros _; exact Sh|].
      destruct H as [H|[En (e0 & es & Ts & Ee & Q)]]; [now left|right]. split; [exact En|]. exists e0, es, Ts.
      split; [|exact Q]. cbn [entries] in *. congruence.
    - specialize (Sd eq_refl). inversion Ds as [| |n q En Ro Re]; subst. apply red_ok_spec in Ro as [Hn _].
      assert (Q : zn yyDef (ps_state ps) <> -2).
      { intros Q. unfold asks in As. rewrite Q in As. discriminate As. }
      assert (Df : deflt (ps_state ps) (next_code rest) = deflt (ps_state ps) 4) by now rewrite !deflt_quiet.
      eapply reduce_einv; eassumption.
    - specialize (Sd eq_refl). destruct (need_einv ps p1 rest A K N) as (A1 & C & T).
      pose proof (need_token_inv lex_Lex Lyydefault ps p1 ltac:(discriminate) I N Lyydefault ltac:(discriminate)) as I1.
      destruct (need_token_ok lex_Lex ps p1 (proj1 I) N) as (B1 & Tk & Lv & St & Rs & _).
      inversion Ds as [| |n q En Ro Re]; subst. apply red_ok_spec in Ro as [Hn _].
      rewrite <- St in Sd, H.
      assert (H' : in_set (next_code rest) (hopeless (ps_state p1)) = true
           \/ (enters (ps_state p1) (next_code rest) = true /\ stacked Lyydefault p1 rest)).
      { destruct H as [H|[En (e0 & es & Ts & Ee & Q)]]; [now left|right]. split; [exact En|]. exists e0, es, Ts.
        split; [|exact Q]. cbn [entries] in *. congruence. }
      assert (Df : deflt (ps_state p1) (next_code rest) = deflt (ps_state p1) (ps_token p1)) by now rewrite T.
      eapply reduce_einv; eassumption.
  Qed.

  Definition has_tree : Prop := exists T v, yields T (Nt N_ModuleDefinition v) /\ kept 0 0 T = true /\ leaves T = ts.

  Lemma ups_zero : In 0 (ups 0 (- lhs 1)).
  Proof. vm_compute. now left. Qed.

  Lemma accept_tree ps rest : pinv Lyydefault ps -> ahead lex_Lex ps rest xf -> kinds_ok rest -> next_code rest = 1 ->
    0 <= ps_char ps -> ps_state ps = 1 -> stacked Lyydefault ps rest -> has_tree.
  Proof.
    intros [_ (r & E & P)] A K N1 C S1 (e0 & es & Ts & Ee & E0 & Sd & Lt). cbn [entries] in Ee.
    rewrite S1 in *.
    destruct r as [|q r].
    { inversion P. }
    apply path_tail in P as [P1 P2].
    apply state_one_pred in P2; [|now apply path_head_state in P1]. subst q.
    assert (r = []).
    { destruct r as [|q r]; [reflexivity|]. apply path_tail in P1 as [P1 P2].
      exfalso. eapply no_succ_zero; [|exact P2]. now apply path_head_state in P1. }
    subst r. rewrite Ee in E. unfold sts in E. cbn [map rev] in E.
    destruct es as [|e1 es]; [discriminate E|].
    destruct es as [|e2 es].
    2:{ exfalso. apply (f_equal (@length Z)) in E. cbn [map rev] in E. rewrite !app_length in E. cbn in E. lia. }
    cbn in E. injection E as E1 _.
    destruct Ts as [|T [|T' Ts]]; cbn [stands] in Sd; [destruct Sd| |destruct Sd as (_ & _ & [])].
    destruct Sd as ((i & Y & Ei) & Kp & _). rewrite E1 in Ei, Kp.
    assert (Rn : rest = []).
    { destruct rest as [|t rest]; [reflexivity|]. exfalso.
      destruct A as [(Q & _)|[(w & Q & Et & _)|(_ & Q & _)]]; [lia| |discriminate Q].
      injection Et as -> ->. inversion K as [|? ? K1 K2]; subst. unfold next_code in N1. cbn [head_kind token_of tk_kind] in *.
      rewrite code_pos in N1 by assumption. destruct K1; lia. }
    subst rest. cbn [flat_map] in Lt. rewrite !app_nil_r in Lt.
    change (acc 1) with (- lhs 1) in Ei, Kp. unfold entry_is in Ei. rewrite Z.eqb_refl in Ei. destruct Ei as (v & ->).
    exists T, v. split; [exact Y|]. split; [|exact Lt].
    destruct (Kp 0 ups_zero) as [Q|[Q _]]; [exact Q|lia].
  Qed.

  Lemma hopeless_one t : is_token t -> in_set t (hopeless 1) = true -> deflt 1 t <> -1.
  Proof. intros T H. destruct (hopeless_spec 1 t ltac:(unfold is_state; lia) T H). lia. Qed.

  Lemma move_end l ps c ps' : pinv l ps -> einv l ps -> move lex_Lex lex_Error l ps (Return c ps') ->
    c = 1 \/ (c = 0 /\ has_tree).
  Proof.
    intros I (rest & A & K & Sd & H) M. pose proof (pinv_state _ _ I) as Hs.
    inversion M as [| | | |p o As Ds|p p1 o As N Ds]; subst.
    - left. inversion Ds; subst; [|reflexivity]. exfalso. now apply (quiet_accept (ps_state ps') 4).
    - inversion Ds as [S1 T1 D1| |]; subst; [|now left]. right. split; [reflexivity|].
      destruct (need_einv ps ps' rest A K N) as (A1 & C & T).
      pose proof (need_token_inv lex_Lex Lyydefault ps ps' ltac:(discriminate) I N Lyydefault ltac:(discriminate)) as I1.
      destruct (need_token_ok lex_Lex ps ps' (proj1 I) N) as (B1 & Tk & Lv & St & Rs & _).
      apply (accept_tree ps' rest); try assumption; [congruence|].
      destruct H as [H|[En (e0 & es & Ts & Ee & Q)]].
      + exfalso. rewrite <- St, S1 in H. rewrite S1, T in D1. eapply hopeless_one; [|exact H|exact D1]. now apply next_token.
      + exists e0, es, Ts. split; [|exact Q]. cbn [entries] in *. congruence.
  Qed.

  (** When the driver accepts, the tokens have a kept tree. *)
  Theorem parse_exact fuel x c ps : gives lex_Lex x lexval0 ts xf -> kinds_ok ts ->
    yyParse lex_Lex lex_Error fuel x = Ok (c, ps) -> c = 1 \/ (c = 0 /\ has_tree).
  Proof.
    intros G K R. unfold yyParse in R.
    refine (run_invariant lex_Lex lex_Error einv (fun c _ => c = 1 \/ (c = 0 /\ has_tree)) _ _ fuel Lyystack (init x) c ps _ _ R).
    - intros l0 ps0 l' ps' H1 H2 H3 _. exact (move_einv l0 ps0 l' ps' H1 H2 H3).
    - intros l0 ps0 c0 ps' H1 H2 H3. exact (move_end l0 ps0 c0 ps' H1 H2 H3).
    - apply init_inv.
    - exists ts. split; [left; cbn; split; [lia|exact G]|]. split; [exact K|]. split; [discriminate|]. right.
      split; [reflexivity|]. exists {| sl_yys := 0; sl_val := yy_zero |}, [], []. repeat split.
  Qed.
End Run.
