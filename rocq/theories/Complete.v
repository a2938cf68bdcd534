(** Completeness of the driver, for any lexer: the tokens of a derivation tree that
    loses no conflict are accepted, and the result is the value of the tree. *)
From Coq Require Import ZArith String List Bool Lia.
From Verif Require Import GoBase Tokens Tables Ast Actions Lexer Driver Grammar Automaton DriverTables
  DriverFacts DriverRun ActionSound GrammarFacts DriverSound Conflicts Lookahead LookTables.
Import ListNotations.
Local Open Scope Z_scope.

(** ** Symbols *)

Lemma nt_number_check : forallb (fun k => match nth k nonterms None with
    | Some N => nt_number N =? Z.of_nat k | None => true end) (seq 0 (length nonterms)) = true.
Proof. vm_compute. reflexivity. Qed.

Lemma nt_number_nth k N : nth k nonterms None = Some N -> nt_number N = Z.of_nat k.
Proof.
  intros E. pose proof nt_number_check as C. rewrite forallb_forall in C.
  destruct (le_lt_dec (length nonterms) k) as [G|G].
  { rewrite nth_overflow in E by assumption. discriminate. }
  specialize (C k). rewrite E, Z.eqb_eq in C. apply C. apply in_seq. lia.
Qed.

Lemma sym_range_check : forallb (fun n => forallb (fun X => (X <? 129) && ((X <? 0) || (1 <? X))) (rhs n)) rules = true.
Proof. vm_compute. reflexivity. Qed.

Lemma sym_range n X : 0 < n < 292 -> In X (rhs n) -> X < 129 /\ (X < 0 \/ 1 < X).
Proof.
  intros Hn Hx. pose proof sym_range_check as C. rewrite forallb_forall in C.
  specialize (C n (proj2 (in_rules n) Hn)). rewrite forallb_forall in C. specialize (C X Hx).
  apply andb_prop in C as [A B]. apply Z.ltb_lt in A. split; [exact A|].
  apply orb_prop in B as [B|B]; apply Z.ltb_lt in B; lia.
Qed.

(** Kinds of tokens, zero being the end. *)
Definition kind_ok (k : Z) : Prop := k = 0 \/ 57344 <= k < 57471.

(** The number of a kind in the tables. *)
Definition code (k : Z) : Z := if k =? 0 then 1 else k - 57342.

Lemma code_token k : kind_ok k -> is_token (code k).
Proof. unfold kind_ok, code, is_token. intros [->|H]; [cbn; lia|]. destruct (k =? 0) eqn:E; [apply Z.eqb_eq in E|]; lia. Qed.

Lemma code_pos k : 0 < k -> code k = k - 57342.
Proof. intros H. unfold code. destruct (k =? 0) eqn:E; [apply Z.eqb_eq in E; lia|reflexivity]. Qed.

Lemma lost_code n k : kind_ok k -> lost n (code k + 57342) = lost n k.
Proof.
  intros [->|H].
  - reflexivity.
  - rewrite code_pos by lia. f_equal. lia.
Qed.

Lemma lost_of_in n t l : (forall x, In x l -> is_token x) ->
  in_set t (lost_of n l) = true -> lost n (t + 57342) = true.
Proof.
  intros Hl H.
  assert (G : exists x, In x l /\ Z.to_N x = Z.to_N t /\ lost n (x + 57342) = true).
  { revert H. induction l as [|x l IH]; cbn [lost_of]; intros H.
    - discriminate H.
    - destruct (lost n (x + 57342)) eqn:E.
      + rewrite in_lor in H. apply orb_prop in H as [H|H].
        * exists x. split; [now left|]. split; [|exact E].
          unfold in_set in H. rewrite N.shiftl_1_l, N.pow2_bits_eqb in H. now apply N.eqb_eq in H.
        * destruct IH as (y & Hy & Q); [intros; apply Hl; now right|exact H|].
          exists y. split; [now right|exact Q].
      + destruct IH as (y & Hy & Q); [intros; apply Hl; now right|exact H|].
        exists y. split; [now right|exact Q]. }
  destruct G as (x & Hx & Q & E). specialize (Hl x Hx). unfold is_token in Hl.
  assert (x = t); [|now subst]. destruct t; try lia.
Qed.

Lemma lost_set_in n k : kind_ok k -> lost n k = false -> in_set (code k) (lost_set n) = false.
Proof.
  intros K L. destruct (in_set (code k) (lost_set n)) eqn:E; [|reflexivity].
  apply lost_of_in in E; [|intros x; apply in_toks]. rewrite lost_code in E by assumption. congruence.
Qed.

Lemma lost_never n k : lost n k = false -> never n = false.
Proof. unfold lost. destruct (never n); [discriminate|reflexivity]. Qed.

(** ** Trees *)

Fixpoint kept_all (m next : Z) (l : list tree) : bool :=
  match l with
  | [] => true
  | T :: l' => kept m (head_kind (flat_map leaves l') next) T && kept_all m next l'
  end.

Lemma kept_node up next n l : kept up next (Node n l) =
  negb (lost n next) && negb (shadowed up n) && kept_all (place up n) next l.
Proof.
  cbn [kept]. f_equal. induction l as [|T l IH]; [reflexivity|]. cbn [kept_all]. now rewrite <- IH.
Qed.

(** The root of a tree for symbol [X]. *)
Lemma yields_root T X i : yields T i -> is_sym X i -> X < 0 ->
  exists n l, T = Node n l /\ In n (with_lhs (- X)) /\ 0 < n < 292.
Proof.
  intros Y S Hx. destruct i as [t|N v]; cbn [is_sym] in S; [lia|]. destruct S as [_ S].
  inversion Y as [|n N' its v' l R F]; subst. exists n, l. split; [reflexivity|].
  destruct (rule_shape _ _ _ _ R) as (_ & E & Hn). split; [|exact Hn].
  unfold with_lhs. apply filter_In. split; [now apply in_rules|]. apply Z.eqb_eq.
  apply nt_number_nth in E. apply nt_number_nth in S.
  destruct (rule_facts n Hn) as (_ & _ & L & _). lia.
Qed.

Lemma leaf_root T X i : yields T i -> is_sym X i -> 0 < X ->
  exists t, T = Leaf t /\ i = Tk t /\ tk_kind t = X + 57342.
Proof.
  intros Y S Hx. destruct i as [t|N v]; cbn [is_sym] in S; [|lia]. inversion Y; subst. exists t. tauto.
Qed.

Lemma in_subs m X n : In n (with_lhs (- X)) -> never n = false -> shadowed m n = false -> In (place m n) (subs m X).
Proof.
  intros I N S. unfold subs. apply in_map. apply filter_In. split; [exact I|]. now rewrite N, S.
Qed.

Lemma in_firsts_fold t k l : In k l -> in_set t (first_of k) = true ->
  in_set t (fold_right (fun k a => N.lor (first_of k) a) 0%N l) = true.
Proof.
  induction l as [|x l IH]; intros I H; [destruct I|]. cbn [fold_right]. rewrite in_lor.
  destruct I as [->|I]; [now rewrite H|]. rewrite IH by assumption. apply orb_true_r.
Qed.

(** What a phrase begins with. *)
Definition begins (m : Z) (T : tree) : Prop :=
  (leaves T = [] /\ empty_ok m = true)
  \/ exists t w, leaves T = t :: w /\ 0 < tk_kind t /\ in_set (code (tk_kind t)) (first_of m) = true.

Definition Begins (T : tree) (i : item) : Prop :=
  forall up next n l, T = Node n l -> kept up next T = true -> begins (place up n) T.

Lemma begins_list m next l its : Forall2 yields l its -> Forall2 Begins l its ->
  forall r, Forall2 is_sym r its -> kept_all m next l = true ->
  (flat_map leaves l = [] /\ empties m r = true /\ forall la, subset la (firsts m r la) = true)
  \/ exists t w, flat_map leaves l = t :: w /\ 0 < tk_kind t /\ forall la, in_set (code (tk_kind t)) (firsts m r la) = true.
Proof.
  intros Fy Fb. induction Fy as [|T i l its Y Fy IH]; intros r Sy K.
  - inversion Sy; subst. left. cbn. repeat split. intros la. unfold subset. now rewrite N.ldiff_diag.
  - inversion Sy as [|X ? r' ? S1 S2]; subst. inversion Fb as [|? ? ? ? B1 B2]; subst.
    cbn [kept_all] in K. apply andb_prop in K as [K1 K2]. cbn [flat_map firsts empties].
    destruct (Z.lt_trichotomy X 0) as [Hx|[Hx|Hx]].
    + assert (Zx : (0 <? X) = false) by (apply Z.ltb_ge; lia). rewrite Zx.
      destruct (yields_root T X i Y S1 Hx) as (n & lt & -> & In_ & Hn).
      specialize (B1 _ _ n lt eq_refl K1). pose proof K1 as K1'. rewrite kept_node in K1'.
      apply andb_prop in K1' as [K1' _]. apply andb_prop in K1' as [L0 S0].
      apply negb_true_iff in L0, S0. apply lost_never in L0.
      pose proof (in_subs m X n In_ L0 S0) as Is.
      destruct B1 as [[E Em]|(t & w & E & P & F)].
      * assert (Ee : existsb empty_ok (subs m X) = true) by (apply existsb_exists; eauto).
        rewrite E, Ee. cbn [app andb].
        destruct (IH B2 r' S2 K2) as [(E1 & E2 & E3)|(t & w & E1 & P & E2)].
        -- left. repeat split; [exact E1|exact E2|]. intros la. specialize (E3 la).
           unfold subset in *. apply N.eqb_eq in E3. apply N.eqb_eq.
           apply N.bits_inj_0. intros b. rewrite N.ldiff_spec, N.lor_spec.
           assert (Q : N.testbit (N.ldiff la (firsts m r' la)) b = false) by (rewrite E3; apply N.bits_0).
           rewrite N.ldiff_spec in Q. destruct (N.testbit la b); [|reflexivity]. cbn [andb] in *.
           apply negb_false_iff in Q. rewrite Q, orb_true_r. reflexivity.
        -- right. exists t, w. repeat split; [exact E1|exact P|]. intros la. rewrite in_lor, E2. apply orb_true_r.
      * right. exists t, (w ++ flat_map leaves l)%list. rewrite E. repeat split; [exact P|]. intros la.
        pose proof (in_firsts_fold _ _ _ Is F) as G.
        destruct (existsb empty_ok (subs m X)); [|exact G]. rewrite in_lor, G. reflexivity.
    + subst X. destruct i; cbn [is_sym] in S1; lia.
    + assert (Zx : (0 <? X) = true) by (apply Z.ltb_lt; lia). rewrite Zx.
      destruct (leaf_root T X i Y S1 Hx) as (t & -> & -> & Kt).
      right. exists t, (flat_map leaves l). repeat split; [lia|]. intros la.
      rewrite code_pos by lia. rewrite Kt. unfold in_set. rewrite N.shiftl_1_l, N.pow2_bits_eqb.
      apply N.eqb_eq. f_equal. lia.
Qed.

Lemma place_cases up n : place up n = n \/ (place up n = 292 /\ n = 190).
Proof.
  unfold place. destruct ((up =? 187) && (n =? 190)) eqn:E; [|now left]. right.
  apply andb_prop in E as [_ E]. apply Z.eqb_eq in E. auto.
Qed.

Lemma rule_at_place up n : 0 < n < 292 -> rule_at (place up n) = n.
Proof.
  intros Hn. destruct (place_cases up n) as [->|[-> ->]]; [|reflexivity]. unfold rule_at.
  destruct (n =? 292) eqn:E; [apply Z.eqb_eq in E; lia|reflexivity].
Qed.

Lemma in_places up n : 0 < n < 292 -> In (place up n) places.
Proof.
  intros Hn. destruct (place_cases up n) as [->|[-> ->]]; [|now left]. right. now apply in_rules.
Qed.

Lemma yields_begins T i : yields T i -> Begins T i.
Proof.
  revert T i. apply yields_rect.
  - intros t up next n l E. discriminate E.
  - intros n N its v l R Fy Fb up next n' l' E K. injection E as <- <-.
    destruct (rule_shape _ _ _ _ R) as (Sy & _ & Hn).
    rewrite kept_node in K. apply andb_prop in K as [_ K].
    pose proof first_check as C. rewrite forallb_forall in C. specialize (C _ (in_places up n Hn)).
    cbv beta zeta in C. rewrite rule_at_place in C by assumption. apply andb_prop in C as [C1 C2].
    unfold begins. cbn [leaves].
    destruct (begins_list _ _ l its Fy Fb (rhs n) Sy K) as [(E1 & E2 & _)|(t & w & E & P & F)].
    + left. split; [exact E1|]. rewrite E2 in C2. exact C2.
    + right. exists t, w. repeat split; [exact E|exact P|]. eapply subset_in; [exact C1|]. apply F.
Qed.

Lemma all_begins l its : Forall2 yields l its -> Forall2 Begins l its.
Proof. induction 1; constructor; auto using yields_begins. Qed.

(** The token after a part of a right side. *)
Lemma firsts_ok m l its r rest la : Forall2 yields l its -> Forall2 is_sym r its ->
  kept_all m (head_kind rest 0) l = true -> in_set (code (head_kind rest 0)) la = true ->
  in_set (code (head_kind (flat_map leaves l ++ rest) 0)) (firsts m r la) = true.
Proof.
  intros Fy Sy K H. destruct (begins_list m _ l its Fy (all_begins _ _ Fy) r Sy K) as [(E & _ & S)|(t & w & E & _ & F)].
  - rewrite E. cbn [app]. eapply subset_in; [apply S|exact H].
  - rewrite E. cbn [app head_kind]. apply F.
Qed.

(** All tokens of a tree have a number in the tables. *)
Lemma leaves_ok T i : yields T i -> (forall t, i = Tk t -> kind_ok (tk_kind t)) -> Forall (fun t => kind_ok (tk_kind t)) (leaves T).
Proof.
  revert T i. refine (yields_rect _ _ _).
  - intros t H. cbn [leaves]. constructor; [now apply H|constructor].
  - intros n N its v l R _ IH _. destruct (rule_shape _ _ _ _ R) as (Sy & _ & Hn).
    assert (Rg : forall X, In X (rhs n) -> X < 129 /\ (X < 0 \/ 1 < X)) by (intros X; now apply sym_range).
    cbn [leaves]. clear R Hn. revert its IH Sy Rg. generalize (rhs n) as r.
    induction l as [|T l IHl]; intros r its IH Sy Rg; [constructor|].
    inversion IH as [|? i ? its' P1 P2]; subst. inversion Sy as [|X ? r' ? S1 S2]; subst.
    cbn [flat_map]. apply Forall_app. split.
    + apply P1. intros t ->. cbn [is_sym] in S1. specialize (Rg X (or_introl eq_refl)). right. lia.
    + eapply IHl; try eassumption. intros Y Hy. apply Rg. now right.
Qed.

(** ** The items *)

Lemma look_ok s m d t : is_state s -> m <> 0 -> in_set t (look s m d) = true ->
  item_ok s m d (look s m d) = true.
Proof.
  intros Hs Hm. unfold look at 1 2.
  destruct (find _ (nth (Z.to_nat s) look_items [])) as [x|] eqn:F.
  - intros _. apply find_some in F as [I E]. apply andb_prop in E as [E1 E2].
    apply Z.eqb_eq in E1, E2. pose proof (for_states _ items_check s Hs) as C. cbv beta in C.
    rewrite forallb_forall in C. specialize (C x I). cbv beta in C. rewrite E1, E2 in C.
    apply orb_prop in C as [C|C]; [apply Z.eqb_eq in C; contradiction|exact C].
  - unfold in_set. rewrite N.bits_0. discriminate.
Qed.

Lemma look_shift s m d t X : is_state s -> m <> 0 -> in_set t (look s m (Z.of_nat d)) = true ->
  nth_error (rhs (rule_at m)) d = Some X -> 0 < X ->
  exists q, shift s X = Some q /\ in_set t (look q m (Z.of_nat d + 1)) = true.
Proof.
  intros Hs Hm I E Hx. pose proof (look_ok _ _ _ _ Hs Hm I) as C. unfold item_ok in C. cbv zeta in C.
  rewrite Nat2Z.id, E in C. assert (P : (0 <? X) = true) by now apply Z.ltb_lt. rewrite P in C.
  destruct (shift s X) as [q|]; [|discriminate C]. exists q. split; [reflexivity|]. eapply subset_in; eassumption.
Qed.

Lemma look_goto s m d t X : is_state s -> m <> 0 -> in_set t (look s m (Z.of_nat d)) = true ->
  nth_error (rhs (rule_at m)) d = Some X -> X < 0 ->
  in_set t (look (goto s (- X)) m (Z.of_nat d + 1)) = true.
Proof.
  intros Hs Hm I E Hx. pose proof (look_ok _ _ _ _ Hs Hm I) as C. unfold item_ok in C. cbv zeta in C.
  rewrite Nat2Z.id, E in C. assert (P : (0 <? X) = false) by (apply Z.ltb_ge; lia). rewrite P in C.
  apply andb_prop in C as [C _]. eapply subset_in; eassumption.
Qed.

Lemma item_close s m d la X n : item_ok s m (Z.of_nat d) la = true ->
  nth_error (rhs (rule_at m)) d = Some X -> X < 0 -> In n (with_lhs (- X)) ->
  never n = false -> shadowed m n = false ->
  subset (N.ldiff (firsts m (skipn (S d) (rhs (rule_at m))) la) (lost_set n)) (look s (place m n) 0) = true.
Proof.
  intros C E Hx Hn Nv Sh. unfold item_ok in C. cbv zeta in C.
  rewrite Nat2Z.id, E in C. assert (P : (0 <? X) = false) by (apply Z.ltb_ge; lia). rewrite P in C.
  apply andb_prop in C as [_ C]. rewrite forallb_forall in C. specialize (C n Hn).
  rewrite Nv, Sh in C. exact C.
Qed.

Lemma in_ldiff t a b : in_set t a = true -> in_set t b = false -> in_set t (N.ldiff a b) = true.
Proof. unfold in_set. intros H Q. now rewrite N.ldiff_spec, H, Q. Qed.

Lemma look_close s m d t X n k : is_state s -> m <> 0 -> in_set t (look s m (Z.of_nat d)) = true ->
  nth_error (rhs (rule_at m)) d = Some X -> X < 0 -> In n (with_lhs (- X)) ->
  kind_ok k -> lost n k = false -> shadowed m n = false ->
  in_set (code k) (firsts m (skipn (S d) (rhs (rule_at m))) (look s m (Z.of_nat d))) = true ->
  in_set (code k) (look s (place m n) 0) = true.
Proof.
  intros Hs Hm I E Hx Hn K L Sh F. pose proof (look_ok _ _ _ _ Hs Hm I) as C.
  pose proof (item_close s m d _ X n C E Hx Hn (lost_never _ _ L) Sh) as Q. clear C.
  exact (subset_in _ _ _ Q (in_ldiff _ _ _ F (lost_set_in n k K L))).
Qed.

Lemma look_reduce s m d t : is_state s -> m <> 0 -> is_token t -> in_set t (look s m (Z.of_nat d)) = true ->
  nth_error (rhs (rule_at m)) d = None ->
  shift s t = None /\ deflt s t = rule_at m.
Proof.
  intros Hs Hm Ht I E. pose proof (look_ok _ _ _ _ Hs Hm I) as C. unfold item_ok in C. cbv zeta in C.
  rewrite Nat2Z.id, E in C. rewrite forallb_forall in C. specialize (C t (proj2 (in_toks t) Ht)). cbv beta in C.
  rewrite I in C. cbn [negb orb] in C. destruct (shift s t); [discriminate C|]. split; [reflexivity|].
  now apply Z.eqb_eq.
Qed.

Lemma translate_kind c t : kind_ok c -> 0 < c -> yytranslate c = Ok t -> t = c - 57342.
Proof.
  intros [->|H] P T; [lia|].
  unfold yytranslate in T.
  assert (E1 : (c <=? 0) = false) by (apply Z.leb_gt; lia).
  assert (E2 : (c <? Z.of_nat (length yyTok1)) = false) by (apply Z.ltb_ge; change (length yyTok1) with 1%nat; lia).
  assert (E3 : (yyPrivate <=? c) && (c <? yyPrivate + Z.of_nat (length yyTok2)) = true).
  { unfold yyPrivate. change (length yyTok2) with 127%nat. apply andb_true_intro. split; [apply Z.leb_le|apply Z.ltb_lt]; lia. }
  rewrite E1, E2, E3 in T. unfold yyPrivate in T.
  rewrite tab_zn in T by (change (length yyTok2) with 127%nat; lia). cbn [rtab rbind] in T.
  assert (Q : forallb (fun k => zn yyTok2 (Z.of_nat k) =? Z.of_nat k + 2) (seq 0 127) = true)
    by (vm_compute; reflexivity).
  rewrite forallb_forall in Q. specialize (Q (Z.to_nat (c - 57344))).
  rewrite Z.eqb_eq, in_seq in Q. rewrite Z2Nat.id in Q by lia. rewrite Q in T by lia.
  replace (c - 57344 + 2) with (c - 57342) in T by lia.
  destruct (c - 57342 =? 0) eqn:E4; [apply Z.eqb_eq in E4; lia|]. injection T as T. lia.
Qed.

Lemma head_kind_app a b : head_kind (a ++ b) 0 = head_kind a (head_kind b 0).
Proof. destruct a; reflexivity. Qed.

(** ** Runs *)

Section Run.
  Context {L : Type}.
  Context (lex_Lex : L -> lexval -> res (Z * lexval * L)).
  Context (lex_Error : L -> string -> L).
  Notation pst := (pstate L).
  Local Open Scope list_scope.

  (** Calls of Lex deliver the tokens [ts] and then the end. *)
  Inductive gives : L -> lexval -> list token -> L -> Prop :=
  | gives_end x v v' xf : lex_Lex x v = Ok (0, v', xf) -> gives x v [] xf
  | gives_token x v c v' x' ts xf : lex_Lex x v = Ok (c, v', x') -> 0 < c ->
      gives x' v' ts xf -> gives x v (token_of c v' :: ts) xf.

  (** The tokens [ts] are still to be shifted. *)
  Definition ahead (ps : pst) (ts : list token) (xf : L) : Prop :=
    (ps_char ps < 0 /\ gives (ps_lx ps) (ps_lval ps) ts xf)
    \/ (exists ts', 0 < ps_char ps /\ ts = token_of (ps_char ps) (ps_lval ps) :: ts'
          /\ yytranslate (ps_char ps) = Ok (ps_token ps) /\ gives (ps_lx ps) (ps_lval ps) ts' xf)
    \/ (ps_char ps = 0 /\ ts = [] /\ ps_token ps = 1 /\ ps_lx ps = xf).

  Notation kinds_ok ts := (Forall (fun t => kind_ok (tk_kind t)) ts).

  Lemma head_ok ts : kinds_ok ts -> kind_ok (head_kind ts 0).
  Proof. intros F. destruct F; cbn [head_kind]; [now left|assumption]. Qed.

  Lemma ahead_need ps ts xf : ahead ps ts xf -> kinds_ok ts ->
    exists ps1, need_token lex_Lex ps = Ok ps1 /\ ahead ps1 ts xf /\ 0 <= ps_char ps1
      /\ ps_token ps1 = code (head_kind ts 0).
  Proof.
    intros A K. unfold need_token, yylex1. destruct A as [(N & G)|[(ts' & P & -> & T & G)|(Z0 & -> & T & X)]].
    - apply Z.ltb_lt in N. rewrite N. inversion G as [x v v' xf' E|x v c v' x' ts' xf' E P G']; subst.
      + rewrite E. cbn [rbind]. destruct (translate_ok 0) as (t & T & _). rewrite T. cbn [rbind].
        apply translate_val in T. eexists. split; [reflexivity|]. cbn. unfold ahead. cbn.
        assert (t = 1) by lia. subst t. repeat split; [|lia]. right. right. auto.
      + rewrite E. cbn [rbind]. destruct (translate_ok c) as (t & T & _). rewrite T. cbn [rbind].
        eexists. split; [reflexivity|]. unfold ahead. cbn. repeat split; [|lia|].
        * right. left. exists ts'. auto.
        * inversion K as [|? ? K1 K2]; subst. cbn [token_of tk_kind] in K1. rewrite code_pos by assumption.
          now apply translate_kind.
    - assert (Q : (ps_char ps <? 0) = false) by (apply Z.ltb_ge; lia). rewrite Q. eexists. split; [reflexivity|].
      repeat split; [|lia|].
      + right. left. exists ts'. auto.
      + inversion K as [|? ? K1 K2]; subst. cbn [head_kind token_of tk_kind] in *. rewrite code_pos by assumption.
        now apply translate_kind.
    - assert (Q : (ps_char ps <? 0) = false) by (apply Z.ltb_ge; lia). rewrite Q. eexists. split; [reflexivity|].
      repeat split; [|lia|exact T]. right. right. auto.
  Qed.

  Lemma ahead_same ps ps' ts xf : same_input ps ps' -> ahead ps ts xf -> ahead ps' ts xf.
  Proof. intros (A & B & C & D & _). unfold ahead. now rewrite A, B, C, D. Qed.

  Lemma ahead_shifted ps1 q t ts xf : ahead ps1 (t :: ts) xf -> 0 <= ps_char ps1 ->
    ahead (shifted ps1 q) ts xf /\ t = token_of (ps_char ps1) (ps_lval ps1).
  Proof.
    intros [(N & _)|[(ts' & P & E & T & G)|(_ & E & _)]] C; [lia| |discriminate E].
    injection E as -> ->. split; [|reflexivity]. left. cbn. split; [lia|exact G].
  Qed.

  (** The driver gets from one configuration to another. *)
  Definition reach (l : label) (ps : pst) (l' : label) (ps' : pst) : Prop :=
    exists k, forall f, run lex_Lex lex_Error (k + f) l ps = run lex_Lex lex_Error f l' ps'.

  Lemma reach_refl l ps : reach l ps l ps.
  Proof. now exists 0%nat. Qed.

  Lemma reach_trans l1 p1 l2 p2 l3 p3 : reach l1 p1 l2 p2 -> reach l2 p2 l3 p3 -> reach l1 p1 l3 p3.
  Proof.
    intros [k H] [k' H']. exists (k + k')%nat. intros f. now rewrite <- Nat.add_assoc, H, H'.
  Qed.

  Lemma reach_step l ps l' ps' : step lex_Lex lex_Error l ps = Ok (Goto l' ps') -> reach l ps l' ps'.
  Proof. intros E. exists 1%nat. intros f. cbn [run Nat.add]. now rewrite E. Qed.

  (** What a stack entry holds. *)
  Definition value_ok (X : Z) (i : item) (e : slot) (r : option (ModuleDefinition ptrV ptrD)) : Prop :=
    if X =? - lhs 1 then exists m, i = Nt N_ModuleDefinition (S_module (snapM m)) /\ r = Some m
    else holds X (sl_val e) i.

  (** The state entered with symbol [X]. *)
  Definition dest (s X : Z) : Z :=
    if 0 <? X then match shift s X with Some q => q | None => 0 end else goto s (- X).

  Definition starts (s m next X : Z) (T : tree) : Prop :=
    match T with
    | Leaf _ => exists q, shift s X = Some q
    | Node n _ => in_set (code next) (look s (place m n) 0) = true
    end.

  (** Reading the tokens of [T] pushes its value. *)
  Definition Does (T : tree) (i : item) : Prop :=
    forall X up ps rest xf,
      is_sym X i -> pinv Lyynewstate ps -> ahead ps (leaves T ++ rest) xf -> kinds_ok (leaves T ++ rest) ->
      kept up (head_kind rest 0) T = true -> starts (ps_state ps) up (head_kind rest 0) X T ->
      exists ps' e, reach Lyynewstate ps Lyynewstate ps' /\ pinv Lyynewstate ps'
        /\ live ps' = live ps ++ [e] /\ ps_state ps' = dest (ps_state ps) X
        /\ value_ok X i e (ps_result ps') /\ ahead ps' rest xf.

  Lemma push ps : pinv Lyystack ps ->
    exists ps', reach Lyystack ps Lyynewstate ps' /\ pinv Lyynewstate ps'
      /\ live ps' = live ps ++ [{| sl_yys := ps_state ps; sl_val := ps_VAL ps |}]
      /\ ps_state ps' = ps_state ps /\ ps_result ps' = ps_result ps /\ same_input ps ps'.
  Proof.
    intros I. destruct (stack_spec ps I) as (ps' & E & A & B & C & D & I').
    exists ps'. split; [apply reach_step; exact E|]. tauto.
  Qed.

  Lemma does_leaf t : Does (Leaf t) (Tk t).
  Proof.
    intros X up ps rest xf [Hx Kt] I A K _ [q Sh]. cbn [leaves app] in *.
    pose proof (pinv_state _ _ I) as Hs.
    assert (R : reads (ps_state ps) = true).
    { unfold reads. unfold shift in Sh. destruct (zn yyPact (ps_state ps) <=? yyFlag); [discriminate Sh|reflexivity]. }
    destruct (ahead_need ps _ xf A K) as (ps1 & N & A1 & C & T).
    cbn [head_kind] in T. rewrite code_pos in T by lia. assert (T' : ps_token ps1 = X) by lia.
    assert (E : step lex_Lex lex_Error Lyynewstate ps = Ok (Goto Lyystack (shifted ps1 q))).
    { cbn [step]. rewrite (newstate_read lex_Lex ps Hs (proj1 I) R), N. cbn [rbind]. rewrite T', Sh. reflexivity. }
    assert (I1 : pinv Lyystack (shifted ps1 q)).
    { apply (shifted_inv lex_Lex ps ps1 q I N). now rewrite T'. }
    destruct (need_token_ok lex_Lex ps ps1 (proj1 I) N) as (B1 & _ & Lv & _ & Rs & _).
    destruct (push _ I1) as (ps' & Re & I' & Lv' & St & Rs' & Si).
    destruct (ahead_shifted ps1 q t rest xf A1 C) as [A2 Et].
    exists ps', {| sl_yys := q; sl_val := sym_of_lexval (ps_lval ps1) |}.
    split; [eapply reach_trans; [apply reach_step; exact E|exact Re]|]. split; [exact I'|].
    split; [rewrite Lv'; change (live (shifted ps1 q)) with (live ps1); now rewrite Lv|].
    split.
    { rewrite St. unfold dest. assert (P : (0 <? X) = true) by now apply Z.ltb_lt. now rewrite P, Sh. }
    split; [|now apply (ahead_same (shifted ps1 q))].
    unfold value_ok. destruct (X =? - lhs 1) eqn:Q.
    { apply Z.eqb_eq in Q. exfalso. revert Q. vm_compute (lhs 1). lia. }
    cbn [holds sl_val]. split; [exact Hx|]. split; [exact Kt|]. rewrite Et. apply token_of_vals.
  Qed.

  (** The entries of the stack for a part of a right side. *)
  Definition held (Xe : Z * slot) (i : item) : Prop := holds (fst Xe) (sl_val (snd Xe)) i.

  Lemma skipn_step {A} d (l : list A) x r : skipn d l = x :: r -> nth_error l d = Some x /\ skipn (S d) l = r.
  Proof.
    revert l. induction d as [|d IH]; intros l E.
    - cbn in E. subst l. auto.
    - destruct l as [|a l]; [discriminate E|]. apply IH. exact E.
  Qed.

  Lemma does_seq m rest xf l its : Forall2 yields l its -> Forall2 Does l its ->
    0 < rule_at m < 292 -> m <> 0 ->
    forall d r ps, skipn d (rhs (rule_at m)) = r -> (d + length r = length (rhs (rule_at m)))%nat ->
      Forall2 is_sym r its ->
      pinv Lyynewstate ps -> ahead ps (flat_map leaves l ++ rest) xf -> kinds_ok (flat_map leaves l ++ rest) ->
      kept_all m (head_kind rest 0) l = true ->
      in_set (code (head_kind rest 0)) (look (ps_state ps) m (Z.of_nat d)) = true ->
      exists ps' es, reach Lyynewstate ps Lyynewstate ps' /\ pinv Lyynewstate ps'
        /\ live ps' = live ps ++ es /\ length es = length r
        /\ Forall2 held (combine r es) its
        /\ in_set (code (head_kind rest 0)) (look (ps_state ps') m (Z.of_nat (length (rhs (rule_at m))))) = true
        /\ ahead ps' rest xf.
  Proof.
    intros Fy Fd Hn Hm. induction Fy as [|T i l its Y Fy IH]; intros d r ps Er Ld Sy I A K Kp Lk.
    - inversion Sy as [Q|]. rewrite <- Q in *. cbn [length] in Ld. rewrite Nat.add_0_r in Ld. rewrite <- Ld.
      exists ps, []. rewrite app_nil_r. split; [apply reach_refl|]. split; [exact I|]. split; [reflexivity|].
      split; [reflexivity|]. split; [constructor|]. split; assumption.
    - inversion Fd as [|? ? ? ? D1 D2]; subst. inversion Sy as [|X ? r' ? S1 S2 Q]; subst. symmetry in Q.
      destruct (skipn_step _ _ _ _ Q) as [Ex Er]. rewrite Q in *. clear Q.
      cbn [kept_all] in Kp. apply andb_prop in Kp as [Kp1 Kp2].
      cbn [flat_map] in A, K. rewrite <- app_assoc in A, K.
      assert (K2 : kinds_ok (flat_map leaves l ++ rest)) by (apply Forall_app in K; tauto).
      rewrite <- head_kind_app in Kp1.
      assert (Hs := pinv_state _ _ I).
      assert (St : starts (ps_state ps) m (head_kind (flat_map leaves l ++ rest) 0) X T
                   /\ in_set (code (head_kind rest 0)) (look (dest (ps_state ps) X) m (Z.of_nat (S d))) = true).
      { rewrite Nat2Z.inj_succ. change (Z.succ (Z.of_nat d)) with (Z.of_nat d + 1). unfold dest.
        destruct (Z.lt_trichotomy X 0) as [Hx|[Hx|Hx]].
        - assert (Zx : (0 <? X) = false) by (apply Z.ltb_ge; lia). rewrite Zx.
          destruct (yields_root T X i Y S1 Hx) as (n & lt & -> & In_ & Hn').
          split; [|eapply look_goto; eassumption].
          pose proof Kp1 as Kn. rewrite kept_node in Kn.
          apply andb_prop in Kn as [Kn _]. apply andb_prop in Kn as [L0 S0].
          apply negb_true_iff in L0, S0. cbn [starts].
          eapply look_close; try eassumption.
          + now apply head_ok.
          + rewrite Er. apply (firsts_ok m l its); assumption.
        - subst X. destruct i; cbn [is_sym] in S1; lia.
        - assert (Zx : (0 <? X) = true) by (apply Z.ltb_lt; lia). rewrite Zx.
          destruct (leaf_root T X i Y S1 Hx) as (t & -> & -> & Kt).
          destruct (look_shift _ _ _ _ _ Hs Hm Lk Ex Hx) as (q & Sh & Lq). rewrite Sh.
          split; [cbn [starts]; now exists q|exact Lq]. }
      destruct St as [St Lk1].
      destruct (D1 X m ps _ xf S1 I A K Kp1 St) as (ps1 & e & R1 & I1 & Lv1 & St1 & V1 & A1).
      rewrite <- St1 in Lk1.
      destruct (IH D2 (S d) r' ps1 Er ltac:(cbn in Ld; lia) S2 I1 A1 K2 Kp2 Lk1)
        as (ps2 & es & R2 & I2 & Lv2 & Le & Vs & Lk2 & A2).
      exists ps2, (e :: es). split; [eapply reach_trans; eassumption|]. split; [exact I2|].
      split; [rewrite Lv2, Lv1, <- app_assoc; reflexivity|]. split; [cbn; now rewrite Le|].
      split; [|split; assumption].
      cbn [combine]. constructor; [|exact Vs]. unfold held. cbn [fst snd].
      unfold value_ok in V1. destruct (X =? - lhs 1) eqn:Xm; [|exact V1].
      apply Z.eqb_eq in Xm. exfalso. apply (rhs_no_module (rule_at m) X); [assumption| |assumption].
      eapply nth_error_In. exact Ex.
  Qed.

  (** Reducing in a state where rule [n] is the action. *)
  Lemma does_reduce ps n ts xf : pinv Lyynewstate ps -> ahead ps ts xf -> kinds_ok ts ->
    shift (ps_state ps) (code (head_kind ts 0)) = None ->
    deflt (ps_state ps) (code (head_kind ts 0)) = n -> 0 < n ->
    exists ps1 ps', reach Lyynewstate ps Lyystack ps' /\ reduces n ps1 ps' /\ live ps1 = live ps
      /\ ahead ps' ts xf.
  Proof.
    intros I A K Sh Df Hn. assert (Hs := pinv_state _ _ I).
    assert (Tk := code_token _ (head_ok _ K)).
    assert (D : exists ps0, reach Lyynewstate ps Lyydefault ps0 /\ pinv Lyydefault ps0 /\ live ps0 = live ps
                  /\ ps_state ps0 = ps_state ps /\ ahead ps0 ts xf).
    { destruct (reads (ps_state ps)) eqn:R.
      - destruct (ahead_need ps ts xf A K) as (ps1 & N & A1 & C & T). exists ps1.
        destruct (need_token_ok lex_Lex ps ps1 (proj1 I) N) as (_ & _ & Lv & St & _).
        split; [|split; [|auto]].
        + apply reach_step. cbn [step]. rewrite (newstate_read lex_Lex ps Hs (proj1 I) R), N. cbn [rbind].
          rewrite T, Sh. reflexivity.
        + apply (need_token_inv lex_Lex Lyynewstate ps ps1 ltac:(discriminate) I N Lyydefault). discriminate.
      - exists ps. split; [|split; [exact I|auto]].
        apply reach_step. cbn [step]. now apply newstate_skip. }
    destruct D as (ps0 & R0 & I0 & Lv0 & St0 & A0). rewrite <- St0 in *.
    assert (G : forall ps1 t o, default_step lex_Error ps1 t o -> deflt (ps_state ps1) t = n ->
                 exists ps', o = Goto Lyystack ps' /\ reduces n ps1 ps').
    { intros ps1 t o Ds E. destruct Ds as [_ _ Q|w ps' Q _ _ _|n' ps' Q _ Re]; [lia|lia|].
      exists ps'. split; [reflexivity|]. rewrite <- E, <- Q. exact Re. }
    destruct (asks (ps_state ps0)) eqn:As.
    - destruct (ahead_need ps0 ts xf A0 K) as (ps1 & N & A1 & C & T).
      destruct (need_token_ok lex_Lex ps0 ps1 (proj1 I0) N) as (_ & _ & Lv & St & _).
      destruct (default_asks lex_Lex lex_Error ps0 I0 As) as [(p & o & N' & E & I1 & Ds)|[(w & N' & E)|[N' E]]];
        rewrite N in N'; try discriminate N'. injection N' as <-.
      destruct (G _ _ _ Ds) as (ps' & -> & Re); [now rewrite St, T|].
      exists ps1, ps'. split; [eapply reach_trans; [exact R0|]; apply reach_step; exact E|].
      split; [exact Re|]. split; [congruence|]. eapply ahead_same; [|exact A1]. now apply reduces_same in Re.
    - destruct (default_quiet lex_Lex lex_Error ps0 I0 As _ Tk) as (o & E & Ds).
      destruct (G _ _ _ Ds) as (ps' & -> & Re); [exact Df|].
      exists ps0, ps'. split; [eapply reach_trans; [exact R0|]; apply reach_step; exact E|].
      split; [exact Re|]. split; [congruence|]. eapply ahead_same; [|exact A0]. now apply reduces_same in Re.
  Qed.

  Lemma held_matches r : forall es its k d, length es = length r -> Forall2 held (combine r es) its ->
    (forall i x, nth_error es i = Some x -> d (k + i)%nat = sl_val x) -> matches r k d its.
  Proof.
    induction r as [|X r IH]; intros es its k d Le F Hd.
    - inversion F; reflexivity.
    - destruct es as [|e es]; [discriminate Le|]. cbn [combine] in F. inversion F as [|? i ? its' F1 F2]; subst.
      cbn [matches]. exists i, its'. split; [reflexivity|]. split.
      + unfold held in F1. cbn [fst snd] in F1. rewrite <- (Hd 0%nat e eq_refl), Nat.add_0_r in F1. exact F1.
      + apply (IH es); [cbn in Le; lia|exact F2|]. intros j x Hx. rewrite <- (Hd (S j) x Hx). f_equal. lia.
  Qed.

  Lemma app_tail_eq {A} (a b c d : list A) : a ++ b = c ++ d -> length b = length d -> a = c /\ b = d.
  Proof.
    revert c. induction a as [|x a IH]; intros [|y c] E Ln; cbn [app] in E.
    - auto.
    - subst b. cbn in Ln. rewrite app_length in Ln. lia.
    - subst d. cbn in Ln. rewrite app_length in Ln. lia.
    - injection E as -> E. destruct (IH c E Ln) as [-> ->]. auto.
  Qed.

  Lemma does_node n N its v l : rule n N its v -> Forall2 yields l its -> Forall2 Does l its ->
    Does (Node n l) (Nt N v).
  Proof.
    intros R Fy Fd X up ps rest xf S1 I A K Kp St. cbn [leaves starts] in *.
    destruct (rule_shape _ _ _ _ R) as (Sy & En & Hn). cbn [is_sym] in S1. destruct S1 as [Hx Ex].
    assert (Lx : X = - lhs n).
    { apply nt_number_nth in En. apply nt_number_nth in Ex.
      destruct (rule_facts n Hn) as (_ & _ & Q & _). lia. }
    pose proof (rule_at_place up n Hn) as Rp. set (m := place up n) in *.
    assert (Hm : m <> 0).
    { unfold m. destruct (place_cases up n) as [->|[-> _]]; lia. }
    rewrite kept_node in Kp. apply andb_prop in Kp as [_ Kp]. fold m in Kp.
    destruct (does_seq m rest xf l its Fy Fd ltac:(rewrite Rp; exact Hn) Hm 0%nat (rhs n) ps
                ltac:(rewrite Rp; reflexivity) ltac:(rewrite Rp; reflexivity) Sy I A K Kp St)
      as (ps1 & es & R1 & I1 & Lv1 & Le & Vs & Lk & A1).
    assert (K2 : kinds_ok rest) by (apply Forall_app in K; tauto).
    rewrite Rp in Lk.
    destruct (look_reduce (ps_state ps1) m (length (rhs n)) (code (head_kind rest 0))) as [Sh Df].
    { now apply (pinv_state Lyynewstate). }
    { exact Hm. }
    { apply code_token, head_ok, K2. }
    { exact Lk. }
    { rewrite Rp. apply nth_error_None. lia. }
    rewrite Rp in Df.
    destruct (does_reduce ps1 n rest xf I1 A1 K2 Sh Df ltac:(lia)) as (ps2 & ps3 & R3 & Re & Lv2 & A3).
    destruct Re as (below & args & s & r & d & mkP & mkR & mkF & act & Ls & La & Ma & Sb & I0 & Lv & St'
                 & Hd & HP & HR & HF & Ac & Va & Rs & Si & Fo & I3).
    rewrite Lv2, Lv1 in Ls.
    assert (Eb : live ps = below /\ es = args).
    { apply app_tail_eq in Ls; [exact Ls|]. now rewrite Le, La. }
    destruct Eb as [Eb Ea]. subst args.
    assert (Es : s = ps_state ps).
    { destruct I as [_ (r0 & E0 & _)]. rewrite Eb, Sb in E0. congruence. }
    subst s.
    pose proof (all_sound mkP mkR mkF HP HR HF n act Hn Ac d its) as Sd.
    assert (Mt : matches (rhs n) 1 d its).
    { eapply held_matches; try eassumption. }
    specialize (Sd Mt). destruct (act d (d 1%nat)) as [va ra]. cbn [fst snd] in *.
    destruct (push ps3 I3) as (ps4 & R4 & I4 & Lv4 & St4 & Rs4 & Si4).
    exists ps4, {| sl_yys := ps_state ps3; sl_val := ps_VAL ps3 |}.
    split; [eapply reach_trans; [exact R1|]; eapply reach_trans; eassumption|].
    split; [exact I4|]. split; [now rewrite Lv4, Lv, Eb|].
    split.
    { rewrite St4, St'. unfold dest. assert (Zx : (0 <? X) = false) by (apply Z.ltb_ge; lia).
      rewrite Zx. f_equal. lia. }
    split; [|eapply ahead_same; eassumption].
    unfold value_ok. rewrite Rs4, Rs. cbn [sl_val]. rewrite Va. destruct (n =? 1) eqn:N1.
    - apply Z.eqb_eq in N1. rewrite N1 in R, Lx. destruct Sd as (md & Em & Rm). assert (Xq : (X =? - lhs 1) = true) by now apply Z.eqb_eq. rewrite Xq.
      exists md. rewrite Em. split; [|reflexivity].
      destruct (rule_fun _ _ _ _ _ _ R Rm) as [-> ->]. reflexivity.
    - apply Z.eqb_neq in N1. destruct Sd as (_ & N' & Nn & Rn).
      destruct (X =? - lhs 1) eqn:Xm.
      { apply Z.eqb_eq in Xm. exfalso. apply N1. apply lhs_one; [assumption|lia]. }
      cbn [holds]. destruct (rule_fun _ _ _ _ _ _ R Rn) as [-> ->]. auto.
  Qed.

  Lemma does T i : yields T i -> Does T i.
  Proof.
    revert T i. apply yields_rect.
    - exact does_leaf.
    - intros n N its v l R Fy Fd. now apply (does_node n N its v l).
  Qed.

  Lemma start_check : in_set 1 (look 0 1 0) = true /\ deflt 1 1 = -1 /\ goto 0 (lhs 1) = 1 /\ shift 1 1 = None.
  Proof. vm_compute. repeat split. Qed.

  (** At the end, in state 1, the parser accepts. *)
  Lemma accepts ps1 xf : pinv Lyynewstate ps1 -> ahead ps1 [] xf -> ps_state ps1 = 1 ->
    exists ps3, (forall f, run lex_Lex lex_Error (S (S f)) Lyynewstate ps1 = Ok (0, ps3))
      /\ ps_lx ps3 = xf /\ ps_result ps3 = ps_result ps1.
  Proof.
    intros I1 A1 E1. destruct start_check as (_ & C2 & _ & C4).
    destruct (step_move lex_Lex lex_Error Lyynewstate ps1 I1) as [(o & E & M & P)|[(w & E & _)|[E _]]].
    2,3: destruct (ahead_need ps1 [] xf A1 ltac:(constructor)) as (p & N & _); rewrite N in E; discriminate E.
    assert (Q : exists ps2, o = Goto Lyydefault ps2 /\ pinv Lyydefault ps2 /\ ahead ps2 [] xf /\ ps_state ps2 = 1
                  /\ ps_result ps2 = ps_result ps1).
    { destruct (ahead_need ps1 [] xf A1 ltac:(constructor)) as (p & N & Ap & Cp & Tp).
      destruct (need_token_ok lex_Lex ps1 p (proj1 I1) N) as (_ & _ & Lv & St' & Rs & _).
      inversion M; subst.
      - eexists. split; [reflexivity|]. split; [now apply P|]. auto.
      - exfalso. match goal with N' : need_token _ ps1 = Ok _, Sh : shift _ _ = Some _ |- _ =>
          rewrite N in N'; injection N' as <-; rewrite Tp, E1 in Sh; change (code (head_kind [] 0)) with 1 in Sh end.
        rewrite C4 in *. discriminate.
      - match goal with N' : need_token _ ps1 = Ok _ |- _ => rewrite N in N'; injection N' as <- end.
        eexists. split; [reflexivity|]. split; [now apply P|]. split; [exact Ap|]. split; congruence. }
    destruct Q as (ps2 & -> & I2 & A2 & E2 & Rs2).
    destruct (ahead_need ps2 [] xf A2 ltac:(constructor)) as (ps3 & N & A3 & Cp & Tp).
    destruct (need_token_ok lex_Lex ps2 ps3 (proj1 I2) N) as (_ & _ & Lv3 & St3 & Rs3 & _).
    assert (As : asks (ps_state ps2) = true) by (rewrite E2; vm_compute; reflexivity).
    destruct (default_asks lex_Lex lex_Error ps2 I2 As) as [(p & o & N' & E' & I3 & Ds)|[(w & N' & _)|[N' _]]];
      rewrite N in N'; try discriminate N'. injection N' as <-.
    assert (Ro : o = Return 0 ps3).
    { inversion Ds; subst.
      - reflexivity.
      - exfalso. rewrite Tp, St3, E2 in *. change (code (head_kind [] 0)) with 1 in *. lia.
      - exfalso. rewrite Tp, St3, E2 in *. change (code (head_kind [] 0)) with 1 in *. rewrite C2 in *.
        match goal with Q : red_ok _ _ = true |- _ => apply red_ok_spec in Q; lia end. }
    subst o.
    exists ps3. split; [|split; [|congruence]].
    - intros f. cbn [run]. rewrite E. cbn [rbind]. cbn [step]. rewrite E'. reflexivity.
    - destruct A3 as [(Q & _)|[(ts & _ & Q & _)|(_ & _ & _ & Q)]]; [lia|discriminate Q|exact Q].
  Qed.

  Lemma module_sym v : is_sym (- lhs 1) (Nt N_ModuleDefinition v).
  Proof. cbn [is_sym]. rewrite Z.opp_involutive. split; [vm_compute; reflexivity|apply module_index]. Qed.

  Local Strategy expand [with_lhs].
  Lemma with_lhs_spec n X : In n (with_lhs X) -> lhs n = X.
  Proof. intros H. apply filter_In in H as [_ H]. now apply Z.eqb_eq. Qed.

  Lemma starts_node s up next X n l m : place up n = m -> in_set (code next) (look s m 0) = true ->
    starts s up next X (Node n l).
  Proof. intros <- H. exact H. Qed.

  Lemma lhs_one_neg : - lhs 1 < 0.
  Proof. vm_compute. reflexivity. Qed.

  Lemma start_tree T v : yields T (Nt N_ModuleDefinition v) -> starts 0 0 0 (- lhs 1) T.
  Proof.
    intros Y. destruct start_check as (C1 & _).
    destruct (yields_root T _ _ Y (module_sym v) lhs_one_neg) as (n & l & E & In_ & Hn).
    rewrite E. apply with_lhs_spec in In_. rewrite Z.opp_involutive in In_.
    apply (lhs_one n Hn) in In_. rewrite In_.
    apply (starts_node 0 0 0 (- lhs 1) 1 l 1); [reflexivity|].
    assert (Q2 : code 0 = 1) by reflexivity. rewrite Q2. exact C1.
  Qed.

  (** The tokens of a kept tree for a module are accepted. *)
  Theorem parse_complete x T v xf : yields T (Nt N_ModuleDefinition v) -> kept 0 0 T = true ->
    gives x lexval0 (leaves T) xf ->
    exists fuel ps m, yyParse lex_Lex lex_Error fuel x = Ok (0, ps) /\ ps_lx ps = xf
      /\ ps_result ps = Some m /\ v = S_module (snapM m).
  Proof.
    intros Y Kp G.
    destruct start_check as (C1 & C2 & C3 & C4).
    assert (K : kinds_ok (leaves T ++ [])).
    { rewrite app_nil_r. apply (leaves_ok _ _ Y). discriminate. }
    destruct (push (init x) (init_inv x)) as (ps0 & R0 & I0 & Lv0 & St0 & Rs0 & Si0).
    assert (A0 : ahead ps0 (leaves T ++ []) xf).
    { eapply ahead_same; [exact Si0|]. left. rewrite app_nil_r. cbn. split; [lia|exact G]. }
    pose proof (module_sym v) as S1.
    assert (St : starts (ps_state ps0) 0 0 (- lhs 1) T).
    { rewrite St0. exact (start_tree T v Y). }
    destruct (does T _ Y (- lhs 1) 0 ps0 [] xf S1 I0 A0 K Kp St) as (ps1 & e & R1 & I1 & Lv1 & St1 & V1 & A1).
    assert (E1 : ps_state ps1 = 1).
    { rewrite St1, St0. change (ps_state (init x)) with 0. unfold dest.
      assert (Q : (0 <? - lhs 1) = false) by (vm_compute; reflexivity). rewrite Q, Z.opp_involutive. exact C3. }
    unfold value_ok in V1. rewrite Z.eqb_refl in V1. destruct V1 as (m & Ev & Em). injection Ev as ->.
    destruct (accepts ps1 xf I1 A1 E1) as (ps3 & R3 & Lx & Rs).
    destruct (reach_trans _ _ _ _ _ _ R0 R1) as [k Rr]. exists (k + 2)%nat, ps3, m.
    split.
    { unfold yyParse. rewrite Rr. apply R3. }
    split; [exact Lx|split; [congruence|reflexivity]].
  Qed.
End Run.
