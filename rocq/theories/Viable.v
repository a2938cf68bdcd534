(** Viable prefixes: the tokens that a stack of the driver stands for are the beginning
    of a module. *)
From Coq Require Import ZArith String List Bool Lia.
From Verif Require Import GoBase Tokens Tables Ast Actions Lexer Driver Grammar Automaton DriverTables
  DriverFacts DriverRun ActionSound GrammarFacts DriverSound.
Import ListNotations.
Local Open Scope Z_scope.

(** The tokens [w] are a phrase of the symbol [X]. *)
Definition has (X : Z) (w : list token) : Prop := exists v, sym_ok None X w v.

(** The tokens are a module. *)
Definition is_module (w : list token) : Prop := exists m, derives N_ModuleDefinition w (S_module m).

Lemma token_has X t : 0 < X -> tk_kind t = X + 57342 -> has X [t].
Proof.
  intros Hx K. exists (sym_of_lexval {| lv_name := tk_name t; lv_numberRepr := EmptyString; lv_Number := tk_number t |}).
  unfold sym_ok. apply Z.ltb_lt in Hx. rewrite Hx. exists t. split; [reflexivity|]. split; [exact K|].
  split; intros _; reflexivity.
Qed.

Lemma has_values r ws : Forall2 has r ws ->
  exists vs, length vs = length r /\ Forall2 (fun Xv w => sym_ok None (fst Xv) w (snd Xv)) (combine r vs) ws.
Proof.
  induction 1 as [|X w r ws (v & V) F (vs & L & G)].
  - exists []. split; [reflexivity|constructor].
  - exists (v :: vs). cbn [length combine]. split; [now rewrite L|]. constructor; [exact V|exact G].
Qed.

Lemma rule_has n ws : 0 < n < 292 -> Forall2 has (rhs n) ws ->
  (n = 1 /\ is_module (concat ws)) \/ (n <> 1 /\ has (- lhs n) (concat ws)).
Proof.
  intros Hn F. destruct (has_values _ _ F) as (vs & L & G).
  set (mkP := fun (k : nat) (v : value ptrD) => {| pv_arr := 0; pv_idx := k; pv_snap := v |}).
  set (mkR := fun (k : nat) (x : DefinedValue) => {| pd_loc := None; pd_snap := x |}).
  set (mkF := fun (x : DefinedValue) => {| pd_loc := None; pd_snap := x |}).
  destruct (nth_error (actions mkP mkR mkF) (Z.to_nat n)) as [act|] eqn:Ac.
  2:{ apply nth_error_None in Ac. rewrite actions_length in Ac. lia. }
  pose proof (all_sound mkP mkR mkF (fun _ _ => eq_refl) (fun _ _ => eq_refl) (fun _ => eq_refl) n act Hn Ac) as Sd.
  set (d := fun k => nth (k - 1) vs yy_zero).
  destruct (sym_ok_items (rhs n) 1 d ws vs) as (its & Mi & Pi).
  - exact L.
  - intros i v Hv. unfold d. replace (1 + i - 1)%nat with i by lia. now apply nth_error_nth.
  - intros X Hx. now apply (rhs_no_module n).
  - exact G.
  - specialize (Sd d its Mi). destruct (n =? 1) eqn:N1.
    + apply Z.eqb_eq in N1. left. split; [exact N1|]. destruct Sd as (m & _ & Rm). exists (snapM m).
      rewrite N1 in *. eapply derives_rule; eassumption.
    + apply Z.eqb_neq in N1. right. split; [exact N1|]. destruct Sd as (_ & N & Nn & Rn). eexists.
      unfold sym_ok. rewrite Z.opp_involutive, Nn.
      assert (Ln : 0 < lhs n) by (destruct (rule_facts n Hn) as (_ & _ & Q & _); exact Q).
      assert (Zn : (0 <? - lhs n) = false) by (apply Z.ltb_ge; lia). rewrite Zn.
      assert (Dn : derives N (concat ws) (sem_of N (fst (act d (d 1%nat))))) by (eapply derives_rule; eassumption).
      destruct N; try exact Dn. exfalso. apply N1. apply lhs_one; [assumption|].
      destruct module_index as [_ C]. rewrite forallb_forall in C.
      destruct (le_lt_dec (length nonterms) (Z.to_nat (lhs n))) as [Q|Q].
      { rewrite nth_overflow in Nn by assumption. discriminate. }
      specialize (C (Z.to_nat (lhs n))). rewrite Nn, Z.eqb_eq, Z2Nat.id in C by lia.
      apply C. apply in_seq. split; [lia|exact Q].
Qed.

(** ** Every symbol has a phrase *)

(** Nonterminals with a derivation of at most [k] levels. *)
Fixpoint productive (k : nat) : list Z :=
  match k with
  | O => []
  | S j => let p := productive j in
           p ++ map lhs (filter (fun n => negb (n =? 1) && forallb (fun X => (0 <? X) || memZ (- X) p) (rhs n)) rules)
  end.

Lemma productive_check :
  let p := productive 20 in
  forallb (fun n => forallb (fun X => (0 <? X) || memZ (- X) p) (rhs n)) rules = true.
Proof. vm_compute. reflexivity. Qed.

Lemma productive_has k : forall N, In N (productive k) -> exists w, has (- N) w.
Proof.
  induction k as [|k IH]; intros N H; [destruct H|]. cbn [productive] in H. apply in_app_iff in H as [H|H]; [now apply IH|].
  apply in_map_iff in H as (n & <- & H). apply filter_In in H as [Hn H]. apply in_rules in Hn.
  apply andb_true_iff in H as [N1 H]. apply negb_true_iff, Z.eqb_neq in N1.
  assert (G : exists ws, Forall2 has (rhs n) ws).
  { clear N1 Hn. induction (rhs n) as [|X r IHr]; [exists []; constructor|]. cbn [forallb] in H. apply andb_true_iff in H as [H1 H2].
    destruct (IHr H2) as (ws & F). apply orb_true_iff in H1 as [H1|H1].
    - apply Z.ltb_lt in H1. exists ([{| tk_kind := X + 57342; tk_name := EmptyString; tk_number := 0 |}] :: ws).
      constructor; [|exact F]. apply token_has; [exact H1|reflexivity].
    - apply memZ_In, IH in H1 as (w & H1). rewrite Z.opp_involutive in H1. exists (w :: ws). now constructor. }
  destruct G as (ws & F). destruct (rule_has n ws Hn F) as [(E & _)|(_ & E)]; [contradiction|]. eauto.
Qed.

Lemma symbols_have n d : 0 < n < 292 -> exists ws, Forall2 has (skipn d (rhs n)) ws.
Proof.
  intros Hn. pose proof productive_check as C. cbv zeta in C. rewrite forallb_forall in C.
  specialize (C n (proj2 (in_rules n) Hn)). cbv beta in C.
  assert (G : forallb (fun X => (0 <? X) || memZ (- X) (productive 20)) (skipn d (rhs n)) = true).
  { rewrite forallb_forall in C |- *. intros X I. apply C. rewrite <- (firstn_skipn d (rhs n)). apply in_or_app. now right. }
  clear C Hn. induction (skipn d (rhs n)) as [|X r IH]; [exists []; constructor|]. cbn [forallb] in G.
  apply andb_true_iff in G as [G1 G2]. destruct (IH G2) as (ws & F). clear IH G2. apply orb_true_iff in G1 as [G1|G1].
  - apply Z.ltb_lt in G1. exists ([{| tk_kind := X + 57342; tk_name := EmptyString; tk_number := 0 |}] :: ws).
    constructor; [|exact F]. apply token_has; [exact G1|reflexivity].
  - apply memZ_In in G1. destruct (productive_has _ _ G1) as (w & H). rewrite Z.opp_involutive in H. exists (w :: ws). now constructor.
Qed.

(** ** Stacks *)

(** States, top first, and the tokens their entries stand for. *)
Inductive stk : list Z -> list (list token) -> Prop :=
| stk_zero : stk [0] []
| stk_succ q s l w ws : stk (s :: l) ws -> In q (succs s) -> has (acc q) w -> stk (q :: s :: l) (w :: ws).

Lemma stk_path l ws : stk l ws -> path l.
Proof. induction 1; constructor; assumption. Qed.

Lemma firstn_snoc {A} (l : list A) : forall d x, nth_error l d = Some x -> firstn (S d) l = firstn d l ++ [x].
Proof.
  induction l as [|y l IH]; intros [|d] x H; try discriminate H; cbn [nth_error firstn app] in *.
  - injection H as ->. reflexivity.
  - f_equal. now apply IH.
Qed.

Lemma stk_item d : forall q l ws n, stk (q :: l) ws -> In (n, Z.of_nat d) (items q) ->
  exists s base wa wb, stk (s :: base) wb /\ ws = wa ++ wb /\ In (n, 0) (items s) /\
    Forall2 has (firstn d (rhs n)) (rev wa) /\ (length (s :: base) + d = length (q :: l))%nat /\ (d = 0%nat -> s = q).
Proof.
  induction d as [|d IH]; intros q l ws n K I.
  - exists q, l, [], ws. repeat split; try assumption; [constructor|lia].
  - inversion K as [|q' s l' w ws' K' Q H]; subst.
    { apply items_zero in I. lia. }
    pose proof (path_head_state _ _ (stk_path _ _ K')) as Hs.
    apply (item_pred s) in I; [|assumption..|lia]. destruct I as (N & I & R).
    replace (Z.of_nat (S d) - 1) with (Z.of_nat d) in * by lia. rewrite Nat2Z.id in N.
    destruct (IH s l' ws' n K' I) as (s0 & base & wa & wb & Kb & -> & I0 & F & Ln & _).
    exists s0, base, (w :: wa), wb. split; [exact Kb|]. split; [reflexivity|]. split; [exact I0|]. split; [|split; [cbn [length] in *; lia|discriminate]].
    cbn [rev]. rewrite (firstn_snoc _ _ (acc q)).
    + apply Forall2_app; [exact F|]. constructor; [exact H|constructor].
    + rewrite <- N. apply nth_error_nth'. lia.
Qed.

(** ** Items and the items they come from *)

(** The symbols after the dots of some items. *)
Definition awaited (r : list (Z * Z)) : list Z :=
  flat_map (fun md => if 0 <? fst md then [nth (Z.to_nat (snd md)) (rhs (fst md)) 0] else []) r.

(** Items of [s] that are no expansions, and their expansions up to [k] levels. *)
Fixpoint reach (k : nat) (s : Z) : list (Z * Z) :=
  match k with
  | O => filter (fun nd => (0 <? snd nd) || (fst nd =? 1)) (items s)
  | S j => let r := reach j s in
           let f := awaited r in
           r ++ filter (fun nd => negb (mem2 nd r) && memZ (- lhs (fst nd)) f) (items s)
  end.

Definition levels : nat := 20.

Lemma reach_check :
  forallb (fun s => let r := reach levels s in forallb (fun nd => (fst nd =? 0) || mem2 nd r) (items s)) states = true.
Proof. vm_compute. reflexivity. Qed.

Lemma items_range_check :
  forallb (fun s => forallb (fun nd => (0 <=? fst nd) && (fst nd <? 292) && (0 <=? snd nd)
     && (negb (fst nd =? 1) || negb (snd nd =? 0) || (s =? 0))
     && (negb (fst nd =? 0) || (s =? 0) || (s =? 1))) (items s)) states = true.
Proof. vm_compute. reflexivity. Qed.

Lemma items_range s n d : is_state s -> In (n, d) (items s) ->
  0 <= n < 292 /\ 0 <= d /\ (n = 1 -> d = 0 -> s = 0) /\ (n = 0 -> s = 0 \/ s = 1).
Proof.
  intros Hs I. pose proof (for_states _ items_range_check s Hs) as C. cbv beta in C. rewrite forallb_forall in C.
  specialize (C _ I). cbn [fst snd] in C. clear I.
  apply andb_true_iff in C as [C C5]. apply andb_true_iff in C as [C C4]. apply andb_true_iff in C as [C C3].
  apply andb_true_iff in C as [C1 C2]. apply Z.leb_le in C1, C3. apply Z.ltb_lt in C2.
  split; [lia|]. split; [lia|]. split.
  - intros -> ->. cbn in C4. now apply Z.eqb_eq in C4.
  - intros ->. cbn in C5. apply orb_true_iff in C5 as [C5|C5]; apply Z.eqb_eq in C5; auto.
Qed.

Lemma reach_items k s x : In x (reach k s) -> In x (items s).
Proof.
  induction k as [|k IH]; cbn [reach]; [intros H; apply filter_In in H; tauto|]. cbv zeta. intros H.
  apply in_app_iff in H as [H|H]; [now apply IH|apply filter_In in H; tauto].
Qed.

Lemma reach_all s n d : is_state s -> In (n, d) (items s) -> 0 < n -> In (n, d) (reach levels s).
Proof.
  intros Hs I Hn. pose proof (for_states _ reach_check s Hs) as C. cbv beta zeta in C. rewrite forallb_forall in C.
  specialize (C _ I). cbn [fst] in C. apply orb_true_iff in C as [C|C]; [apply Z.eqb_eq in C; lia|]. exact (proj1 (mem2_In _ _) C).
Qed.

Local Opaque levels items rhs lhs.

Lemma reach_parent k s n : is_state s -> 1 < n < 292 -> In (n, 0) (reach (S k) s) ->
  In (n, 0) (reach k s) \/
  exists m e, In (m, Z.of_nat e) (reach k s) /\ 0 < m < 292 /\ nth_error (rhs m) e = Some (- lhs n).
Proof.
  intros Hs Hn H. cbn [reach] in H. cbv zeta in H. apply in_app_iff in H as [H|H]; [now left|right].
  apply filter_In in H as [_ H]. cbn [fst] in H. apply andb_true_iff in H as [_ H]. apply memZ_In in H.
  unfold awaited in H. apply in_flat_map in H as ([m e] & Im & H). cbn [fst snd] in H.
  destruct (0 <? m) eqn:Hm; [|destruct H]. apply Z.ltb_lt in Hm. destruct H as [H|[]].
  destruct (items_range s m e Hs (reach_items _ _ _ Im)) as (Rm & E0 & _).
  exists m, (Z.to_nat e). rewrite Z2Nat.id by exact E0. split; [exact Im|]. split; [lia|].
  assert (Ln : 0 < lhs n) by (destruct (rule_facts n ltac:(lia)) as (_ & _ & Q & _); exact Q).
  destruct (nth_error (rhs m) (Z.to_nat e)) as [X|] eqn:X1.
  - f_equal. apply (nth_error_nth _ _ 0) in X1. lia.
  - apply nth_error_None in X1. rewrite nth_overflow in H by exact X1. lia.
Qed.

Lemma stk_zero_inv l ws : stk (0 :: l) ws -> l = [] /\ ws = [].
Proof.
  intros K. inversion K as [|q s l' w ws' K' Q H]; subst; [auto|]. exfalso. eapply no_succ_zero; [|exact Q].
  exact (path_head_state _ _ (stk_path _ _ K')).
Qed.

Lemma skipn_nth {A} (l : list A) : forall d x, nth_error l d = Some x -> skipn d l = x :: skipn (S d) l.
Proof.
  induction l as [|y l IH]; intros [|d] x H; try discriminate H; cbn [nth_error] in H.
  - injection H as ->. reflexivity.
  - cbn [skipn]. rewrite (IH _ _ H). reflexivity.
Qed.

(** ** Completion *)

(** With phrases for the rest of an item, the item is complete: it was the module, or
    the stack can go on with its left side. *)
Lemma item_ends q l ws n d more : stk (q :: l) ws -> In (n, Z.of_nat d) (items q) -> 0 < n < 292 ->
  Forall2 has (skipn d (rhs n)) more ->
  is_module (concat (rev ws) ++ concat more) \/
  exists s base wb w, 1 < n /\ stk (s :: base) wb /\ In (n, 0) (items s) /\ has (- lhs n) w /\
    concat (rev ws) ++ concat more = concat (rev wb) ++ w /\ (length (s :: base) + d = length (q :: l))%nat /\
    (d = 0%nat -> s = q).
Proof.
  intros K I Hn F.
  destruct (stk_item d q l ws n K I) as (s & base & wa & wb & Kb & -> & I0 & Fa & Lb & D0).
  assert (Fn : Forall2 has (rhs n) (rev wa ++ more)).
  { rewrite <- (firstn_skipn d (rhs n)). now apply Forall2_app. }
  pose proof (path_head_state _ _ (stk_path _ _ Kb)) as Hs.
  destruct (rule_has n _ Hn Fn) as [(-> & M)|(N1 & M)].
  - destruct (items_range s 1 0 Hs I0) as (_ & _ & E & _). specialize (E eq_refl eq_refl). subst s.
    apply stk_zero_inv in Kb as [_ ->]. left. rewrite app_nil_r, <- concat_app. exact M.
  - right. exists s, base, wb, (concat (rev wa ++ more)). split; [lia|]. split; [exact Kb|]. split; [exact I0|].
    split; [exact M|]. split; [|split; assumption]. rewrite rev_app_distr, !concat_app, app_assoc. reflexivity.
Qed.

Lemma left_completes : forall len k s base wb n w, (length (s :: base) <= len)%nat -> stk (s :: base) wb ->
  1 < n < 292 -> In (n, 0) (reach k s) -> has (- lhs n) w ->
  exists ts', is_module (concat (rev wb) ++ w ++ ts').
Proof.
  induction len as [|len IHl]; [cbn; lia|]. induction k as [|k IHk]; intros s base wb n w Ln K Hn R H.
  - exfalso. cbn [reach] in R. apply filter_In in R as [_ R]. cbn [fst snd] in R.
    apply orb_true_iff in R as [R|R]; [discriminate R|apply Z.eqb_eq in R; lia].
  - pose proof (path_head_state _ _ (stk_path _ _ K)) as Hs.
    destruct (reach_parent k s n Hs Hn R) as [R'|(m & e & Im & Hm & Xe)]; [now apply (IHk s base wb n w)|].
    destruct (symbols_have m (S e) Hm) as (more & F).
    destruct (item_ends s base wb m e (w :: more) K (reach_items _ _ _ Im) Hm) as [M|(s' & base' & wb' & w' & M1 & K' & I' & H' & E' & L' & D')].
    + rewrite (skipn_nth _ _ _ Xe). constructor; assumption.
    + exists (concat more). exact M.
    + assert (G : exists ts', is_module (concat (rev wb') ++ w' ++ ts')).
      { destruct e as [|e].
        - specialize (D' eq_refl). subst s'. apply (IHk s base' wb' m w'); try assumption; [cbn [length] in *; lia|lia].
        - pose proof (path_head_state _ _ (stk_path _ _ K')) as Hs'.
          apply (IHl levels s' base' wb' m w'); try assumption; [cbn [length] in *; lia|lia|]. apply reach_all; try assumption. lia. }
      destruct G as (ts' & G). exists (concat more ++ ts'). rewrite app_assoc, <- E' in G. cbn [concat] in G.
      rewrite <- !app_assoc in G. exact G.
Qed.

Lemma live_items_check :
  forallb (fun s => (s =? 1) || existsb (fun nd => 0 <? fst nd) (items s)) states = true.
Proof. vm_compute. reflexivity. Qed.

(** The tokens of a stack are the beginning of a module. *)
Theorem stk_viable q l ws : stk (q :: l) ws -> q <> 1 -> exists ts', is_module (concat (rev ws) ++ ts').
Proof.
  intros K N. pose proof (path_head_state _ _ (stk_path _ _ K)) as Hq.
  pose proof (for_states _ live_items_check q Hq) as C. cbv beta in C. apply orb_true_iff in C as [C|C]; [apply Z.eqb_eq in C; contradiction|].
  apply existsb_exists in C as ([n d] & I & C). cbn [fst] in C. apply Z.ltb_lt in C.
  destruct (items_range q n d Hq I) as (Rn & D0 & _).
  destruct (symbols_have n (Z.to_nat d) ltac:(lia)) as (more & F).
  destruct (item_ends q l ws n (Z.to_nat d) more K) as [M|(s & base & wb & w & N1 & K' & I' & H & E & L' & _)].
  - rewrite Z2Nat.id; assumption.
  - lia.
  - exact F.
  - exists (concat more). exact M.
  - pose proof (path_head_state _ _ (stk_path _ _ K')) as Hs.
    destruct (left_completes _ levels s base wb n w (le_n _) K' ltac:(lia) (reach_all _ _ _ Hs I' ltac:(lia)) H) as (ts' & M).
    exists (concat more ++ ts'). rewrite app_assoc, <- E, <- app_assoc in M. exact M.
Qed.
