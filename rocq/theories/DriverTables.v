(** Facts about the tables of y.go, checked by computation against the automaton
    of [Automaton]. *)
From Coq Require Import ZArith String List Bool Lia.
From Verif Require Import GoBase Tokens Tables Ast Actions Lexer Driver Grammar Automaton.
Import ListNotations.
Local Open Scope Z_scope.

(** ** Tables as total functions *)

Definition zn (l : list Z) (i : Z) : Z := nth (Z.to_nat i) l 0.

Definition is_state (s : Z) : Prop := 0 <= s < 432.
Definition is_token (t : Z) : Prop := 1 <= t <= 128.

Definition states : list Z := map Z.of_nat (seq 0 432).
Definition toks : list Z := map Z.of_nat (seq 1 128).

Definition items (s : Z) : list (Z * Z) := nth (Z.to_nat s) state_items [].
Definition succs (s : Z) : list Z := nth (Z.to_nat s) state_succs [].
Definition acc (s : Z) : Z := zn yyChk s.
Definition lhs (n : Z) : Z := fst (nth (Z.to_nat n) prods (0, [])).
Definition rhs (n : Z) : list Z := snd (nth (Z.to_nat n) prods (0, [])).
Definition gw (s : Z) : Z := zn weight_entry s.
Definition hw (s : Z) : Z := zn weight_top s.

(** The state entered by shifting [t] in [s]. *)
Definition shift (s t : Z) : option Z :=
  let n := zn yyPact s in
  if n <=? yyFlag then None
  else let i := n + t in
       if (i <? 0) || (i >=? yyLast) then None
       else let a := zn yyAct i in
            if zn yyChk a =? t then Some a else None.

(** The default action of [s] before [t]: minus one is accept, zero an error. *)
Definition exca (s t : Z) : Z :=
  match exca_find (length yyExca) 0 s with
  | Ok i => match exca_lookup (length yyExca) (i + 2) t with Ok n => n | _ => 0 end
  | _ => 0
  end.
Definition deflt (s t : Z) : Z :=
  let n := zn yyDef s in if n =? -2 then exca s t else n.

(** The state entered after a reduction to nonterminal [l]. *)
Definition goto (s l : Z) : Z :=
  let g := zn yyPgo l in
  let j := g + s + 1 in
  if j >=? yyLast then zn yyAct g
  else let a := zn yyAct j in if zn yyChk a =? - l then a else zn yyAct g.

Definition memZ (x : Z) (l : list Z) : bool := existsb (Z.eqb x) l.
Definition mem2 (x : Z * Z) (l : list (Z * Z)) : bool :=
  existsb (fun y => (fst x =? fst y) && (snd x =? snd y)) l.

Lemma memZ_In x l : memZ x l = true <-> In x l.
Proof.
  unfold memZ. rewrite existsb_exists. split.
  - intros (y & H & E). apply Z.eqb_eq in E. now subst.
  - intros H. exists x. split; [assumption|apply Z.eqb_refl].
Qed.

Lemma mem2_In x l : mem2 x l = true <-> In x l.
Proof.
  unfold mem2. rewrite existsb_exists. split.
  - intros ((a & b) & H & E). destruct x as (c & d). cbn in E.
    apply andb_prop in E as [A B]. apply Z.eqb_eq in A. apply Z.eqb_eq in B. now subst.
  - intros H. exists x. split; [assumption|]. now rewrite !Z.eqb_refl.
Qed.

Lemma in_states s : In s states <-> is_state s.
Proof.
  unfold states, is_state. rewrite in_map_iff. split.
  - intros (k & <- & H). apply in_seq in H. lia.
  - intros H. exists (Z.to_nat s). split; [lia|]. apply in_seq. lia.
Qed.

Lemma in_toks t : In t toks <-> is_token t.
Proof.
  unfold toks, is_token. rewrite in_map_iff. split.
  - intros (k & <- & H). apply in_seq in H. lia.
  - intros H. exists (Z.to_nat t). split; [lia|]. apply in_seq. lia.
Qed.

Lemma for_states (f : Z -> bool) :
  forallb f states = true -> forall s, is_state s -> f s = true.
Proof. intros H s Hs. rewrite forallb_forall in H. apply H. now apply in_states. Qed.

Lemma for_states_toks (f : Z -> Z -> bool) :
  forallb (fun s => forallb (f s) toks) states = true ->
  forall s t, is_state s -> is_token t -> f s t = true.
Proof.
  intros H s t Hs Ht. apply (for_states _ H) in Hs. rewrite forallb_forall in Hs.
  apply Hs. now apply in_toks.
Qed.

Definition state_b (s : Z) : bool := (0 <=? s) && (s <? 432).
Lemma state_b_iff s : state_b s = true <-> is_state s.
Proof. unfold state_b, is_state. rewrite andb_true_iff, Z.leb_le, Z.ltb_lt. tauto. Qed.

Lemma tab_zn l i : 0 <= i < Z.of_nat (length l) -> tab l i = Some (zn l i).
Proof.
  intros H. unfold tab, zn. destruct (i <? 0) eqn:E; [apply Z.ltb_lt in E; lia|].
  apply nth_error_nth'. lia.
Qed.

(** ** Checks *)

Lemma len_tables :
  length yyPact = 432%nat /\ length yyDef = 432%nat /\ length yyChk = 432%nat
  /\ length yyAct = 912%nat /\ length yyR1 = 292%nat /\ length yyR2 = 292%nat
  /\ length prods = 292%nat.
Proof. repeat split; reflexivity. Qed.

Lemma act_states_check : forallb state_b yyAct = true.
Proof. vm_compute. reflexivity. Qed.

Lemma act_state i : 0 <= i < 912 -> is_state (zn yyAct i).
Proof.
  intros H. apply state_b_iff. pose proof act_states_check as C. rewrite forallb_forall in C.
  apply C. unfold zn. apply nth_In. change (length yyAct) with 912%nat. lia.
Qed.

(** Shifts follow the automaton; the shifted token is the accessing symbol. *)
Lemma shift_check :
  forallb (fun s => forallb (fun t =>
     match shift s t with
     | None => true
     | Some q => memZ q (succs s) && (acc q =? t)
     end) toks) states = true.
Proof. vm_compute. reflexivity. Qed.

Lemma shift_edge s t q : is_state s -> is_token t -> shift s t = Some q ->
  In q (succs s) /\ acc q = t /\ is_state q.
Proof.
  intros Hs Ht E. pose proof (for_states_toks _ shift_check s t Hs Ht) as C. cbv beta in C.
  rewrite E in C. apply andb_prop in C as [A B]. apply memZ_In in A. apply Z.eqb_eq in B.
  repeat split; try assumption; unfold shift in E;
  destruct (zn yyPact s <=? yyFlag); try discriminate;
  destruct ((zn yyPact s + t <? 0) || (zn yyPact s + t >=? yyLast)) eqn:R; try discriminate;
  destruct (zn yyChk (zn yyAct (zn yyPact s + t)) =? t); try discriminate;
  injection E as <-; apply orb_false_elim in R as [R1 R2]; apply Z.ltb_ge in R1;
  rewrite Z.geb_leb in R2; apply Z.leb_gt in R2; apply act_state; unfold yyLast in R2; lia.
Qed.

(** The end marker is never shifted, nor the error tokens. *)
Lemma shift_special_check :
  forallb (fun s => forallb (fun t => match shift s t with None => true | _ => false end) [1; 2; 3]) states
  = true.
Proof. vm_compute. reflexivity. Qed.

Lemma shift_special s t : is_state s -> t = 1 \/ t = 2 \/ t = 3 -> shift s t = None.
Proof.
  intros Hs Ht. pose proof (for_states _ shift_special_check s Hs) as C. cbv beta in C.
  rewrite forallb_forall in C. specialize (C t). destruct (shift s t); [|reflexivity].
  assert (H : In t [1;2;3]) by (destruct Ht as [->|[->| ->]]; cbn; auto). now apply C in H.
Qed.

(** Default actions: accept only in state 1 on the end marker, otherwise an error
    or a reduction by a production whose item is complete. *)
Definition red_ok (s n : Z) : bool :=
  (0 <? n) && (n <? 292) && mem2 (n, Z.of_nat (length (rhs n))) (items s).

Lemma deflt_check :
  forallb (fun s => forallb (fun t =>
    let n := deflt s t in
    (n =? 0) || red_ok s n || ((n =? -1) && (s =? 1) && (t =? 1))) toks) states = true.
Proof. vm_compute. reflexivity. Qed.

Lemma deflt_cases s t : is_state s -> is_token t ->
  deflt s t = 0 \/ red_ok s (deflt s t) = true \/ (deflt s t = -1 /\ s = 1 /\ t = 1).
Proof.
  intros Hs Ht. pose proof (for_states_toks _ deflt_check s t Hs Ht) as C. cbv beta zeta in C.
  apply orb_prop in C as [C|C]; [apply orb_prop in C as [C|C]|].
  - left. now apply Z.eqb_eq.
  - right. now left.
  - right. right. apply andb_prop in C as [C A]. apply andb_prop in C as [C B].
    apply Z.eqb_eq in A. apply Z.eqb_eq in B. apply Z.eqb_eq in C. tauto.
Qed.

Lemma red_ok_spec s n : red_ok s n = true ->
  0 < n < 292 /\ In (n, Z.of_nat (length (rhs n))) (items s).
Proof.
  unfold red_ok. intros C. apply andb_prop in C as [C A]. apply andb_prop in C as [C B].
  apply Z.ltb_lt in B. apply Z.ltb_lt in C. apply mem2_In in A. tauto.
Qed.

(** The exception table can be searched. *)
Lemma exca_check :
  forallb (fun s =>
    if zn yyDef s =? -2 then
      match exca_find (length yyExca) 0 s with
      | Ok i => forallb (fun t => match exca_lookup (length yyExca) (i + 2) t with Ok _ => true | _ => false end) toks
      | _ => false
      end
    else true) states = true.
Proof. vm_compute. reflexivity. Qed.

Lemma exca_eval s t : is_state s -> is_token t -> zn yyDef s = -2 ->
  exists i, exca_find (length yyExca) 0 s = Ok i
            /\ exca_lookup (length yyExca) (i + 2) t = Ok (deflt s t).
Proof.
  intros Hs Ht E. pose proof (for_states _ exca_check s Hs) as C. cbv beta in C.
  unfold deflt. rewrite E in *. change (-2 =? -2) with true in *. cbv iota in *. unfold exca.
  destruct (exca_find (length yyExca) 0 s) as [i| |]; try discriminate.
  exists i. split; [reflexivity|]. rewrite forallb_forall in C.
  specialize (C t (proj2 (in_toks t) Ht)).
  now destruct (exca_lookup (length yyExca) (i + 2) t).
Qed.

(** Items and successors. *)
Definition item_back (s q n d : Z) : bool :=
  if d =? 0 then true
  else (nth (Z.to_nat (d - 1)) (rhs n) 0 =? acc q) && mem2 (n, d - 1) (items s)
       && (d <=? Z.of_nat (length (rhs n))) && (0 <? d).

Lemma back_check :
  forallb (fun s => forallb (fun q =>
     forallb (fun nd => item_back s q (fst nd) (snd nd)) (items q)) (succs s)) states = true.
Proof. vm_compute. reflexivity. Qed.

Lemma succs_states_check : forallb (fun s => forallb state_b (succs s)) states = true.
Proof. vm_compute. reflexivity. Qed.

Lemma succ_state s q : is_state s -> In q (succs s) -> is_state q.
Proof.
  intros Hs Hq. pose proof (for_states _ succs_states_check s Hs) as C. cbv beta in C.
  rewrite forallb_forall in C. apply state_b_iff. now apply C.
Qed.

Lemma item_pred s q n d : is_state s -> In q (succs s) -> In (n, d) (items q) -> d <> 0 ->
  nth (Z.to_nat (d - 1)) (rhs n) 0 = acc q /\ In (n, d - 1) (items s)
  /\ 0 < d <= Z.of_nat (length (rhs n)).
Proof.
  intros Hs Hq Hi Hd. pose proof (for_states _ back_check s Hs) as C. cbv beta in C.
  rewrite forallb_forall in C. apply C in Hq. rewrite forallb_forall in Hq. apply Hq in Hi.
  cbn [fst snd] in Hi. unfold item_back in Hi. destruct (d =? 0) eqn:E; [apply Z.eqb_eq in E; lia|].
  apply andb_prop in Hi as [Hi A]. apply andb_prop in Hi as [Hi B]. apply andb_prop in Hi as [D F].
  apply Z.eqb_eq in D. apply mem2_In in F. apply Z.leb_le in B. apply Z.ltb_lt in A. tauto.
Qed.

(** The initial state has only items with the dot at the start. *)
Lemma items_zero_check : forallb (fun nd => snd nd =? 0) (items 0) = true.
Proof. vm_compute. reflexivity. Qed.

Lemma items_zero n d : In (n, d) (items 0) -> d = 0.
Proof.
  intros H. pose proof items_zero_check as C. rewrite forallb_forall in C. apply C in H.
  now apply Z.eqb_eq in H.
Qed.

(** Gotos. *)
Lemma goto_check :
  forallb (fun s => forallb (fun nd =>
     if (snd nd =? 0) && (0 <? fst nd) then
       let q := goto s (lhs (fst nd)) in
       memZ q (succs s) && (acc q =? - lhs (fst nd))
       && (0 <=? zn yyPgo (lhs (fst nd)) + s + 1) && (0 <=? zn yyPgo (lhs (fst nd)))
       && (zn yyPgo (lhs (fst nd)) <? yyLast)
     else true) (items s)) states = true.
Proof. vm_compute. reflexivity. Qed.

Lemma goto_edge s n : is_state s -> In (n, 0) (items s) -> 0 < n ->
  In (goto s (lhs n)) (succs s) /\ acc (goto s (lhs n)) = - lhs n
  /\ 0 <= zn yyPgo (lhs n) + s + 1 /\ 0 <= zn yyPgo (lhs n) < yyLast.
Proof.
  intros Hs Hi Hn. pose proof (for_states _ goto_check s Hs) as C. cbv beta in C.
  rewrite forallb_forall in C. apply C in Hi. cbn [fst snd] in Hi.
  assert (Hp : (0 =? 0) && (0 <? n) = true) by (rewrite (proj2 (Z.ltb_lt _ _) Hn); reflexivity).
  rewrite Hp in Hi. cbv zeta in Hi.
  apply andb_prop in Hi as [Hi A]. apply andb_prop in Hi as [Hi B]. apply andb_prop in Hi as [Hi D].
  apply andb_prop in Hi as [Hi F]. apply memZ_In in Hi. apply Z.eqb_eq in F.
  apply Z.leb_le in D. apply Z.leb_le in B. apply Z.ltb_lt in A. tauto.
Qed.

(** yyR1 and yyR2 describe the productions. *)
Definition rules : list Z := map Z.of_nat (seq 1 291).
Lemma in_rules n : In n rules <-> 0 < n < 292.
Proof.
  unfold rules. rewrite in_map_iff. split.
  - intros (k & <- & H). apply in_seq in H. lia.
  - intros H. exists (Z.to_nat n). split; [lia|]. apply in_seq. lia.
Qed.

Lemma rules_check :
  forallb (fun n =>
    (zn yyR1 n =? lhs n) && (zn yyR2 n =? Z.of_nat (length (rhs n)))
    && (0 <? lhs n) && (lhs n <? Z.of_nat (length yyPgo))
    && (match nth_error nonterms (Z.to_nat (lhs n)) with Some (Some _) => true | _ => false end))
    rules = true.
Proof. vm_compute. reflexivity. Qed.

Lemma rule_facts n : 0 < n < 292 ->
  zn yyR1 n = lhs n /\ zn yyR2 n = Z.of_nat (length (rhs n))
  /\ 0 < lhs n < Z.of_nat (length yyPgo).
Proof.
  intros H. pose proof rules_check as C. rewrite forallb_forall in C.
  specialize (C n (proj2 (in_rules n) H)). cbv beta in C.
  apply andb_prop in C as [C _]. apply andb_prop in C as [C A]. apply andb_prop in C as [C B].
  apply andb_prop in C as [D E]. apply Z.eqb_eq in D. apply Z.eqb_eq in E.
  apply Z.ltb_lt in A. apply Z.ltb_lt in B. tauto.
Qed.

(** Accessing symbols: only state 0 has none; symbols are tokens that are shifted
    or nonterminals. *)
Lemma goto_state s n : is_state s -> In (n, 0) (items s) -> 0 < n -> is_state (goto s (lhs n)).
Proof. intros Hs Hi Hn. eapply succ_state; [exact Hs|]. now apply goto_edge. Qed.

(** State 1 is entered from state 0 only, by the goto of rule 1. *)
Lemma state_one_check :
  forallb (fun s => negb (memZ 1 (succs s)) || (s =? 0)) states = true
  /\ acc 1 = - lhs 1
  /\ forallb (fun n => negb (lhs n =? lhs 1) || (n =? 1)) rules = true
  /\ forallb (fun s => negb (memZ 0 (succs s))) states = true
  /\ forallb (fun s => negb (acc s =? acc 1) || (s =? 1)) states = true.
Proof. vm_compute. repeat split. Qed.

Lemma state_one_pred s : is_state s -> In 1 (succs s) -> s = 0.
Proof.
  intros Hs H. destruct state_one_check as (C & _). apply (for_states _ C) in Hs. cbv beta in Hs. clear C.
  apply memZ_In in H. rewrite H in Hs. now apply Z.eqb_eq in Hs.
Qed.

Lemma no_succ_zero s : is_state s -> ~ In 0 (succs s).
Proof.
  intros Hs H. destruct state_one_check as (_ & _ & _ & C & _). apply (for_states _ C) in Hs. cbv beta in Hs. clear C.
  apply memZ_In in H. rewrite H in Hs; discriminate Hs.
Qed.

Lemma lhs_one n : 0 < n < 292 -> lhs n = lhs 1 -> n = 1.
Proof.
  intros H E. destruct state_one_check as (_ & _ & C & _). rewrite forallb_forall in C.
  specialize (C n (proj2 (in_rules n) H)). cbv beta in C. rewrite E, Z.eqb_refl in C.
  now apply Z.eqb_eq in C.
Qed.

Lemma acc_one s : is_state s -> acc s = acc 1 -> s = 1.
Proof.
  intros Hs E. destruct state_one_check as (_ & _ & _ & _ & C). apply (for_states _ C) in Hs. cbv beta in Hs. clear C.
  rewrite E, Z.eqb_refl in Hs. now apply Z.eqb_eq in Hs.
Qed.

(** Successors of a state have different accessing symbols. *)
Fixpoint nodupZ (l : list Z) : bool :=
  match l with [] => true | x :: l' => negb (memZ x l') && nodupZ l' end.

Lemma succs_det_check : forallb (fun s => nodupZ (map acc (succs s))) states = true.
Proof. vm_compute. reflexivity. Qed.

Lemma nodupZ_inj (f : Z -> Z) l : nodupZ (map f l) = true ->
  forall x y, In x l -> In y l -> f x = f y -> x = y.
Proof.
  induction l as [|a l IH]; [easy|]. cbn. intros H x y Hx Hy E.
  apply andb_prop in H as [A B].
  assert (N : forall z, In z l -> f z <> f a).
  { intros z Hz Ez. apply negb_true_iff in A. assert (M : memZ (f a) (map f l) = true).
    { apply memZ_In. rewrite <- Ez. now apply in_map. } congruence. }
  destruct Hx as [<-|Hx], Hy as [<-|Hy]; auto.
  - symmetry in E. now apply N in E.
  - now apply N in E.
Qed.

Lemma succs_det s x y : is_state s -> In x (succs s) -> In y (succs s) -> acc x = acc y -> x = y.
Proof. intros Hs. apply nodupZ_inj. now apply (for_states _ succs_det_check). Qed.

(** ** Weights *)

(** The states entered from [s] along the symbols [l], first one first. *)
Fixpoint follow (s : Z) (l : list Z) : list Z :=
  match l with
  | [] => []
  | X :: l' =>
      match find (fun q => acc q =? X) (succs s) with
      | Some q => q :: follow q l'
      | None => []
      end
  end.

Definition sum_gw (l : list Z) : Z := fold_right (fun s z => gw s + z) 0 l.

Definition weight_ok (s : Z) (nd : Z * Z) : bool :=
  let n := fst nd in
  if (snd nd =? 0) && (0 <? n) then
    let path := follow s (rhs n) in
    let top := last path s in
    let q := goto s (lhs n) in
    negb (existsb (fun t => deflt top t =? n) toks)
    || (gw q + hw q <? sum_gw path + hw top)
  else true.

Lemma weight_check : forallb (fun s => forallb (weight_ok s) (items s)) states = true.
Proof. vm_compute. reflexivity. Qed.

Lemma weight_range_check :
  forallb (fun s => (1 <=? gw s) && (gw s <=? 20) && (0 <=? hw s) && (hw s <=? 17)) states = true.
Proof. vm_compute. reflexivity. Qed.

Lemma weight_range s : is_state s -> 1 <= gw s <= 20 /\ 0 <= hw s <= 17.
Proof.
  intros Hs. pose proof (for_states _ weight_range_check s Hs) as C. cbv beta in C.
  apply andb_prop in C as [C A]. apply andb_prop in C as [C B]. apply andb_prop in C as [C D].
  apply Z.leb_le in A. apply Z.leb_le in B. apply Z.leb_le in C. apply Z.leb_le in D. lia.
Qed.

(** ** The error branch *)

(** The error token is never shifted. *)
Lemma error_check :
  forallb (fun s =>
    let n := zn yyPact s + yyErrCode in
    if (0 <=? n) && (n <? yyLast) then negb (zn yyChk (zn yyAct n) =? yyErrCode) else true) states
  = true.
Proof. vm_compute. reflexivity. Qed.

Definition is_ok {A} (r : res A) : bool := match r with Ok _ => true | _ => false end.

Lemma message_check : forallb (fun s => is_ok (yyErrorMessage s 1)) states = true.
Proof. vm_compute. reflexivity. Qed.

Definition message_body (msg : string) (r1 : res Z) (f : Z -> res (option (list Z))) (r2 r3 : res Z)
    (e : Z -> list Z -> res (option (Z * list Z))) (g : Z -> res Z) : res string :=
  do base <- r1;
  do shifts <- f base;
  match shifts with
  | None => Ok msg
  | Some expected =>
      do def <- r2;
      if def =? -2 then
        do i <- r3;
        do more <- e (i + 2) expected;
        match more with
        | None => Ok msg
        | Some (j, expected') =>
            do d <- g (j + 1);
            if d =? 0 then Ok (msg ++ expecting_text true expected')%string else Ok msg
        end
      else Ok (msg ++ expecting_text true expected)%string
  end.

Lemma message_any m1 m2 r1 f r2 r3 e g :
  is_ok (message_body m1 r1 f r2 r3 e g) = true -> exists m, message_body m2 r1 f r2 r3 e g = Ok m.
Proof.
  intros C. unfold message_body in *.
  destruct r1 as [b| |]; try discriminate C. cbn [rbind] in *.
  destruct (f b) as [o| |]; try discriminate C. cbn [rbind] in *.
  destruct o as [l|]; [|eexists; reflexivity].
  destruct r2 as [d| |]; try discriminate C. cbn [rbind] in *.
  destruct (d =? -2); [|eexists; reflexivity].
  destruct r3 as [i| |]; try discriminate C. cbn [rbind] in *.
  destruct (e (i + 2) l) as [o| |]; try discriminate C. cbn [rbind] in *.
  destruct o as [(j & l')|]; [|eexists; reflexivity].
  destruct (g (j + 1)) as [d'| |]; try discriminate C. cbn [rbind] in *.
  destruct (d' =? 0); eexists; reflexivity.
Qed.

Lemma message_split s t :
  yyErrorMessage s t =
  message_body ("syntax error: unexpected " ++ yyTokname t)%string (rtab (tab yyPact s))
    (fun b => expected_shifts b candidate_tokens []) (rtab (tab yyDef s))
    (exca_find (length yyExca) 0 s) (expected_exca (length yyExca)) (fun j => rtab (tab yyExca j)).
Proof. reflexivity. Qed.

Lemma message_ok s t : is_state s -> exists m, yyErrorMessage s t = Ok m.
Proof.
  intros Hs. pose proof (for_states _ message_check s Hs) as C. cbv beta in C.
  rewrite message_split in *. exact (message_any _ _ _ _ _ _ _ _ C).
Qed.

(** ** Character codes *)

(** The codes with an internal number of their own are 57346 .. 57470 and the end
    of the input. *)
Lemma translate_ok c : exists t, yytranslate c = Ok t /\ is_token t.
Proof.
  unfold yytranslate. destruct (c <=? 0) eqn:E1.
  { exists 1. split; [reflexivity|]. unfold is_token. lia. }
  apply Z.leb_gt in E1.
  destruct (c <? Z.of_nat (length yyTok1)) eqn:E2.
  { apply Z.ltb_lt in E2. cbn in E2. lia. }
  destruct ((yyPrivate <=? c) && (c <? yyPrivate + Z.of_nat (length yyTok2))) eqn:E3.
  - apply andb_prop in E3 as [A B]. apply Z.leb_le in A. apply Z.ltb_lt in B.
    unfold yyPrivate in *. change (length yyTok2) with 127%nat in B.
    rewrite tab_zn by (change (length yyTok2) with 127%nat; lia). cbn [rtab rbind].
    assert (H : zn yyTok2 (c - 57344) = c - 57342).
    { assert (Q : forallb (fun k => zn yyTok2 (Z.of_nat k) =? Z.of_nat k + 2) (seq 0 127) = true)
        by (vm_compute; reflexivity).
      rewrite forallb_forall in Q. specialize (Q (Z.to_nat (c - 57344))).
      rewrite Z.eqb_eq, in_seq in Q. rewrite Z2Nat.id in Q by lia. rewrite Q by lia. lia. }
    rewrite H. destruct (c - 57342 =? 0) eqn:E4; [apply Z.eqb_eq in E4; lia|].
    eexists. split; [reflexivity|]. unfold is_token. lia.
  - exists 3. split; [reflexivity|]. unfold is_token. lia.
Qed.

(** The internal number of a character code. *)
Lemma translate_val c t : yytranslate c = Ok t ->
  (c <= 0 /\ t = 1) \/ (57344 <= c < 57471 /\ t = c - 57342) \/ (0 < c /\ t = 3).
Proof.
  unfold yytranslate. destruct (c <=? 0) eqn:E1.
  { apply Z.leb_le in E1. cbn. intros H. injection H as <-. left. lia. }
  apply Z.leb_gt in E1.
  destruct (c <? Z.of_nat (length yyTok1)) eqn:E2.
  { apply Z.ltb_lt in E2. cbn in E2. lia. }
  destruct ((yyPrivate <=? c) && (c <? yyPrivate + Z.of_nat (length yyTok2))) eqn:E3.
  - apply andb_prop in E3 as [A B]. apply Z.leb_le in A. apply Z.ltb_lt in B.
    unfold yyPrivate in *. change (length yyTok2) with 127%nat in B.
    rewrite tab_zn by (change (length yyTok2) with 127%nat; lia). cbn [rtab rbind].
    assert (H : zn yyTok2 (c - 57344) = c - 57342).
    { assert (Q : forallb (fun k => zn yyTok2 (Z.of_nat k) =? Z.of_nat k + 2) (seq 0 127) = true)
        by (vm_compute; reflexivity).
      rewrite forallb_forall in Q. specialize (Q (Z.to_nat (c - 57344))).
      rewrite Z.eqb_eq, in_seq in Q. rewrite Z2Nat.id in Q by lia. rewrite Q by lia. lia. }
    rewrite H. destruct (c - 57342 =? 0) eqn:E4; [apply Z.eqb_eq in E4; lia|].
    intros R. injection R as <-. right. left. lia.
  - cbn. intros R. injection R as <-. right. right. lia.
Qed.
