(** Tables for [ExactRun], checked against those of y.go: the tokens before which a
    reduction can be followed by a shift. *)
From Coq Require Import ZArith String List Bool Lia.
From Verif Require Import GoBase Tokens Tables Ast Actions Lexer Driver Grammar Automaton DriverTables
  DriverFacts DriverRun ActionSound GrammarFacts DriverSound Conflicts Lookahead LookTables Complete.
Import ListNotations.
Local Open Scope Z_scope.

(** ** Tables *)

Definition hopeless (q : Z) : N := tset (nth (Z.to_nat q) hopeless_sets 0%nat).
Definition entry (q : Z) : N := tset (nth (Z.to_nat q) entry_sets 0%nat).

(** State [q] can be on top when [t] is next. *)
Definition enters (q t : Z) : bool := (q =? 0) || (0 <? acc q) || in_set t (entry q).

(** The rules (see [place]) that a phrase for [X] above state [s] can be part of. *)
Definition ups (s X : Z) : list Z :=
  map fst (filter (fun nd => (0 <=? snd nd) && match nth_error (rhs (fst nd)) (Z.to_nat (snd nd)) with
                             | Some Y => X =? Y | None => false end) (items s))
  ++ (if mem2 (187, 1) (items s) && mem2 (190, 0) (items s) && (X =? -27) then [292] else []).

Lemma hopeless_check : forallb (fun q => forallb (fun t =>
  negb (in_set t (hopeless q))
  || match shift q t with Some _ => false | None => 0 <=? deflt q t end) toks) states = true.
Proof. vm_cast_no_check (eq_refl true). Qed.

(** A reduction by [n] above [s], ending in state [q] and going to [g]. *)
Definition reduce_ok (n q g : Z) (hq hg eq_ eg : N) (us : list Z) (t : Z) : bool :=
  match shift q t with
  | Some _ => true
  | None =>
      if deflt q t =? n then
        if in_set t hq then in_set t hg
        else if (q =? 0) || (0 <? acc q) || in_set t eq_ then
          in_set t hg
          || (in_set t eg && negb (lost n (t + 57342))
              && forallb (fun up => negb (shadowed up n) || ((up =? 292) && (t + 57342 =? T_CLOSE_CURLY))) us)
        else true
      else true
  end.

Definition reductions_ok (s n : Z) : bool :=
  let q := last (follow s (rhs n)) s in
  let g := goto s (lhs n) in
  let hq := hopeless q in let hg := hopeless g in
  let eq_ := entry q in let eg := entry g in
  let us := ups s (- lhs n) in
  forallb (fun t => reduce_ok n q g hq hg eq_ eg us t) toks.

Lemma reduce_check : forallb (fun s => forallb (fun nd =>
  negb ((snd nd =? 0) && (0 <? fst nd)) || reductions_ok s (fst nd)) (items s)) states = true.
Proof. vm_cast_no_check (eq_refl true). Qed.

(** Items move on with the symbol after the dot. *)
Lemma forward_check : forallb (fun s => forallb (fun nd =>
  (fst nd =? 0) || negb (0 <=? snd nd) ||
  match nth_error (rhs (fst nd)) (Z.to_nat (snd nd)) with
  | None => true
  | Some X => match find (fun q => acc q =? X) (succs s) with
              | Some q => mem2 (fst nd, snd nd + 1) (items q)
              | None => false
              end
  end) (items s)) states = true.
Proof. vm_cast_no_check (eq_refl true). Qed.

Lemma reductions s n t : is_state s -> In (n, 0) (items s) -> 0 < n -> is_token t ->
  let q := last (follow s (rhs n)) s in
  let g := goto s (lhs n) in
  shift q t = None -> deflt q t = n ->
  (in_set t (hopeless q) = true -> in_set t (hopeless g) = true)
  /\ (in_set t (hopeless q) = false -> enters q t = true ->
      in_set t (hopeless g) = true
      \/ (in_set t (entry g) = true /\ lost n (t + 57342) = false
          /\ forall up, In up (ups s (- lhs n)) -> shadowed up n = true -> up = 292 /\ t + 57342 = T_CLOSE_CURLY)).
Proof.
  intros Hs Hi Hn Ht q g Sh Df. pose proof (for_states _ reduce_check s Hs) as C. cbv beta in C.
  rewrite forallb_forall in C. specialize (C (n, 0) Hi). cbn [fst snd] in C.
  assert (P : (0 =? 0) && (0 <? n) = true) by (apply Z.ltb_lt in Hn; rewrite Hn; reflexivity).
  rewrite P in C. cbn [negb orb] in C. unfold reductions_ok in C. cbv zeta in C. rewrite forallb_forall in C.
  specialize (C t (proj2 (in_toks t) Ht)). fold q in C. fold g in C.
  unfold reduce_ok in C. rewrite Sh, Df, Z.eqb_refl in C. split.
  - intros H. now rewrite H in C.
  - intros H E. rewrite H in C. unfold enters in E. rewrite E in C. apply orb_prop in C as [C|C]; [now left|right].
    apply andb_prop in C as [C F]. apply andb_prop in C as [A B]. split; [exact A|].
    split; [now apply negb_true_iff in B|]. intros up Hu Su. rewrite forallb_forall in F.
    specialize (F up Hu). cbv beta in F. rewrite Su in F. cbn [negb orb] in F. apply andb_prop in F as [F G].
    apply Z.eqb_eq in F, G. auto.
Qed.

Lemma hopeless_spec q t : is_state q -> is_token t -> in_set t (hopeless q) = true ->
  shift q t = None /\ 0 <= deflt q t.
Proof.
  intros Hq Ht H. pose proof (for_states_toks _ hopeless_check q t Hq Ht) as C. cbv beta in C.
  rewrite H in C. cbn [negb orb] in C. destruct (shift q t); [discriminate C|]. split; [reflexivity|].
  now apply Z.leb_le.
Qed.

Lemma forward s q n d X : is_state s -> In (n, Z.of_nat d) (items s) -> n <> 0 ->
  nth_error (rhs n) d = Some X -> In q (succs s) -> acc q = X -> In (n, Z.of_nat (S d)) (items q).
Proof.
  intros Hs Hi Hn E Hq A. pose proof (for_states _ forward_check s Hs) as C. cbv beta in C.
  rewrite forallb_forall in C. specialize (C _ Hi). cbn [fst snd] in C. rewrite Nat2Z.id, E in C.
  assert (N0 : (n =? 0) = false) by now apply Z.eqb_neq. rewrite N0 in C.
  assert (D0 : (0 <=? Z.of_nat d) = true) by (apply Z.leb_le; lia). rewrite D0 in C. cbn [negb orb] in C.
  destruct (find (fun q => acc q =? X) (succs s)) as [q'|] eqn:F; [|discriminate C].
  apply find_some in F as [I A']. apply Z.eqb_eq in A'.
  assert (q' = q) by (apply (succs_det s); congruence). subst q'.
  apply mem2_In in C. replace (Z.of_nat (S d)) with (Z.of_nat d + 1) by lia. exact C.
Qed.

Lemma ups_item s n d X : In (n, Z.of_nat d) (items s) -> nth_error (rhs n) d = Some X -> In n (ups s X).
Proof.
  intros Hi E. unfold ups. apply in_or_app. left. apply in_map_iff. exists (n, Z.of_nat d). split; [reflexivity|].
  apply filter_In. split; [exact Hi|]. cbn [fst snd]. rewrite Nat2Z.id, E, Z.eqb_refl.
  assert (D0 : (0 <=? Z.of_nat d) = true) by (apply Z.leb_le; lia). now rewrite D0.
Qed.

Lemma ups_top s : In (187, 1) (items s) -> In (190, 0) (items s) -> In 292 (ups s (-27)).
Proof.
  intros A B. unfold ups. apply in_or_app. right. apply mem2_In in A, B. rewrite A, B. now left.
Qed.

Lemma list_first_check :
  rhs 190 = [-27; -28] /\ rhs 187 = [26; -28; 27] /\ lhs 190 = 28 /\ with_lhs 28 = [189; 190]
  /\ forallb (fun n => negb (empty_ok n) && negb (in_set 27 (first_of n))) [189; 190] = true.
Proof. vm_compute. repeat split. Qed.

Lemma item_range_check : forallb (fun s => forallb (fun nd => (0 <=? fst nd) && (fst nd <? 292) && (0 <=? snd nd)) (items s)) states = true.
Proof. vm_cast_no_check (eq_refl true). Qed.

Lemma item_range s n d : is_state s -> In (n, d) (items s) -> 0 <= n < 292 /\ 0 <= d.
Proof.
  intros Hs Hi. pose proof (for_states _ item_range_check s Hs) as C. cbv beta in C. rewrite forallb_forall in C.
  specialize (C _ Hi). cbn [fst snd] in C. apply andb_prop in C as [C A]. apply andb_prop in C as [C B].
  apply Z.leb_le in C, A. apply Z.ltb_lt in B. lia.
Qed.

(** Rule 187 above a list of components. *)
Lemma ups_list s : is_state s -> In 187 (ups s (-28)) -> In (187, 1) (items s).
Proof.
  intros Hs H. unfold ups in H. apply in_app_or in H as [H|H].
  - apply in_map_iff in H as ((n & d) & E & F). cbn [fst] in E. subst n. apply filter_In in F as [I F].
    destruct (item_range _ _ _ Hs I) as [_ D]. cbn [fst snd] in F. apply andb_prop in F as [_ F].
    destruct list_first_check as (_ & R & _). rewrite R in F.
    destruct (Z.to_nat d) as [|[|[|k]]] eqn:K; cbn in F; try discriminate F.
    + assert (d = 1) by lia. now subst d.
    + destruct k; discriminate F.
  - exfalso. destruct (mem2 (187, 1) (items s) && mem2 (190, 0) (items s) && (-28 =? -27)); [|destruct H].
    destruct H as [H|[]]. lia.
Qed.
