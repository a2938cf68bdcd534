(** The lookahead tables of [Lookahead], checked against the tables of y.go. *)
From Coq Require Import ZArith String List Bool Lia.
From Verif Require Import GoBase Tokens Tables Ast Actions Lexer Driver Grammar Automaton DriverTables
  DriverFacts Conflicts Lookahead.
Import ListNotations.
Local Open Scope Z_scope.

(** ** The lookahead tables *)

Definition rule_at (m : Z) : Z := if m =? 292 then 190 else m.

Definition tset (k : nat) : N := nth k token_sets 0%N.

Definition in_set (t : Z) (m : N) : bool := N.testbit m (Z.to_N t).

Definition subset (a b : N) : bool := N.eqb (N.ldiff a b) 0.

Lemma subset_in a b t : subset a b = true -> in_set t a = true -> in_set t b = true.
Proof.
  unfold subset, in_set. intros S H. apply N.eqb_eq in S.
  assert (E : N.testbit (N.ldiff a b) (Z.to_N t) = false) by (rewrite S; apply N.bits_0).
  rewrite N.ldiff_spec, H in E. cbn [andb] in E. now apply negb_false_iff in E.
Qed.

Lemma in_lor t a b : in_set t (N.lor a b) = in_set t a || in_set t b.
Proof. unfold in_set. apply N.lor_spec. Qed.

(** The tokens that can follow rule [m] at position [d] in state [s]. *)
Definition look (s m d : Z) : N :=
  match find (fun x => (fst (fst x) =? m) && (snd (fst x) =? d)) (nth (Z.to_nat s) look_items []) with
  | Some x => tset (snd x)
  | None => 0%N
  end.

Definition first_of (m : Z) : N := tset (fst (nth (Z.to_nat m) first_sets (0%nat, false))).
Definition empty_ok (m : Z) : bool := snd (nth (Z.to_nat m) first_sets (0%nat, false)).

(** The rules of the nonterminal number [l]. *)
Definition with_lhs (l : Z) : list Z := filter (fun n => lhs n =? l) rules.

(** Rules that can be used for symbol [X] below [m]. *)
Definition subs (m X : Z) : list Z :=
  map (place m) (filter (fun n => negb (never n) && negb (shadowed m n)) (with_lhs (- X))).

(** First tokens of the rest [r] of a right side followed by one of [la]. *)
Fixpoint firsts (m : Z) (r : list Z) (la : N) : N :=
  match r with
  | [] => la
  | X :: r' =>
      if 0 <? X then N.shiftl 1 (Z.to_N X)
      else
        let f := fold_right (fun k a => N.lor (first_of k) a) 0%N (subs m X) in
        if existsb empty_ok (subs m X) then N.lor f (firsts m r' la) else f
  end.

(** Whether the rest of a right side can be empty. *)
Fixpoint empties (m : Z) (r : list Z) : bool :=
  match r with
  | [] => true
  | X :: r' => if 0 <? X then false else existsb empty_ok (subs m X) && empties m r'
  end.

(** Tokens before which rule [n] is lost. *)
Fixpoint lost_of (n : Z) (l : list Z) : N :=
  match l with
  | [] => 0%N
  | t :: l' => if lost n (t + 57342) then N.lor (N.shiftl 1 (Z.to_N t)) (lost_of n l') else lost_of n l'
  end.
Notation lost_set n := (lost_of n toks) (only parsing).

Definition places : list Z := 292 :: rules.

Lemma first_check : forallb (fun m =>
  let r := rhs (rule_at m) in
  subset (firsts m r 0) (first_of m) && implb (empties m r) (empty_ok m)) places = true.
Proof. vm_compute. reflexivity. Qed.

(** Items: the dot moves, and the rules for the symbol after it are there too. *)
Definition item_ok (s m d : Z) (la : N) : bool :=
  let r := rhs (rule_at m) in
  match nth_error r (Z.to_nat d) with
  | None => forallb (fun t => negb (in_set t la)
                || match shift s t with None => deflt s t =? rule_at m | Some _ => false end) toks
  | Some X =>
      if 0 <? X then
        match shift s X with Some q => subset la (look q m (d + 1)) | None => false end
      else
        subset la (look (goto s (- X)) m (d + 1))
        && let f := firsts m (skipn (S (Z.to_nat d)) r) la in
           forallb (fun n => never n || shadowed m n
             || subset (N.ldiff f (lost_set n)) (look s (place m n) 0)) (with_lhs (- X))
  end.

Lemma items_check : forallb (fun s =>
  forallb (fun x => (fst (fst x) =? 0) || item_ok s (fst (fst x)) (snd (fst x)) (tset (snd x)))
    (nth (Z.to_nat s) look_items [])) states = true.
Proof. vm_compute. reflexivity. Qed.
