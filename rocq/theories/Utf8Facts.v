(** UTF-8: decoding and encoding are inverse to each other. *)
From Coq Require Import ZArith String Bool List Lia.
From Verif Require Import GoBase Utf8 LexTotal LexSpec LexEq LexWords GoifyFacts.
Import ListNotations.
Local Open Scope list_scope.
Local Open Scope Z_scope.

(** ** Vocabulary of the properties *)

(** A Unicode scalar value. *)
Definition scalar (r : Z) : Prop := 0 <= r <= 1114111 /\ ~ (55296 <= r <= 57343).

(** The bytes are the UTF-8 encoding of a text. *)
Definition valid_utf8 (bs : list Z) : Prop := exists rs, Forall scalar rs /\ bs = encode_all rs.

(** ** Facts *)

Ltac split_ifs :=
  repeat match goal with
  | |- context [if ?b then _ else _] => destruct b eqn:?
  end.
Ltac bools :=
  repeat match goal with
  | H : _ && _ = true |- _ => apply andb_true_iff in H as [? ?]
  | H : _ || _ = false |- _ => apply orb_false_iff in H as [? ?]
  | H : _ || _ = true |- _ => apply orb_true_iff in H
  | H : negb _ = true |- _ => apply negb_true_iff in H
  | H : negb _ = false |- _ => apply negb_false_iff in H
  | H : _ && _ = false |- _ => apply andb_false_iff in H
  end.

Lemma decode_encode r l : scalar r -> decode_rune (encode_rune r ++ l) = (r, length (encode_rune r)).
Proof.
  intros [R1 R2]. unfold encode_rune.
  destruct ((0 <=? r) && (r <? 128)) eqn:E1; bools.
  { cbn [app length]. apply decode_low. lia. }
  destruct ((0 <=? r) && (r <? 2048)) eqn:E2; bools.
  { cbn [app length]. unfold decode_rune, rune_self, utf8_first.
    assert (2 <= r / 64 < 32) by (Z.div_mod_to_equations; lia).
    replace (192 + r / 64 <? 128) with false by (symmetry; apply Z.ltb_ge; lia).
    replace (192 + r / 64 <? 194) with false by (symmetry; apply Z.ltb_ge; lia).
    replace (192 + r / 64 <? 224) with true by (symmetry; apply Z.ltb_lt; lia).
    cbn [length Nat.ltb Nat.leb Nat.eqb]. unfold in_range.
    replace ((128 <=? 128 + r mod 64) && (128 + r mod 64 <=? 191)) with true
      by (symmetry; apply andb_true_iff; pose proof (Z.mod_pos_bound r 64); lia).
    cbn [negb]. f_equal. Z.div_mod_to_equations. lia. }
  destruct ((r <? 0) || (1114111 <? r) || ((55296 <=? r) && (r <=? 57343))) eqn:E3; bools.
  { exfalso. lia. }
  destruct (r <? 65536) eqn:E4.
  { apply Z.ltb_lt in E4. cbn [app length]. unfold decode_rune, rune_self.
    assert (B0 : 0 <= r / 4096 < 16) by (Z.div_mod_to_equations; lia).
    assert (B1 : 0 <= (r / 64) mod 64 < 64) by (apply Z.mod_pos_bound; lia).
    assert (B2 : 0 <= r mod 64 < 64) by (apply Z.mod_pos_bound; lia).
    assert (EQ : r = r / 4096 * 4096 + (r / 64) mod 64 * 64 + r mod 64) by (Z.div_mod_to_equations; lia).
    set (p := r / 4096) in *. set (q := (r / 64) mod 64) in *. set (t := r mod 64) in *.
    replace (224 + p <? 128) with false by (symmetry; apply Z.ltb_ge; lia).
    assert (F : exists lo hi, utf8_first (224 + p) = Some (3%nat, lo, hi) /\ lo <= 128 + q <= hi).
    { unfold utf8_first. split_ifs; try lia; (eexists _, _; split; [reflexivity|]); lia. }
    destruct F as (lo & hi & -> & F). cbn [length Nat.ltb Nat.leb Nat.eqb].
    unfold in_range. replace ((lo <=? 128 + q) && (128 + q <=? hi)) with true by (symmetry; apply andb_true_iff; lia).
    replace ((128 <=? 128 + t) && (128 + t <=? 191)) with true by (symmetry; apply andb_true_iff; lia).
    cbn [negb]. f_equal. rewrite EQ. Z.div_mod_to_equations. lia. }
  apply Z.ltb_ge in E4. cbn [app length]. unfold decode_rune, rune_self.
  assert (B0 : 0 <= r / 262144 < 5) by (Z.div_mod_to_equations; lia).
  assert (B1 : 0 <= (r / 4096) mod 64 < 64) by (apply Z.mod_pos_bound; lia).
  assert (B2 : 0 <= (r / 64) mod 64 < 64) by (apply Z.mod_pos_bound; lia).
  assert (B3 : 0 <= r mod 64 < 64) by (apply Z.mod_pos_bound; lia).
  assert (EQ : r = r / 262144 * 262144 + (r / 4096) mod 64 * 4096 + (r / 64) mod 64 * 64 + r mod 64) by (Z.div_mod_to_equations; lia).
  set (p := r / 262144) in *. set (q := (r / 4096) mod 64) in *. set (t := (r / 64) mod 64) in *. set (u := r mod 64) in *.
  replace (240 + p <? 128) with false by (symmetry; apply Z.ltb_ge; lia).
  assert (F : exists lo hi, utf8_first (240 + p) = Some (4%nat, lo, hi) /\ lo <= 128 + q <= hi).
  { unfold utf8_first. split_ifs; try lia; (eexists _, _; split; [reflexivity|]); lia. }
  destruct F as (lo & hi & -> & F). cbn [length Nat.ltb Nat.leb Nat.eqb].
  unfold in_range. replace ((lo <=? 128 + q) && (128 + q <=? hi)) with true by (symmetry; apply andb_true_iff; lia).
  replace ((128 <=? 128 + t) && (128 + t <=? 191)) with true by (symmetry; apply andb_true_iff; lia).
  replace ((128 <=? 128 + u) && (128 + u <=? 191)) with true by (symmetry; apply andb_true_iff; lia).
  cbn [negb]. f_equal. rewrite EQ. Z.div_mod_to_equations. lia.
Qed.

Lemma string_bytes s : Forall byte (bytes_of_string s).
Proof. induction s as [|c s IH]; cbn [bytes_of_string]; constructor; [exact (byte_range c)|exact IH]. Qed.

Lemma encode_not_nil r : encode_rune r <> [].
Proof. unfold encode_rune. split_ifs; discriminate. Qed.

Theorem runes_encode rs : Forall scalar rs -> runes (encode_all rs) = rs.
Proof.
  induction 1 as [|r rs R F IH]; [reflexivity|]. unfold encode_all in *. cbn [flat_map].
  rewrite runes_cons by (intros E; apply app_eq_nil in E as [E _]; now apply encode_not_nil in E).
  rewrite decode_encode by exact R. cbn [fst snd]. rewrite skipn_app, skipn_all, Nat.sub_diag. cbn [app skipn]. now rewrite IH.
Qed.

Lemma encode_decode b l r n : Forall byte (b :: l) -> decode_rune (b :: l) = (r, n) -> r <> 65533 ->
  encode_rune r = firstn n (b :: l) /\ scalar r.
Proof.
  intros F D N. apply Forall_cons_iff in F as [B F]. unfold byte in B. unfold decode_rune, rune_self in D.
  destruct (b <? 128) eqn:E.
  { injection D as <- <-. apply Z.ltb_lt in E. unfold encode_rune.
    replace ((0 <=? b) && (b <? 128)) with true by (symmetry; apply andb_true_iff; lia). split; [reflexivity|].
    unfold scalar. lia. }
  apply Z.ltb_ge in E. destruct (utf8_first b) as [[[m lo] hi]|] eqn:U; [|unfold rune_error in D; congruence].
  destruct l as [|b1 r1]; [unfold rune_error in D; congruence|]. apply Forall_cons_iff in F as [B1 F]. unfold byte in B1.
  destruct (_ <? m)%nat; [unfold rune_error in D; congruence|].
  destruct (in_range lo b1 hi) eqn:I1; [|cbn [negb] in D; unfold rune_error in D; congruence]. cbn [negb] in D.
  unfold in_range in I1. apply andb_true_iff in I1 as [I1 I2]. apply Z.leb_le in I1, I2.
  destruct (m =? 2)%nat eqn:M2.
  { apply Nat.eqb_eq in M2. subst m. injection D as <- <-. unfold utf8_first in U.
    repeat match type of U with context [if ?b then _ else _] => destruct b eqn:?; try discriminate U end. injection U as <- <-.
    assert (Q : b mod 32 = b - 192 /\ b1 mod 64 = b1 - 128) by (Z.div_mod_to_equations; lia). destruct Q as [-> ->].
    set (r := (b - 192) * 64 + (b1 - 128)).
    assert (R : 128 <= r < 2048) by lia. assert (r / 64 = b - 192 /\ r mod 64 = b1 - 128) as [Q1 Q2] by (Z.div_mod_to_equations; lia).
    split; [|unfold scalar; lia]. unfold encode_rune.
    replace ((0 <=? r) && (r <? 128)) with false by (symmetry; apply andb_false_iff; lia).
    replace ((0 <=? r) && (r <? 2048)) with true by (symmetry; apply andb_true_iff; lia).
    rewrite Q1, Q2. cbn [firstn]. repeat f_equal; lia. }
  destruct r1 as [|b2 r2]; [unfold rune_error in D; congruence|]. apply Forall_cons_iff in F as [B2 F]. unfold byte in B2.
  destruct (in_range 128 b2 191) eqn:I3; [|cbn [negb] in D; unfold rune_error in D; congruence]. cbn [negb] in D.
  unfold in_range in I3. apply andb_true_iff in I3 as [I3 I4]. apply Z.leb_le in I3, I4.
  destruct (m =? 3)%nat eqn:M3.
  { apply Nat.eqb_eq in M3. subst m. injection D as <- <-.
    assert (UU : 224 <= b < 240 /\ (b = 224 -> 160 <= b1) /\ (b = 237 -> b1 <= 159) /\ 128 <= b1 <= 191).
    { unfold utf8_first in U.
      repeat match type of U with context [if ?b then _ else _] => destruct b eqn:?; try discriminate U end; injection U as <- <-; lia. }
    assert (Q : b mod 16 = b - 224 /\ b1 mod 64 = b1 - 128 /\ b2 mod 64 = b2 - 128) by (Z.div_mod_to_equations; lia). destruct Q as (-> & -> & ->).
    set (r := (b - 224) * 4096 + (b1 - 128) * 64 + (b2 - 128)).
    assert (R : 2048 <= r < 65536 /\ ~ (55296 <= r <= 57343)) by lia.
    assert (r / 4096 = b - 224 /\ (r / 64) mod 64 = b1 - 128 /\ r mod 64 = b2 - 128) as (Q1 & Q2 & Q3) by (Z.div_mod_to_equations; lia).
    split; [|unfold scalar; lia]. unfold encode_rune.
    replace ((0 <=? r) && (r <? 128)) with false by (symmetry; apply andb_false_iff; lia).
    replace ((0 <=? r) && (r <? 2048)) with false by (symmetry; apply andb_false_iff; lia).
    replace ((r <? 0) || (1114111 <? r) || ((55296 <=? r) && (r <=? 57343))) with false
      by (symmetry; apply orb_false_iff; split; [apply orb_false_iff; lia|apply andb_false_iff; lia]).
    replace (r <? 65536) with true by (symmetry; apply Z.ltb_lt; lia).
    rewrite Q1, Q2, Q3. cbn [firstn]. repeat f_equal; lia. }
  destruct r2 as [|b3 r3]; [unfold rune_error in D; congruence|]. apply Forall_cons_iff in F as [B3 F]. unfold byte in B3.
  destruct (in_range 128 b3 191) eqn:I5; [|cbn [negb] in D; unfold rune_error in D; congruence]. cbn [negb] in D.
  unfold in_range in I5. apply andb_true_iff in I5 as [I5 I6]. apply Z.leb_le in I5, I6.
  injection D as <- <-.
  assert (UU : 240 <= b < 245 /\ (b = 240 -> 144 <= b1) /\ (b = 244 -> b1 <= 143) /\ 128 <= b1 <= 191).
  { apply Nat.eqb_neq in M2, M3. unfold utf8_first in U.
    repeat match type of U with context [if ?b then _ else _] => destruct b eqn:?; try discriminate U end; injection U as <- <- <-; lia. }
  assert (Q : b mod 8 = b - 240 /\ b1 mod 64 = b1 - 128 /\ b2 mod 64 = b2 - 128 /\ b3 mod 64 = b3 - 128) by (Z.div_mod_to_equations; lia).
  destruct Q as (-> & -> & -> & ->).
  set (r := (b - 240) * 262144 + (b1 - 128) * 4096 + (b2 - 128) * 64 + (b3 - 128)).
  assert (R : 65536 <= r <= 1114111) by lia.
  assert (r / 262144 = b - 240 /\ (r / 4096) mod 64 = b1 - 128 /\ (r / 64) mod 64 = b2 - 128 /\ r mod 64 = b3 - 128) as (Q1 & Q2 & Q3 & Q4)
    by (Z.div_mod_to_equations; lia).
  split; [|unfold scalar; lia]. unfold encode_rune.
  replace ((0 <=? r) && (r <? 128)) with false by (symmetry; apply andb_false_iff; lia).
  replace ((0 <=? r) && (r <? 2048)) with false by (symmetry; apply andb_false_iff; lia).
  replace ((r <? 0) || (1114111 <? r) || ((55296 <=? r) && (r <=? 57343))) with false
    by (symmetry; apply orb_false_iff; split; [apply orb_false_iff; lia|apply andb_false_iff; lia]).
  replace (r <? 65536) with false by (symmetry; apply Z.ltb_ge; lia).
  rewrite Q1, Q2, Q3, Q4. cbn [firstn]. repeat f_equal; lia.
Qed.

(** Bytes that are not valid UTF-8 show as U+FFFD. *)
Theorem runes_valid bs : Forall byte bs -> ~ In 65533 (runes bs) -> encode_all (runes bs) = bs /\ Forall scalar (runes bs).
Proof.
  remember (length bs) as n eqn:L. assert (LE : (length bs <= n)%nat) by lia. clear L. revert bs LE.
  induction n as [|n IH]; intros bs L F N.
  { destruct bs; [|cbn in L; lia]. split; [reflexivity|constructor]. }
  destruct bs as [|b l]; [split; [reflexivity|constructor]|].
  rewrite runes_cons in * by discriminate. pose proof (decode_width (b :: l) ltac:(discriminate)) as W.
  destruct (decode_rune (b :: l)) as [r k] eqn:D. cbn [fst snd] in *.
  destruct (encode_decode b l r k F D) as [E SC]; [intros ->; apply N; now left|].
  destruct (IH (skipn k (b :: l))) as [E2 S2].
  - rewrite skipn_length. lia.
  - rewrite <- (firstn_skipn k (b :: l)) in F. now apply Forall_app in F.
  - intros I. apply N. now right.
  - split; [|now constructor]. unfold encode_all in *. cbn [flat_map]. rewrite E, E2. apply firstn_skipn.
Qed.
