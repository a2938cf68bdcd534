(** Facts about the float64 arithmetic of [RealNum.v]: whole numbers below 2^53
    and their products are exact. *)
From Coq Require Import ZArith QArith Qpower List SpecFloat Bool Lia.
From Verif Require Import GoBase RealNum.
Local Open Scope Z_scope.

(** The number a finite float stands for. *)
Definition float_Q (x : spec_float) : Q :=
  match x with
  | S754_finite s m e => ((if s then Zneg m else Zpos m) # 1) * Qpower 2 e
  | _ => 0
  end.

Notation digits p := (Zpos (digits2_pos p)).

Lemma digits_bounds p : 2 ^ (digits p - 1) <= Zpos p < 2 ^ digits p.
Proof.
  induction p as [p IH|p IH|]; cbn [digits2_pos]; [| |cbn; lia];
    rewrite Pos2Z.inj_succ; replace (Z.succ (digits p) - 1) with (Z.succ (digits p - 1)) by lia;
    rewrite !Z.pow_succ_r by lia; lia.
Qed.

Lemma digits_unique p d : 0 < d -> 2 ^ (d - 1) <= Zpos p < 2 ^ d -> digits p = d.
Proof.
  intros D B. pose proof (digits_bounds p) as B'.
  assert (H1 : digits p - 1 < d) by (apply (Z.pow_lt_mono_r_iff 2); lia).
  assert (H2 : d - 1 < digits p) by (apply (Z.pow_lt_mono_r_iff 2); lia). lia.
Qed.

Lemma iter_S {A} (f : A -> A) n x : Nat.iter (S n) f x = Nat.iter n f (f x).
Proof. induction n as [|n IH]; [reflexivity|]. change (f (Nat.iter (S n) f x) = f (Nat.iter n f (f x))). now rewrite IH. Qed.

Lemma iter_plus {A} (f : A -> A) n m x : Nat.iter (n + m) f x = Nat.iter n f (Nat.iter m f x).
Proof. induction n as [|n IH]; [reflexivity|]. change (f (Nat.iter (n + m) f x) = f (Nat.iter n f (Nat.iter m f x))). now rewrite IH. Qed.

Lemma iter_pos_nat {A} (f : A -> A) n x : iter_pos f n x = Nat.iter (Pos.to_nat n) f x.
Proof.
  revert x; induction n as [n IH|n IH|]; intros x; cbn [iter_pos]; rewrite ?IH; [| |reflexivity].
  - rewrite Pos2Nat.inj_xI. replace (2 * Pos.to_nat n)%nat with (Pos.to_nat n + Pos.to_nat n)%nat by lia.
    rewrite (iter_S f (Pos.to_nat n + Pos.to_nat n)), (iter_plus f (Pos.to_nat n) (Pos.to_nat n)). reflexivity.
  - rewrite Pos2Nat.inj_xO. replace (2 * Pos.to_nat n)%nat with (Pos.to_nat n + Pos.to_nat n)%nat by lia.
    rewrite (iter_plus f (Pos.to_nat n) (Pos.to_nat n)). reflexivity.
Qed.

Lemma shr_exact k m : 0 < m ->
  Nat.iter k shr_1 {| shr_m := m * 2 ^ Z.of_nat k; shr_r := false; shr_s := false |}
    = {| shr_m := m; shr_r := false; shr_s := false |}.
Proof.
  intros M. induction k as [|k IH].
  - cbn [Nat.iter nat_rect]. f_equal. cbn. lia.
  - rewrite iter_S.
    replace (shr_1 _) with {| shr_m := m * 2 ^ Z.of_nat k; shr_r := false; shr_s := false |}; [exact IH|].
    rewrite Nat2Z.inj_succ, Z.pow_succ_r by lia. assert (P : 0 < m * 2 ^ Z.of_nat k) by nia.
    replace (m * (2 * 2 ^ Z.of_nat k)) with (2 * (m * 2 ^ Z.of_nat k)) by ring.
    destruct (m * 2 ^ Z.of_nat k); [lia|reflexivity|lia].
Qed.

Lemma round_exact m k E : 2 ^ 52 <= m < 2 ^ 53 -> 0 <= k -> -1074 <= E + k <= 971 ->
  binary_round_aux f_prec f_emax false (m * 2 ^ k) E loc_Exact = S754_finite false (Z.to_pos m) (E + k).
Proof.
  intros M K B. assert (D : Zdigits2 (m * 2 ^ k) = 53 + k).
  { assert (0 < m * 2 ^ k) by (assert (0 < 2 ^ k) by (apply Z.pow_pos_nonneg; lia); nia).
    destruct (m * 2 ^ k) as [|p|p] eqn:Ep; try lia. cbn [Zdigits2]. apply digits_unique; [lia|]. rewrite <- Ep.
    replace (53 + k - 1) with (52 + k) by lia. rewrite !Z.pow_add_r by lia.
    assert (0 < 2 ^ k) by (apply Z.pow_pos_nonneg; lia). nia. }
  assert (D1 : Zdigits2 m = 53).
  { destruct m as [|p|p]; try lia. cbn [Zdigits2]. apply digits_unique; lia. }
  assert (F : shr_fexp f_prec f_emax (m * 2 ^ k) E loc_Exact = ({| shr_m := m; shr_r := false; shr_s := false |}, E + k)).
  { unfold shr_fexp. rewrite D. replace (fexp f_prec f_emax (53 + k + E) - E) with k
      by (unfold fexp, emin, f_prec, f_emax; lia).
    cbn [shr_record_of_loc]. destruct k as [|k|k]; [|unfold shr|lia].
    - cbn [shr]. f_equal; [f_equal; cbn; lia|lia].
    - rewrite iter_pos_nat. replace (Z.pos k) with (Z.of_nat (Pos.to_nat k)) at 1 by apply positive_nat_Z.
      rewrite shr_exact by lia. reflexivity. }
  assert (F1 : shr_fexp f_prec f_emax m (E + k) loc_Exact = ({| shr_m := m; shr_r := false; shr_s := false |}, E + k)).
  { unfold shr_fexp. rewrite D1. replace (fexp f_prec f_emax (53 + (E + k)) - (E + k)) with 0
      by (unfold fexp, emin, f_prec, f_emax; lia). reflexivity. }
  unfold binary_round_aux. rewrite F. cbn [shr_m loc_of_shr_record round_nearest_even]. rewrite F1. cbn [shr_m].
  destruct m as [|p|p]; try lia. cbn [Z.to_pos].
  unfold f_emax, f_prec.
  destruct (Zle_bool (E + k) (1024 - 53)) eqn:L; [reflexivity|]. apply Z.leb_gt in L. lia.
Qed.

Lemma f_of_Z_exact n : 0 < n < 2 ^ 53 ->
  exists d, 0 < d <= 53 /\ 2 ^ (d - 1) <= n < 2 ^ d /\
    f_of_Z n = S754_finite false (Z.to_pos (n * 2 ^ (53 - d))) (d - 53).
Proof.
  intros N. destruct n as [|p|p]; try lia. exists (digits p). pose proof (digits_bounds p) as B.
  assert (D : digits p <= 53).
  { assert (digits p - 1 < 53) by (apply (Z.pow_lt_mono_r_iff 2); lia). lia. }
  split; [lia|]. split; [exact B|]. unfold f_of_Z, binary_normalize, binary_round.
  replace (fexp f_prec f_emax (digits p + 0)) with (digits p - 53) by (unfold fexp, emin, f_prec, f_emax; lia).
  assert (M : 2 ^ 52 <= Zpos p * 2 ^ (53 - digits p) < 2 ^ 53).
  { replace 52 with ((digits p - 1) + (53 - digits p)) by lia. rewrite Z.pow_add_r by lia.
    replace (2 ^ 53) with (2 ^ digits p * 2 ^ (53 - digits p)) by (rewrite <- Z.pow_add_r by lia; f_equal; lia).
    assert (0 < 2 ^ (53 - digits p)) by (apply Z.pow_pos_nonneg; lia). nia. }
  assert (SA : shl_align p 0 (digits p - 53) = (Z.to_pos (Zpos p * 2 ^ (53 - digits p)), digits p - 53)).
  { unfold shl_align. rewrite Z.sub_0_r. destruct (digits p - 53) as [|q|q] eqn:Eq; [|lia|].
    - replace (53 - digits p) with 0 by lia. f_equal. rewrite Z.mul_1_r. reflexivity.
    - f_equal. replace (53 - digits p) with (Zpos q) by lia. 
      apply Pos2Z.inj. rewrite shift_pos_correct, Z2Pos.id by (assert (0 < 2 ^ Zpos q) by (apply Z.pow_pos_nonneg; lia); nia).
      rewrite Zpower_pos_nat, Zpower_nat_Z, positive_nat_Z. lia. }
  rewrite SA.
  rewrite Z2Pos.id by lia.
  rewrite <- (Z.mul_1_r (Zpos p * 2 ^ (53 - digits p))) at 1. change 1 with (2 ^ 0) at 1.
  rewrite round_exact by lia. f_equal. lia.
Qed.

Lemma f_of_Z_value n : 0 <= n < 2 ^ 53 -> (float_Q (f_of_Z n) == inject_Z n)%Q.
Proof.
  intros N. destruct (Z.eq_dec n 0) as [->|N0]; [reflexivity|].
  destruct (f_of_Z_exact n) as (d & D & B & ->); [lia|]. cbn [float_Q].
  assert (0 < 2 ^ (53 - d)) by (apply Z.pow_pos_nonneg; lia).
  rewrite Z2Pos.id by nia. replace (d - 53) with (- (53 - d)) by lia. rewrite Qpower_opp.
  change (n * 2 ^ (53 - d) # 1)%Q with (inject_Z (n * 2 ^ (53 - d))). rewrite inject_Z_mult, Zpower_Qpower by lia.
  rewrite <- Qmult_assoc, Qmult_inv_r; [apply Qmult_1_r|].
  apply Qpower_not_0. discriminate.
Qed.

Lemma f_mul_exact a b : 0 < a -> 0 < b -> a * b < 2 ^ 53 -> f_mul (f_of_Z a) (f_of_Z b) = f_of_Z (a * b).
Proof.
  intros A B P. destruct (f_of_Z_exact a) as (da & Da & Ba & ->); [nia|].
  destruct (f_of_Z_exact b) as (db & Db & Bb & ->); [nia|].
  destruct (f_of_Z_exact (a * b)) as (dc & Dc & Bc & ->); [nia|].
  assert (Ha : 0 < 2 ^ (53 - da)) by (apply Z.pow_pos_nonneg; lia).
  assert (Hb : 0 < 2 ^ (53 - db)) by (apply Z.pow_pos_nonneg; lia).
  assert (Hc : 0 < 2 ^ (53 - dc)) by (apply Z.pow_pos_nonneg; lia).
  unfold f_mul, SFmul. cbn [xorb]. rewrite Pos2Z.inj_mul, !Z2Pos.id by nia.
  assert (K : da + db - 1 <= dc).
  { enough (da + db - 2 < dc) by lia. apply (Z.pow_lt_mono_r_iff 2); [lia|lia|].
    replace (da + db - 2) with ((da - 1) + (db - 1)) by lia. rewrite Z.pow_add_r by lia.
    assert (0 < 2 ^ (da - 1)) by (apply Z.pow_pos_nonneg; lia).
    assert (0 < 2 ^ (db - 1)) by (apply Z.pow_pos_nonneg; lia). nia. }
  replace (a * 2 ^ (53 - da) * (b * 2 ^ (53 - db))) with (a * b * 2 ^ (53 - dc) * 2 ^ (53 - da - db + dc)).
  2:{ transitivity (a * b * (2 ^ (53 - da) * 2 ^ (53 - db))); [|ring]. rewrite <- Z.mul_assoc. f_equal.
      rewrite <- !Z.pow_add_r by lia. f_equal. lia. }
  rewrite round_exact.
  - f_equal. lia.
  - replace 52 with ((dc - 1) + (53 - dc)) by lia. rewrite Z.pow_add_r by lia.
    replace (2 ^ 53) with (2 ^ dc * 2 ^ (53 - dc)) by (rewrite <- Z.pow_add_r by lia; f_equal; lia). nia.
  - lia.
  - lia.
Qed.

Lemma f_pow10_exact x : 0 <= x <= 15 -> f_pow10 x = f_of_Z (10 ^ x).
Proof.
  intros X. unfold f_pow10. replace ((0 <=? x) && (x <=? 308)) with true by (symmetry; apply andb_true_iff; lia).
  rewrite Z.div_small, Z.mod_small by lia. rewrite Z.mul_0_r. change (10 ^ 0) with 1.
  assert (0 < 10 ^ x) by (apply Z.pow_pos_nonneg; lia).
  assert (10 ^ x <= 10 ^ 15) by (apply Z.pow_le_mono_r; lia).
  rewrite f_mul_exact by lia. f_equal. lia.
Qed.

Lemma whole_real i x : 0 <= i -> 0 <= x -> i * 10 ^ x < 2 ^ 53 -> i <> 0 \/ x <= 15 ->
  parseRealNumber i 0 x = f_of_Z (i * 10 ^ x).
Proof.
  intros I X B O. unfold parseRealNumber. rewrite Z.eqb_refl.
  assert (P : 0 < 10 ^ x) by (apply Z.pow_pos_nonneg; lia).
  assert (X' : x <= 15).
  { destruct O as [O|O]; [|exact O]. assert (x < 16); [|lia]. apply (Z.pow_lt_mono_r_iff 10); [lia|lia|]. nia. }
  destruct (Z.eqb_spec x 0) as [->|X0]; [rewrite Z.mul_1_r; reflexivity|].
  rewrite f_pow10_exact by lia. destruct (Z.eq_dec i 0) as [->|I0].
  - assert (10 ^ x <= 10 ^ 15) by (apply Z.pow_le_mono_r; lia).
    destruct (f_of_Z_exact (10 ^ x)) as (d & D & B1 & ->); [lia|]. reflexivity.
  - apply f_mul_exact; lia.
Qed.

(** ** Numbers with a finite binary expansion *)

(** [x] is the float that stands for [n * 2 ^ E]. *)
Definition stands (x : spec_float) (n E : Z) : Prop :=
  exists d, 0 < d <= 53 /\ 2 ^ (d - 1) <= n < 2 ^ d /\
    x = S754_finite false (Z.to_pos (n * 2 ^ (53 - d))) (E + d - 53).

Lemma full_mantissa n d : 0 < d <= 53 -> 2 ^ (d - 1) <= n < 2 ^ d -> 2 ^ 52 <= n * 2 ^ (53 - d) < 2 ^ 53.
Proof.
  intros D B. replace 52 with ((d - 1) + (53 - d)) by lia. rewrite Z.pow_add_r by lia.
  replace (2 ^ 53) with (2 ^ d * 2 ^ (53 - d)) by (rewrite <- Z.pow_add_r by lia; f_equal; lia).
  assert (0 < 2 ^ (53 - d)) by (apply Z.pow_pos_nonneg; lia). nia.
Qed.

Lemma pow_lt_inv a b : 0 <= b -> 2 ^ a < 2 ^ b -> a < b.
Proof. intros B H. destruct (Z.lt_ge_cases a 0); [lia|]. apply (Z.pow_lt_mono_r_iff 2); lia. Qed.

Lemma stands_value x n E : stands x n E -> (float_Q x == inject_Z n * Qpower 2 E)%Q.
Proof.
  intros (d & D & B & ->). cbn [float_Q]. pose proof (full_mantissa n d D B).
  rewrite Z2Pos.id by lia. replace (E + d - 53) with (E + - (53 - d)) by lia.
  rewrite Qpower_plus by discriminate. rewrite Qpower_opp.
  change (n * 2 ^ (53 - d) # 1)%Q with (inject_Z (n * 2 ^ (53 - d))). rewrite inject_Z_mult, Zpower_Qpower by lia.
  assert (Z : ~ (Qpower (inject_Z 2) (53 - d) == 0)%Q) by (apply Qpower_not_0; discriminate).
  change (Qpower 2 (53 - d)) with (Qpower (inject_Z 2) (53 - d)).
  field. exact Z.
Qed.

Lemma stands_Z n : 0 < n < 2 ^ 53 -> stands (f_of_Z n) n 0.
Proof.
  intros N. destruct (f_of_Z_exact n N) as (d & D & B & ->). exists d. repeat split; try lia.
Qed.

Lemma stands_shift x n E t : 0 <= t -> n * 2 ^ t < 2 ^ 53 -> stands x n E -> stands x (n * 2 ^ t) (E - t).
Proof.
  intros T L (d & D & B & ->). assert (P : 0 < 2 ^ t) by (apply Z.pow_pos_nonneg; lia).
  assert (N : 0 < n) by (assert (0 < 2 ^ (d - 1)) by (apply Z.pow_pos_nonneg; lia); lia).
  exists (d + t). assert (D' : d - 1 + t < 53).
  { apply pow_lt_inv; [lia|]. rewrite Z.pow_add_r by lia. nia. }
  split; [lia|]. split.
  - replace (d + t - 1) with ((d - 1) + t) by lia. rewrite !Z.pow_add_r by lia. nia.
  - f_equal; [|lia]. f_equal. rewrite <- Z.mul_assoc, <- Z.pow_add_r by lia. do 2 f_equal. lia.
Qed.

Lemma align_value m e ez : ez <= e -> Zpos (fst (shl_align m e ez)) = Zpos m * 2 ^ (e - ez).
Proof.
  intros L. unfold shl_align. destruct (ez - e) as [|q|q] eqn:Eq; [|lia|]; cbn [fst].
  - replace (e - ez) with 0 by lia. lia.
  - replace (e - ez) with (Zpos q) by lia.
    rewrite shift_pos_correct, Zpower_pos_nat, Zpower_nat_Z, positive_nat_Z. lia.
Qed.

Lemma round_stands p n k E : Zpos p = n * 2 ^ k -> 0 < n < 2 ^ 53 -> 0 <= k -> -1000 <= E -> E + k <= 900 ->
  stands (binary_round f_prec f_emax false p E) n (E + k).
Proof.
  intros Ep N K E1 E2. destruct n as [|q|q]; try lia. pose proof (digits_bounds q) as B.
  exists (digits q). assert (D : digits q - 1 < 53) by (apply pow_lt_inv; lia).
  split; [lia|]. split; [exact B|].
  pose proof (full_mantissa (Zpos q) (digits q) ltac:(lia) B) as M.
  assert (P : 0 < 2 ^ k) by (apply Z.pow_pos_nonneg; lia).
  assert (Dp : digits p = digits q + k).
  { apply digits_unique; [lia|]. rewrite Ep. replace (digits q + k - 1) with ((digits q - 1) + k) by lia.
    rewrite !Z.pow_add_r by lia. nia. }
  unfold binary_round. rewrite Dp.
  replace (fexp f_prec f_emax (digits q + k + E)) with (digits q + k + E - 53) by (unfold fexp, emin, f_prec, f_emax; lia).
  set (e' := digits q + k + E - 53). destruct (Z.le_gt_cases e' E) as [L|L].
  - pose proof (align_value p E e' L) as V. destruct (shl_align p E e') as [mz ez] eqn:Es. cbn [fst] in V.
    assert (Ez : ez = e').
    { unfold shl_align in Es. destruct (e' - E) eqn:Eq; inversion Es; subst; lia. }
    rewrite V, Ep, Ez. replace (Zpos q * 2 ^ k * 2 ^ (E - e')) with (Zpos q * 2 ^ (53 - digits q) * 2 ^ 0).
    2:{ rewrite Z.mul_1_r, <- Z.mul_assoc, <- Z.pow_add_r by lia. do 2 f_equal. unfold e'. lia. }
    rewrite round_exact; [f_equal; unfold e'; lia|exact M|lia|unfold e' in *; lia].
  - replace (shl_align p E e') with (p, E) by (unfold shl_align; destruct (e' - E) eqn:Eq; [reflexivity|reflexivity|lia]).
    rewrite Ep. replace (Zpos q * 2 ^ k) with (Zpos q * 2 ^ (53 - digits q) * 2 ^ (k - (53 - digits q))).
    2:{ rewrite <- Z.mul_assoc, <- Z.pow_add_r by (unfold e' in *; lia). do 2 f_equal. lia. }
    rewrite round_exact; [f_equal; lia|exact M|unfold e' in *; lia|lia].
Qed.

Lemma add_stands x y a b E : stands x a E -> stands y b E -> a + b < 2 ^ 53 -> -900 <= E <= 800 ->
  stands (f_add x y) (a + b) E.
Proof.
  intros (da & Da & Ba & ->) (db & Db & Bb & ->) L BE.
  pose proof (full_mantissa a da Da Ba) as Ma. pose proof (full_mantissa b db Db Bb) as Mb.
  assert (A : 0 < 2 ^ (da - 1)) by (apply Z.pow_pos_nonneg; lia).
  assert (A' : 0 < 2 ^ (db - 1)) by (apply Z.pow_pos_nonneg; lia).
  unfold f_add, SFadd. cbv zeta. cbn [cond_Zopp].
  set (ez := Z.min (E + da - 53) (E + db - 53)).
  rewrite !align_value by (unfold ez; lia). rewrite !Z2Pos.id by lia.
  assert (Es : a * 2 ^ (53 - da) * 2 ^ (E + da - 53 - ez) + b * 2 ^ (53 - db) * 2 ^ (E + db - 53 - ez) = (a + b) * 2 ^ (E - ez)).
  { rewrite <- !Z.mul_assoc, <- !Z.pow_add_r by (unfold ez; lia).
    replace (53 - da + (E + da - 53 - ez)) with (E - ez) by lia.
    replace (53 - db + (E + db - 53 - ez)) with (E - ez) by lia. ring. }
  rewrite Es. assert (P : 0 < 2 ^ (E - ez)) by (apply Z.pow_pos_nonneg; unfold ez; lia).
  assert (Q : 0 < (a + b) * 2 ^ (E - ez)) by (apply Z.mul_pos_pos; lia).
  destruct ((a + b) * 2 ^ (E - ez)) as [|p|p] eqn:Ep; try lia. cbn [binary_normalize].
  pose proof (round_stands p (a + b) (E - ez) ez (eq_sym Ep)) as R.
  replace (ez + (E - ez)) with E in R by lia. apply R; unfold ez in *; lia.
Qed.

Lemma mul_stands x y a b E F : stands x a E -> stands y b F -> a * b < 2 ^ 53 -> -400 <= E <= 400 -> -400 <= F <= 400 ->
  stands (f_mul x y) (a * b) (E + F).
Proof.
  intros (da & Da & Ba & ->) (db & Db & Bb & ->) L BE BF.
  pose proof (full_mantissa a da Da Ba) as Ma. pose proof (full_mantissa b db Db Bb) as Mb.
  assert (A : 0 < 2 ^ (da - 1)) by (apply Z.pow_pos_nonneg; lia).
  assert (A' : 0 < 2 ^ (db - 1)) by (apply Z.pow_pos_nonneg; lia).
  assert (Q : 0 < a * b) by (apply Z.mul_pos_pos; lia).
  destruct (a * b) as [|q|q] eqn:Eq; try lia. rewrite <- Eq in *.
  pose proof (digits_bounds q) as B. rewrite <- Eq in B. set (dc := digits q) in *.
  assert (D : dc - 1 < 53) by (apply pow_lt_inv; lia).
  pose proof (full_mantissa (a * b) dc ltac:(unfold dc in *; lia) B) as M.
  assert (K : da + db - 2 < dc).
  { apply pow_lt_inv; [unfold dc; lia|]. replace (da + db - 2) with ((da - 1) + (db - 1)) by lia.
    rewrite Z.pow_add_r by lia. nia. }
  exists dc. split; [unfold dc in *; lia|]. split; [exact B|].
  unfold f_mul, SFmul. cbn [xorb]. rewrite Pos2Z.inj_mul, !Z2Pos.id by lia.
  replace (a * 2 ^ (53 - da) * (b * 2 ^ (53 - db))) with (a * b * 2 ^ (53 - dc) * 2 ^ (53 - da - db + dc)).
  2:{ transitivity (a * b * (2 ^ (53 - da) * 2 ^ (53 - db))); [|ring]. rewrite <- Z.mul_assoc. f_equal.
      rewrite <- !Z.pow_add_r by lia. f_equal. lia. }
  rewrite round_exact; [f_equal; lia|exact M|lia|lia].
Qed.

(** The fraction of [k] digits that is [j / 2 ^ k] is read as that. *)
Definition fraction_ok (k j : Z) : bool :=
  match f_div (f_of_Z (5 ^ k * j)) (f_pow10 (ceil_log10 (5 ^ k * j))) with
  | S754_finite false m e => (e =? Zpos (digits2_pos (Z.to_pos j)) - k - 53) &&
      (Zpos m =? j * 2 ^ (53 - Zpos (digits2_pos (Z.to_pos j))))
  | _ => false
  end.

Definition zseq (a : Z) (n : nat) : list Z := map (fun i => a + Z.of_nat i) (seq 0 n).

Lemma zseq_in a n z : a <= z < a + Z.of_nat n -> In z (zseq a n).
Proof.
  intros B. unfold zseq. apply in_map_iff. exists (Z.to_nat (z - a)). split; [lia|]. apply in_seq. lia.
Qed.

Definition fractions_of (k : Z) : list Z :=
  filter (fun j => 10 ^ (k - 1) <? 5 ^ k * j) (zseq 1 (Z.to_nat (2 ^ k - 1))).

Lemma fractions_checked : forallb (fun k => forallb (fraction_ok k) (fractions_of k)) (zseq 1 6) = true.
Proof. vm_compute. reflexivity. Qed.

Lemma fraction_stands k j : 1 <= k <= 6 -> 10 ^ (k - 1) < 5 ^ k * j < 10 ^ k ->
  stands (f_div (f_of_Z (5 ^ k * j)) (f_pow10 (ceil_log10 (5 ^ k * j)))) j (- k).
Proof.
  intros K B. assert (P5 : 0 < 5 ^ k) by (apply Z.pow_pos_nonneg; lia).
  assert (P10 : 0 < 10 ^ (k - 1)) by (apply Z.pow_pos_nonneg; lia).
  assert (P2 : 0 < 2 ^ k) by (apply Z.pow_pos_nonneg; lia).
  assert (J : 1 <= j < 2 ^ k).
  { change 10 with (5 * 2) in B at 2. rewrite Z.pow_mul_l in B. split; nia. }
  assert (K2 : 2 ^ k <= 2 ^ 6) by (apply Z.pow_le_mono_r; lia).
  pose proof fractions_checked as C. rewrite forallb_forall in C. specialize (C k (zseq_in 1 6 k ltac:(lia))).
  rewrite forallb_forall in C. specialize (C j).
  assert (I : In j (fractions_of k)).
  { unfold fractions_of. apply filter_In. split; [apply zseq_in; lia|]. apply Z.ltb_lt. lia. }
  specialize (C I). unfold fraction_ok in C. destruct (f_div _ _) as [| | |s m e]; try discriminate.
  destruct s; [discriminate|]. apply andb_true_iff in C as (C1 & C2).
  apply Z.eqb_eq in C1, C2. exists (digits (Z.to_pos j)). pose proof (digits_bounds (Z.to_pos j)) as D.
  rewrite Z2Pos.id in D by lia. assert (digits (Z.to_pos j) - 1 < 6) by (apply pow_lt_inv; lia).
  split; [lia|]. split; [exact D|]. rewrite <- C2, C1. f_equal. lia.
Qed.

Lemma binary_real i k j x : 0 <= i -> 1 <= k <= 6 -> 10 ^ (k - 1) < 5 ^ k * j < 10 ^ k -> 0 <= x ->
  (i * 2 ^ k + j) * 10 ^ x < 2 ^ 53 ->
  stands (parseRealNumber i (5 ^ k * j) x) ((i * 2 ^ k + j) * 10 ^ x) (- k).
Proof.
  intros I K B X L. pose proof (fraction_stands k j K B) as F.
  assert (P5 : 0 < 5 ^ k) by (apply Z.pow_pos_nonneg; lia).
  assert (P10 : 0 < 10 ^ (k - 1)) by (apply Z.pow_pos_nonneg; lia).
  assert (P2 : 0 < 2 ^ k) by (apply Z.pow_pos_nonneg; lia).
  assert (Px : 0 < 10 ^ x) by (apply Z.pow_pos_nonneg; lia).
  assert (J : 1 <= j) by nia.
  assert (N : 1 <= i * 2 ^ k + j) by nia.
  assert (Lx : 10 ^ x < 2 ^ 53) by nia.
  assert (Ln : i * 2 ^ k + j < 2 ^ 53) by nia.
  unfold parseRealNumber. replace (5 ^ k * j =? 0) with false by (symmetry; apply Z.eqb_neq; lia). cbv zeta.
  set (fr := f_div _ _) in *. assert (A : stands (f_add (f_of_Z i) fr) (i * 2 ^ k + j) (- k)).
  { destruct (Z.eq_dec i 0) as [->|I0].
    - rewrite Z.mul_0_l, Z.add_0_l. replace (f_add (f_of_Z 0) fr) with fr; [exact F|].
      destruct F as (d & _ & _ & ->). reflexivity.
    - apply add_stands; [|exact F|lia|lia]. replace (- k) with (0 - k) by lia.
      apply stands_shift; [lia|nia|]. apply stands_Z. nia. }
  destruct (Z.eqb_spec x 0) as [->|X0]; [now rewrite Z.mul_1_r|].
  assert (x < 16) by (apply (Z.pow_lt_mono_r_iff 10); [lia|lia|]; lia).
  rewrite f_pow10_exact by lia. replace (- k) with (- k + 0) by lia.
  apply mul_stands; [exact A|apply stands_Z; lia|lia|lia|lia].
Qed.

Lemma binary_value i fr x k : 0 <= i -> 1 <= k <= 6 -> 10 ^ (k - 1) < fr < 10 ^ k -> (10 ^ k | fr * 2 ^ k) -> 0 <= x ->
  (i * 10 ^ k + fr) * 2 ^ k * 10 ^ x < 2 ^ 53 * 10 ^ k ->
  (float_Q (parseRealNumber i fr x) == (inject_Z i + inject_Z fr / inject_Z (10 ^ k)) * inject_Z (10 ^ x))%Q.
Proof.
  intros I K R (c & Hc) X B.
  assert (P5 : 0 < 5 ^ k) by (apply Z.pow_pos_nonneg; lia).
  assert (P2 : 0 < 2 ^ k) by (apply Z.pow_pos_nonneg; lia).
  assert (T : 10 ^ k = 5 ^ k * 2 ^ k) by (rewrite <- Z.pow_mul_l; reflexivity).
  assert (Ef : fr = 5 ^ k * c).
  { apply (Z.mul_reg_r _ _ (2 ^ k)); [lia|]. rewrite Hc, T. ring. }
  subst fr. rewrite T in B.
  replace ((i * (5 ^ k * 2 ^ k) + 5 ^ k * c) * 2 ^ k * 10 ^ x) with ((i * 2 ^ k + c) * 10 ^ x * (5 ^ k * 2 ^ k)) in B by ring.
  apply Z.mul_lt_mono_pos_r in B; [|lia].
  rewrite (stands_value _ _ _ (binary_real i k c x I K R X B)).
  rewrite Qpower_opp. rewrite inject_Z_mult, inject_Z_plus, !inject_Z_mult.
  rewrite T, (inject_Z_mult (5 ^ k)). change (Qpower 2 k) with (Qpower (inject_Z 2) k).
  rewrite <- Zpower_Qpower by lia. field.
  split; intros E; [change 0%Q with (inject_Z 0) in E; rewrite inject_Z_injective in E; lia ..].
Qed.
