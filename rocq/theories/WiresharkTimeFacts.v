(** Specification of dates and their texts, and lemmas about [ParseWiresharkTime]. *)
From Coq Require Import ZArith String Ascii List Bool Lia Znumtheory.
From Verif Require Import GoBase WiresharkTime.
Import ListNotations.
Local Open Scope string_scope.
Local Open Scope Z_scope.

(** * Specification *)

(** A decimal digit; two and four of them. *)
Definition digit (d : Z) : ascii :=
  match String.get (Z.to_nat d) "0123456789" with Some c => c | None => "?"%char end.
Definition one (n : Z) : string := String (digit n) "".
Definition two (n : Z) : string := one (n / 10) ++ one (n mod 10).
Definition four (n : Z) : string := two (n / 100) ++ two (n mod 100).

(** The Gregorian calendar. *)
Definition leap_year (y : Z) : Prop := (4 | y) /\ (~ (100 | y) \/ (400 | y)).

Inductive month_length (y : Z) : Z -> Z -> Prop :=
| ml_31 m : In m [1; 3; 5; 7; 8; 10; 12] -> month_length y m 31
| ml_30 m : In m [4; 6; 9; 11] -> month_length y m 30
| ml_february : ~ leap_year y -> month_length y 2 28
| ml_leap : leap_year y -> month_length y 2 29.

(** The [d]-th day of the month [m] of the year [y] is [n] days after the first day of
    the year 1; counted day by day from the first day of the year 0, which has 366. *)
Inductive day_number : Z -> Z -> Z -> Z -> Prop :=
| dn_first : day_number 0 1 1 (-366)
| dn_day y m d n l :
    day_number y m d n -> month_length y m l -> d < l -> day_number y m (d + 1) (n + 1)
| dn_month y m d n :
    day_number y m d n -> month_length y m d -> m < 12 -> day_number y (m + 1) 1 (n + 1)
| dn_year y n : day_number y 12 31 n -> day_number (y + 1) 1 1 (n + 1).

(** A time of day: hour, minute and second. *)
Definition clock (h mi s : Z) : Prop := 0 <= h < 24 /\ 0 <= mi < 60 /\ 0 <= s < 60.

(** YYYY-MM-DD hh:mm:ss. *)
Definition stamp (y m d h mi s : Z) : string :=
  four y ++ "-" ++ two m ++ "-" ++ two d ++ " " ++ two h ++ ":" ++ two mi ++ ":" ++ two s.

(** The value of a text of decimal digits, the first one being the most significant. *)
Inductive decimal : string -> Z -> Prop :=
| de_one d : 0 <= d < 10 -> decimal (one d) d
| de_more w v d : decimal w v -> 0 <= d < 10 -> decimal (w ++ one d) (10 * v + d).

(** So many spaces. *)
Fixpoint spaces (k : nat) : string :=
  match k with O => "" | S k' => String " " (spaces k') end.

(** The hour may have one digit. *)
Inductive hour_text (h : Z) : string -> Prop :=
| ho_two : hour_text h (two h)
| ho_one : h < 10 -> hour_text h (one h).

(** A fraction may follow, and its nanoseconds; a fraction of more than nine digits is
    not scaled. *)
Inductive fraction_text : string -> Z -> Prop :=
| fr_none : fraction_text "" 0
| fr_point w v : decimal w v -> v < 10 ^ 9 ->
    fraction_text ("." ++ w) (v * 10 ^ Z.max 0 (9 - Z.of_nat (String.length w))).

(** * Digits *)

Lemma byte_range : forall c, 0 <= byte_of_ascii c < 256.
Proof.
  intro c. unfold byte_of_ascii. pose proof (N_ascii_bounded c). lia.
Qed.

Lemma is_digit_inv : forall c, is_digit c = true ->
  c = digit (byte_of_ascii c - 48) /\ 0 <= byte_of_ascii c - 48 < 10.
Proof.
  intros c H. unfold is_digit in H. apply andb_true_iff in H as [H1 H2].
  apply Z.leb_le in H1, H2. split; [|lia].
  revert H1 H2. destruct c as [[] [] [] [] [] [] [] []]; vm_compute; intros H1 H2;
    try reflexivity; exfalso; (now apply H1) || (now apply H2).
Qed.

Lemma ten : forall d, 0 <= d < 10 -> In d [0; 1; 2; 3; 4; 5; 6; 7; 8; 9].
Proof. intros d H. cbn. lia. Qed.

Lemma digit_is : forall d, 0 <= d < 10 -> is_digit (digit d) = true.
Proof.
  intros d H. apply ten in H. cbn in H.
  repeat destruct H as [<-|H]; try reflexivity; contradiction.
Qed.

Lemma digit_byte : forall d, 0 <= d < 10 -> byte_of_ascii (digit d) - 48 = d.
Proof.
  intros d H. apply ten in H. cbn in H.
  repeat destruct H as [<-|H]; try reflexivity; contradiction.
Qed.

Lemma two_digits : forall n, 0 <= n < 100 ->
  0 <= n / 10 < 10 /\ 0 <= n mod 10 < 10 /\ n / 10 * 10 + n mod 10 = n.
Proof. intros n H. Z.div_mod_to_equations. lia. Qed.

Lemma two_of : forall a b, 0 <= a < 10 -> 0 <= b < 10 ->
  two (a * 10 + b) = String (digit a) (String (digit b) "").
Proof.
  intros a b Ha Hb. unfold two, one.
  replace ((a * 10 + b) / 10) with a by (Z.div_mod_to_equations; lia).
  replace ((a * 10 + b) mod 10) with b by (Z.div_mod_to_equations; lia).
  reflexivity.
Qed.

(** * The steps of the reader *)

Lemma getnum_two : forall fixed n r, 0 <= n < 100 ->
  getnum fixed (two n ++ r) = Some (n, r).
Proof.
  intros fixed n r H. destruct (two_digits n H) as (Ha & Hb & E).
  unfold two, one. cbn [append getnum].
  rewrite (digit_is _ Ha), (digit_is _ Hb), (digit_byte _ Ha), (digit_byte _ Hb), E.
  reflexivity.
Qed.

(** The text does not start with a digit. *)
Definition no_digit (v : string) : Prop :=
  match v with EmptyString => True | String c _ => is_digit c = false end.

Lemma getnum_one : forall n r, 0 <= n < 10 -> no_digit r ->
  getnum false (one n ++ r) = Some (n, r).
Proof.
  intros n r H Hr. unfold one. cbn [append getnum].
  rewrite (digit_is _ H), (digit_byte _ H).
  destruct r as [|c r]; [reflexivity|]. cbn in Hr. now rewrite Hr.
Qed.

Lemma getnum_inv : forall fixed v n r, getnum fixed v = Some (n, r) ->
  0 <= n < 100 /\ (v = two n ++ r \/ fixed = false /\ n < 10 /\ v = one n ++ r).
Proof.
  intros fixed v n r. unfold getnum.
  destruct v as [|a v]; [discriminate|].
  destruct (is_digit a) eqn:Ia; [|discriminate].
  apply is_digit_inv in Ia as (Ea & Ha).
  assert (One : (if fixed then None else Some (byte_of_ascii a - 48, v)) = Some (n, r) ->
    0 <= n < 100 /\ (String a v = two n ++ r \/ fixed = false /\ n < 10 /\ String a v = one n ++ r)).
  { destruct fixed; [discriminate|]. intro E. injection E as <- <-.
    split; [lia|]. right. split; [reflexivity|]. split; [lia|].
    unfold one. rewrite <- Ea. reflexivity. }
  destruct v as [|b v]; [exact One|].
  destruct (is_digit b) eqn:Ib; [|exact One]. intro E. injection E as <- <-.
  apply is_digit_inv in Ib as (Eb & Hb). split; [lia|]. left.
  rewrite (two_of _ _ Ha Hb). cbn [append]. rewrite <- Ea, <- Eb. reflexivity.
Qed.

Lemma skip_inv : forall c v r, c <> " "%char -> skip c v = Some r -> v = String c r.
Proof.
  intros c v r Hc. unfold skip.
  destruct (Ascii.eqb_spec c " "%char) as [->|_]; [contradiction|].
  destruct v as [|a v]; [discriminate|].
  destruct (Ascii.eqb_spec a c) as [->|_]; [|discriminate]. congruence.
Qed.

Lemma skip_same : forall c r, c <> " "%char -> skip c (String c r) = Some r.
Proof.
  intros c r Hc. unfold skip.
  destruct (Ascii.eqb_spec c " "%char) as [->|_]; [contradiction|]. now rewrite Ascii.eqb_refl.
Qed.

Lemma cutspace_inv : forall v, exists k, v = spaces k ++ cutspace v.
Proof.
  induction v as [|c v [k IH]]; [now exists O|]. cbn [cutspace].
  destruct (Ascii.eqb_spec c " "%char) as [->|_]; [|now exists O].
  exists (S k). cbn [spaces append]. now rewrite <- IH.
Qed.

Lemma space_inv : forall v r, skip " " v = Some r ->
  r = "" \/ exists k, v = spaces (S k) ++ r.
Proof.
  intros v r. unfold skip. cbn [Ascii.eqb Bool.eqb].
  destruct v as [|a v]; [intro E; injection E as <-; now left|].
  destruct (Ascii.eqb_spec a " "%char) as [->|_]; [|discriminate].
  intro E. injection E as <-. right.
  destruct (cutspace_inv v) as [k Hk]. exists k. cbn [cutspace Ascii.eqb Bool.eqb spaces append].
  now rewrite <- Hk.
Qed.

Lemma space_same : forall k c r, c <> " "%char ->
  skip " " (spaces (S k) ++ String c r) = Some (String c r).
Proof.
  intros k c r Hc. unfold skip. cbn [Ascii.eqb Bool.eqb spaces append]. f_equal.
  cbn [cutspace Ascii.eqb Bool.eqb].
  induction k as [|k IH]; cbn [spaces append cutspace].
  - destruct (Ascii.eqb_spec c " "%char); [contradiction|reflexivity].
  - exact IH.
Qed.

Lemma in_range_inv : forall lo hi n m, in_range lo hi n = Some m -> m = n /\ lo <= n <= hi.
Proof.
  intros lo hi n m. unfold in_range.
  destruct (n <? lo) eqn:A; [discriminate|]. destruct (hi <? n) eqn:B; [discriminate|].
  cbn. intro E. injection E as <-. apply Z.ltb_ge in A, B. lia.
Qed.

Lemma in_range_in : forall lo hi n, lo <= n <= hi -> in_range lo hi n = Some n.
Proof.
  intros lo hi n H. unfold in_range.
  destruct (Z.ltb_spec n lo); [lia|]. destruct (Z.ltb_spec hi n); [lia|]. reflexivity.
Qed.

Lemma four_of : forall a b c d, 0 <= a < 10 -> 0 <= b < 10 -> 0 <= c < 10 -> 0 <= d < 10 ->
  four (((a * 10 + b) * 10 + c) * 10 + d) =
  String (digit a) (String (digit b) (String (digit c) (String (digit d) ""))).
Proof.
  intros a b c d Ha Hb Hc Hd. unfold four.
  replace ((((a * 10 + b) * 10 + c) * 10 + d) / 100) with (a * 10 + b) by (Z.div_mod_to_equations; lia).
  replace ((((a * 10 + b) * 10 + c) * 10 + d) mod 100) with (c * 10 + d) by (Z.div_mod_to_equations; lia).
  rewrite !two_of by assumption. reflexivity.
Qed.

Lemma atoi_step : forall acc c s, 0 <= acc < 10 ^ 9 ->
  atoi acc (String c s) = if is_digit c then atoi (acc * 10 + (byte_of_ascii c - 48)) s else None.
Proof.
  intros acc c s H. cbn [atoi]. destruct (is_digit c); [|reflexivity].
  destruct (Z.ltb_spec ((2 ^ 63 - 1) / 10) acc) as [L|L].
  - change ((2 ^ 63 - 1) / 10) with 922337203685477580 in L. lia.
  - pose proof (byte_range c). cbv zeta.
    destruct (Z.ltb_spec (2 ^ 63 - 1) (acc * 10 + (byte_of_ascii c - 48))); [lia|reflexivity].
Qed.

Lemma year_inv : forall v y r, long_year v = Some (y, r) -> 0 <= y <= 9999 /\ v = four y ++ r.
Proof.
  intros v y r. unfold long_year.
  destruct v as [|a [|b [|c [|d v]]]]; try discriminate.
  destruct (is_digit a) eqn:Ia; [|discriminate].
  pose proof Ia as Ja. apply is_digit_inv in Ja as (Ea & Ha).
  rewrite atoi_step, Ia by lia. replace (0 * 10 + (byte_of_ascii a - 48)) with (byte_of_ascii a - 48) by lia.
  rewrite atoi_step by lia.
  destruct (is_digit b) eqn:Ib; [|discriminate]. apply is_digit_inv in Ib as (Eb & Hb).
  rewrite atoi_step by lia.
  destruct (is_digit c) eqn:Ic; [|discriminate]. apply is_digit_inv in Ic as (Ec & Hc).
  rewrite atoi_step by lia.
  destruct (is_digit d) eqn:Id; [|discriminate]. apply is_digit_inv in Id as (Ed & Hd).
  cbn [atoi obind]. intro E. injection E as <- <-. split; [lia|].
  rewrite (four_of _ _ _ _ Ha Hb Hc Hd). cbn [append]. rewrite <- Ea, <- Eb, <- Ec, <- Ed. reflexivity.
Qed.

Lemma year_same : forall y r, 0 <= y <= 9999 -> long_year (four y ++ r) = Some (y, r).
Proof.
  intros y r H.
  set (a := y / 1000). set (b := y / 100 mod 10). set (c := y / 10 mod 10). set (d := y mod 10).
  assert (Hall : (0 <= a < 10 /\ 0 <= b < 10 /\ 0 <= c < 10 /\ 0 <= d < 10) /\
    y = ((a * 10 + b) * 10 + c) * 10 + d).
  { unfold a, b, c, d. Z.div_mod_to_equations. lia. }
  destruct Hall as ((Ha & Hb & Hc & Hd) & E). rewrite E, (four_of _ _ _ _ Ha Hb Hc Hd).
  cbn [append long_year]. rewrite (digit_is _ Ha).
  rewrite !atoi_step by (rewrite ?digit_byte by assumption; lia).
  rewrite !digit_is, !digit_byte by assumption. reflexivity.
Qed.

(** * Fractions *)

Lemma append_assoc : forall a b c : string, ((a ++ b) ++ c = a ++ (b ++ c))%string.
Proof. induction a as [|x a IH]; intros; cbn; [reflexivity|]. now rewrite IH. Qed.

Lemma append_nil : forall a : string, (a ++ "")%string = a.
Proof. induction a as [|x a IH]; cbn; [reflexivity|]. now rewrite IH. Qed.

Fixpoint all_digits (w : string) : Prop :=
  match w with EmptyString => True | String c w' => is_digit c = true /\ all_digits w' end.

Lemma digits_inv : forall v ds r, digits v = (ds, r) -> v = ds ++ r /\ all_digits ds /\ no_digit r.
Proof.
  induction v as [|c v IH]; intros ds r; cbn [digits].
  - intro E. injection E as <- <-. now cbn.
  - destruct (is_digit c) eqn:I.
    + destruct (digits v) as [ds' r'] eqn:D. intro E. injection E as <- <-.
      destruct (IH _ _ eq_refl) as (-> & A & N). cbn. auto.
    + intro E. injection E as <- <-. cbn. auto.
Qed.

Lemma digits_all : forall w, all_digits w -> digits w = (w, "").
Proof.
  induction w as [|c w IH]; cbn; [reflexivity|]. intros [I A]. now rewrite I, (IH A).
Qed.

(** [atoi] with an accumulator, for values below 10^9. *)
Lemma atoi_snoc : forall w acc d, 0 <= d < 10 ->
  atoi acc (w ++ one d) =
  match atoi acc w with
  | Some v => atoi v (one d)
  | None => None
  end.
Proof.
  induction w as [|c w IH]; intros acc d Hd; [reflexivity|].
  change (String c w ++ one d) with (String c (w ++ one d)). cbn [atoi].
  destruct (is_digit c); [|reflexivity]. destruct (_ <? acc); [reflexivity|]. cbv zeta.
  destruct (_ <? _); [reflexivity|]. now apply IH.
Qed.

Lemma atoi_nonneg : forall w acc v, 0 <= acc -> atoi acc w = Some v -> acc <= v.
Proof.
  induction w as [|c w IH]; intros acc v Ha; cbn [atoi]; [intro E; injection E as <-; lia|].
  destruct (is_digit c) eqn:I; [|discriminate]. apply is_digit_inv in I as (_ & I).
  destruct (_ <? acc); [discriminate|]. cbv zeta. destruct (_ <? _); [discriminate|].
  intro E. apply IH in E; lia.
Qed.

Lemma decimal_facts : forall w v, decimal w v ->
  0 <= v /\ all_digits w /\ w <> "" /\ (v < 10 ^ 9 -> atoi 0 w = Some v).
Proof.
  induction 1 as [d Hd|w v d D (Hv & A & Hne & At) Hd].
  - split; [lia|]. split; [cbn; auto using digit_is|]. split; [discriminate|]. intros _.
    unfold one. rewrite atoi_step, (digit_is _ Hd), (digit_byte _ Hd) by lia. reflexivity.
  - split; [lia|]. split; [|split].
    + clear - A Hd. induction w as [|c w IH]; cbn; [auto using digit_is|].
      destruct A as [I A]. split; [exact I|]. exact (IH A).
    + destruct w; discriminate.
    + intro L. rewrite atoi_snoc, At by lia. unfold one.
      rewrite atoi_step, (digit_is _ Hd), (digit_byte _ Hd) by lia. cbn [atoi]. f_equal. lia.
Qed.

(** Every text ends with its last character. *)
Lemma snoc_cases : forall w, w = "" \/ exists w' c, w = w' ++ String c "".
Proof.
  induction w as [|a w IH]; [now left|]. right. destruct IH as [->|(w' & c & ->)].
  - exists "", a. reflexivity.
  - exists (String a w'), c. reflexivity.
Qed.

Lemma length_snoc : forall w c, String.length (w ++ String c "") = S (String.length w).
Proof. induction w as [|a w IH]; intro c; cbn; [reflexivity|]. now rewrite IH. Qed.

Lemma all_snoc : forall w c, all_digits (w ++ String c "") -> all_digits w /\ is_digit c = true.
Proof.
  induction w as [|a w IH]; intros c; cbn; [tauto|]. intros [I A]. apply IH in A. tauto.
Qed.

Lemma atoi_decimal : forall k w v, (String.length w <= k)%nat -> w <> "" -> all_digits w ->
  atoi 0 w = Some v -> decimal w v.
Proof.
  induction k as [|k IH]; intros w v L Hne A E; [destruct w; [contradiction|cbn in L; lia]|].
  destruct (snoc_cases w) as [->|(w' & c & ->)]; [contradiction|].
  apply all_snoc in A as [A I]. rewrite length_snoc in L.
  pose proof I as J. apply is_digit_inv in J as (Ec & Hc).
  set (d := byte_of_ascii c - 48) in *.
  replace (String c "") with (one d) in * by (unfold one; now rewrite <- Ec).
  rewrite atoi_snoc in E by assumption.
  destruct (atoi 0 w') as [u|] eqn:U; [|discriminate].
  assert (Hu : 0 <= u) by (apply (atoi_nonneg w' 0); [lia|exact U]).
  unfold one in E. cbn [atoi] in E. rewrite (digit_is _ Hc), (digit_byte _ Hc) in E.
  destruct (_ <? u); [discriminate|]. cbv zeta in E. destruct (_ <? _); [discriminate|].
  injection E as <-.
  destruct w' as [|a w'].
  - cbn in U. injection U as <-. cbn [append]. change (0 * 10 + d) with d. now constructor.
  - replace (u * 10 + d) with (10 * u + d) by lia. constructor; [|assumption].
    apply IH; [cbn in L |- *; lia|discriminate|exact A|exact U].
Qed.

Lemma fraction_inv : forall v ns, fraction v = Some (ns, "") -> fraction_text v ns.
Proof.
  intros v ns. unfold fraction.
  destruct v as [|p [|c v]]; try discriminate.
  - intro E. injection E as <-. constructor.
  - destruct (Ascii.eqb_spec p "."%char) as [->|_]; [|discriminate].
    destruct (is_digit c) eqn:I; [|discriminate]. cbn [andb].
    destruct (digits (String c v)) as [ds r] eqn:D.
    unfold parse_nanoseconds. destruct (atoi 0 ds) as [x|] eqn:At; [|discriminate]. cbn [obind].
    destruct (Z.leb_spec (10 ^ 9) x) as [|L]; [discriminate|]. cbn [obind].
    intro E. injection E as <- ->.
    apply digits_inv in D as (E & A & _). rewrite append_nil in E. rewrite E.
    change (String "." ds) with ("." ++ ds). constructor; [|exact L].
    apply (atoi_decimal (String.length ds)); [lia| |exact A|exact At].
    intros ->. discriminate E.
Qed.

Lemma fraction_same : forall v ns, fraction_text v ns -> fraction v = Some (ns, "").
Proof.
  intros v ns [|w x D L]; [reflexivity|].
  destruct (decimal_facts _ _ D) as (_ & A & Hne & At).
  destruct w as [|c w]; [contradiction|]. cbn [append fraction].
  change (Ascii.eqb "." ".") with true. pose proof A as [I _]. rewrite I. cbn [andb].
  rewrite (digits_all _ A). unfold parse_nanoseconds. rewrite (At L). cbn [obind].
  destruct (Z.leb_spec (10 ^ 9) x); [lia|reflexivity].
Qed.

(** * The calendar *)

Lemma is_leap_iff : forall y, is_leap y = true <-> leap_year y.
Proof.
  intro y. unfold is_leap, leap_year.
  rewrite andb_true_iff, orb_true_iff, negb_true_iff, !Z.eqb_eq, Z.eqb_neq.
  assert (D : forall k, 0 < k -> y mod k = 0 <-> (k | y)).
  { intros k Hk. apply Z.mod_divide. lia. }
  rewrite !D by lia. tauto.
Qed.

Lemma month_days : forall y m l, month_length y m l -> 1 <= m <= 12 /\ l = days_in m y.
Proof.
  intros y m l H. unfold days_in. destruct H as [m H|m H|H|H].
  - cbn in H. repeat destruct H as [<-|H]; try contradiction; (split; [lia|reflexivity]).
  - cbn in H. repeat destruct H as [<-|H]; try contradiction; (split; [lia|reflexivity]).
  - destruct (is_leap y) eqn:L; [now apply is_leap_iff in L|]. split; [lia|reflexivity].
  - apply is_leap_iff in H. rewrite H. split; [lia|reflexivity].
Qed.

Lemma twelve : forall m, 1 <= m <= 12 -> In m [1; 2; 3; 4; 5; 6; 7; 8; 9; 10; 11; 12].
Proof. intros m H. cbn. lia. Qed.

Lemma days_month : forall y m, 1 <= m <= 12 -> month_length y m (days_in m y).
Proof.
  intros y m H. apply twelve in H. cbn in H. unfold days_in.
  repeat destruct H as [<-|H]; try contradiction; cbn;
    try (apply ml_31; cbn; tauto); try (apply ml_30; cbn; tauto).
  destruct (is_leap y) eqn:L; [apply ml_leap; now apply is_leap_iff|].
  apply ml_february. intro C. apply is_leap_iff in C. congruence.
Qed.

(** The number of a day as [date] computes it. *)
Definition day_of (y m d : Z) : Z :=
  365 * (y - 1) + (y - 1) / 4 - (y - 1) / 100 + (y - 1) / 400 +
  days_before (m - 1) + (if is_leap y && (3 <=? m) then 1 else 0) + (d - 1).

Lemma epoch_days : forall y,
  days_since_epoch y + absolute_to_internal / 86400 =
  365 * (y - 1) + (y - 1) / 4 - (y - 1) / 100 + (y - 1) / 400.
Proof.
  intro y. unfold days_since_epoch. cbv zeta.
  change (absolute_to_internal / 86400) with (-730692556 * 146097).
  change absolute_zero_year with (-292277022399).
  replace (y - -292277022399) with ((y - 1) + 730692556 * 400) by lia.
  generalize (y - 1). clear y. intro x.
  rewrite Z.div_add by lia.
  pose proof (Z.div_mod x 400 ltac:(lia)) as E1. pose proof (Z.mod_pos_bound x 400 ltac:(lia)) as B1.
  set (a := x / 400) in *. set (r := x mod 400) in *.
  replace (x + 730692556 * 400 - 400 * (a + 730692556)) with r by lia.
  pose proof (Z.div_mod r 100 ltac:(lia)) as E2. pose proof (Z.mod_pos_bound r 100 ltac:(lia)) as B2.
  set (b := r / 100) in *. set (q := r mod 100) in *.
  replace (r - 100 * b) with q by lia.
  pose proof (Z.div_mod q 4 ltac:(lia)) as E3. pose proof (Z.mod_pos_bound q 4 ltac:(lia)) as B3.
  set (c := q / 4) in *. set (e := q mod 4) in *.
  replace (q - 4 * c) with e by lia.
  replace (x / 4) with (100 * a + 25 * b + c) by (apply (Z.div_unique _ _ _ e); lia).
  replace (x / 100) with (4 * a + b) by (apply (Z.div_unique _ _ _ q); lia).
  lia.
Qed.

Lemma date_day : forall y m d h mi s,
  date y m d h mi s = 86400 * day_of y m d + 3600 * h + 60 * mi + s.
Proof.
  intros. unfold date, day_of. cbv zeta. rewrite <- epoch_days.
  replace absolute_to_internal with (86400 * (absolute_to_internal / 86400)) at 1
    by reflexivity.
  destruct (is_leap y && (3 <=? m)); lia.
Qed.

Lemma leap_div : forall y,
  (if is_leap y then 1 else 0) =
  (y / 4 - (y - 1) / 4) - (y / 100 - (y - 1) / 100) + (y / 400 - (y - 1) / 400).
Proof.
  intro y. unfold is_leap.
  assert (D : forall k, 1 < k -> y / k - (y - 1) / k = if y mod k =? 0 then 1 else 0).
  { intros k Hk. destruct (Z.eqb_spec (y mod k) 0) as [E|E].
    - enough (Q : (y - 1) / k = y / k - 1) by lia. symmetry.
      pose proof (Z.div_mod y k ltac:(lia)).
      apply (Z.div_unique _ _ _ (k - 1)); [lia|]. lia.
    - enough (Q : (y - 1) / k = y / k) by lia. symmetry.
      pose proof (Z.div_mod y k ltac:(lia)). pose proof (Z.mod_pos_bound y k ltac:(lia)).
      apply (Z.div_unique _ _ _ (y mod k - 1)); lia. }
  rewrite !D by lia.
  destruct (Z.eqb_spec (y mod 4) 0), (Z.eqb_spec (y mod 100) 0), (Z.eqb_spec (y mod 400) 0);
    cbn; try reflexivity; exfalso; Z.div_mod_to_equations; lia.
Qed.

Lemma day_numbered : forall y m d n, day_number y m d n ->
  0 <= y /\ 1 <= m <= 12 /\ 1 <= d <= days_in m y /\ n = day_of y m d.
Proof.
  induction 1 as [|y m d n l H (Hy & Hm & Hd & ->) L Hl|y m d n H (Hy & Hm & Hd & ->) L Hm'
                 |y n H (Hy & Hm & Hd & ->)].
  - now vm_compute.
  - apply month_days in L as (_ & ->). repeat split; try lia. unfold day_of. lia.
  - apply month_days in L as (_ & ->). repeat split; try lia.
    + pose proof (days_month y (m + 1) ltac:(lia)) as L. inversion L; lia.
    + unfold day_of, days_in. assert (C : 1 <= m <= 12) by lia. apply twelve in C. cbn in C.
      repeat destruct C as [<-|C]; try contradiction; try (exfalso; lia);
        destruct (is_leap y);
        repeat match goal with |- context [days_before ?k] =>
          let v := eval vm_compute in (days_before k) in change (days_before k) with v end;
        cbn [Z.eqb Z.leb Z.compare Z.add Pos.add Pos.succ Pos.eqb Pos.compare Pos.compare_cont andb]; lia.
  - repeat split; try lia.
    + change (days_in 1 (y + 1)) with 31. lia.
    + unfold day_of. cbn [Z.leb Z.compare Pos.compare Pos.compare_cont].
      rewrite andb_false_r, andb_true_r. rewrite leap_div.
      replace (y + 1 - 1) with y by lia. change (days_before (12 - 1)) with 334.
      change (days_before (1 - 1)) with 0. lia.
Qed.

Lemma year_days : forall y m, 0 <= y -> (exists n, day_number y 1 1 n) -> 1 <= m <= 12 ->
  forall d, 1 <= d <= days_in m y -> exists n, day_number y m d n.
Proof.
  intros y m Hy H1. revert m.
  assert (Month : forall m, 1 <= m <= 12 -> (exists n, day_number y m 1 n) ->
    forall d, 1 <= d <= days_in m y -> exists n, day_number y m d n).
  { intros m Hm Hs d Hd. replace d with (1 + (d - 1)) in * by lia.
    assert (P : 0 <= d - 1) by lia. revert P Hd. generalize (d - 1). clear d.
    apply (natlike_ind (fun k => 1 <= 1 + k <= days_in m y -> exists n, day_number y m (1 + k) n)).
    - intros _. exact Hs.
    - intros k Hk IH Hd. destruct IH as [n H]; [lia|]. exists (n + 1).
      replace (1 + Z.succ k) with (1 + k + 1) by lia.
      apply (dn_day y m (1 + k) n (days_in m y)); [exact H|now apply days_month|lia]. }
  assert (Len : forall m, 1 <= m <= 12 -> 1 <= days_in m y).
  { intros m Hm. pose proof (days_month y m Hm) as L. inversion L; lia. }
  assert (First : forall k, 0 <= k -> k < 12 -> exists n, day_number y (1 + k) 1 n).
  { apply (natlike_ind (fun k => k < 12 -> exists n, day_number y (1 + k) 1 n)).
    - intros _. exact H1.
    - intros k Hk IH Hd. destruct IH as [n H]; [lia|].
      destruct (Month (1 + k) ltac:(lia) (ex_intro _ n H) (days_in (1 + k) y)) as [n' H'].
      { pose proof (Len (1 + k) ltac:(lia)). lia. }
      exists (n' + 1). replace (1 + Z.succ k) with (1 + k + 1) by lia.
      apply (dn_month y (1 + k) (days_in (1 + k) y)); [exact H'|apply days_month; lia|lia]. }
  intros m Hm. apply Month; [exact Hm|].
  replace m with (1 + (m - 1)) by lia. apply First; lia.
Qed.

Lemma every_day : forall y m d, 0 <= y -> 1 <= m <= 12 -> 1 <= d <= days_in m y ->
  day_number y m d (day_of y m d).
Proof.
  intros y m d Hy Hm Hd.
  assert (S : exists n, day_number y 1 1 n).
  { revert y Hy Hd.
    refine (fun y Hy _ => natlike_ind (fun y => exists n, day_number y 1 1 n) _ _ y Hy).
    - exists (-366). constructor.
    - clear. intros y Hy IH.
      destruct (year_days y 12 Hy IH ltac:(lia) 31) as [n H]; [change (days_in 12 y) with 31; lia|].
      exists (n + 1). unfold Z.succ. now apply dn_year. }
  destruct (year_days y m Hy S Hm d Hd) as [n H].
  pose proof (day_numbered _ _ _ _ H) as (_ & _ & _ & ->). exact H.
Qed.

(** * The whole text *)

Ltac peel := match goal with
  | |- context [obind ?m _] => let E := fresh "E" in destruct m as [?|] eqn:E; [|discriminate]; cbn [obind]
  end.

Lemma not_space : forall n, 0 <= n < 10 -> digit n <> " "%char.
Proof.
  intros d H. apply ten in H. cbn in H.
  repeat destruct H as [<-|H]; try discriminate; contradiction.
Qed.

(** The texts that are accepted, and what they are read as. *)
Lemma parse_time_exact : forall v t ns,
  parse_time v = Some (t, ns) <->
  exists y m d h mi s n k ht f,
    day_number y m d n /\ y <= 9999 /\ clock h mi s /\ hour_text h ht /\ fraction_text f ns /\
    v = four y ++ "-" ++ two m ++ "-" ++ two d ++ spaces (S k) ++ ht ++ ":" ++ two mi ++ ":" ++
        two s ++ f /\
    t = 86400 * n + 3600 * h + 60 * mi + s.
Proof.
  intros v t ns. split.
  - unfold parse_time.
    destruct (long_year v) as [[y v1]|] eqn:E1; [|discriminate]; cbn [obind].
    destruct (skip "-" v1) as [v2|] eqn:E2; [|discriminate]; cbn [obind].
    destruct (getnum true v2) as [[m' v3]|] eqn:E3; [|discriminate]; cbn [obind].
    destruct (in_range 1 12 m') as [m|] eqn:E4; [|discriminate]; cbn [obind].
    destruct (skip "-" v3) as [v4|] eqn:E5; [|discriminate]; cbn [obind].
    destruct (getnum true v4) as [[d v5]|] eqn:E6; [|discriminate]; cbn [obind].
    destruct (skip " " v5) as [v6|] eqn:E7; [|discriminate]; cbn [obind].
    destruct (getnum false v6) as [[h' v7]|] eqn:E8; [|discriminate]; cbn [obind].
    destruct (in_range 0 23 h') as [h|] eqn:E9; [|discriminate]; cbn [obind].
    destruct (skip ":" v7) as [v8|] eqn:E10; [|discriminate]; cbn [obind].
    destruct (getnum true v8) as [[mi' v9]|] eqn:E11; [|discriminate]; cbn [obind].
    destruct (in_range 0 59 mi') as [mi|] eqn:E12; [|discriminate]; cbn [obind].
    destruct (skip ":" v9) as [v10|] eqn:E13; [|discriminate]; cbn [obind].
    destruct (getnum true v10) as [[s' v11]|] eqn:E14; [|discriminate]; cbn [obind].
    destruct (in_range 0 59 s') as [s|] eqn:E15; [|discriminate]; cbn [obind].
    destruct (fraction v11) as [[ns' v12]|] eqn:E16; [|discriminate]; cbn [obind].
    destruct v12 as [|]; [|discriminate].
    destruct (Z.ltb_spec d 1) as [|D1]; [discriminate|].
    destruct (Z.ltb_spec (days_in m y) d) as [|D2]; [discriminate|]. cbn [orb].
    intro E. injection E as <- <-.
    apply year_inv in E1 as (Hy & ->). apply skip_inv in E2 as ->; [|discriminate].
    apply in_range_inv in E4 as (-> & Hm). apply in_range_inv in E9 as (-> & Hh).
    apply in_range_inv in E12 as (-> & Hmi). apply in_range_inv in E15 as (-> & Hs).
    apply getnum_inv in E3 as (_ & [->|(? & _)]); [|discriminate].
    apply skip_inv in E5 as ->; [|discriminate].
    apply getnum_inv in E6 as (_ & [->|(? & _)]); [|discriminate].
    apply space_inv in E7 as [->|[k ->]]; [discriminate|].
    apply getnum_inv in E8 as (_ & E8).
    apply skip_inv in E10 as ->; [|discriminate].
    apply getnum_inv in E11 as (_ & [->|(? & _)]); [|discriminate].
    apply skip_inv in E13 as ->; [|discriminate].
    apply getnum_inv in E14 as (_ & [->|(? & _)]); [|discriminate].
    apply fraction_inv in E16.
    assert (Ht : exists ht, hour_text h' ht /\
      v6 = ht ++ String ":" (two mi' ++ String ":" (two s' ++ v11))).
    { destruct E8 as [->|(_ & Hh' & ->)]; eexists; split; try reflexivity; now constructor. }
    destruct Ht as (ht & Ht & ->).
    exists y, m', d, h', mi', s', (day_of y m' d), k, ht, v11.
    split; [apply every_day; lia|]. split; [lia|]. split; [unfold clock; lia|].
    split; [exact Ht|]. split; [exact E16|]. split; [reflexivity|]. apply date_day.
  - intros (y & m & d & h & mi & s & n & k & ht & f & Hn & Hy & (Hh & Hmi & Hs) & Ht & Hf & -> & ->).
    apply day_numbered in Hn as (Hy0 & Hm & Hd & ->). unfold parse_time.
    rewrite year_same by lia. cbn [obind append].
    rewrite skip_same by discriminate. cbn [obind].
    rewrite getnum_two by lia. cbn [obind]. rewrite in_range_in by lia. cbn [obind].
    rewrite skip_same by discriminate. cbn [obind].
    assert (Hd' : d < 100) by (pose proof (days_month y m Hm) as L; revert L Hd; generalize (days_in m y); intros l L; inversion L; subst; lia).
    rewrite getnum_two by lia. cbn [obind].
    assert (Hsp : exists c r, ht ++ String ":" (two mi ++ String ":" (two s ++ f)) = String c r /\ c <> " "%char).
    { destruct Ht as [|Ht].
      - unfold two at 1, one. cbn [append]. eexists _, _. split; [reflexivity|].
        apply not_space. apply two_digits. lia.
      - unfold one. cbn [append]. eexists _, _. split; [reflexivity|]. apply not_space. lia. }
    destruct Hsp as (c & r & Er & Hc).
    change (spaces (S k) ++ ht ++ String ":" (two mi ++ String ":" (two s ++ f))) with
      (spaces (S k) ++ (ht ++ String ":" (two mi ++ String ":" (two s ++ f)))).
    rewrite Er. change (String " " (spaces k ++ String c r)) with (spaces (S k) ++ String c r).
    rewrite space_same by exact Hc. cbn [obind]. rewrite <- Er. clear c r Er Hc.
    assert (G : getnum false (ht ++ String ":" (two mi ++ String ":" (two s ++ f))) =
      Some (h, String ":" (two mi ++ String ":" (two s ++ f)))).
    { destruct Ht as [|Ht]; [apply getnum_two; lia|]. apply getnum_one; [lia|reflexivity]. }
    rewrite G. cbn [obind]. rewrite (in_range_in 0 23) by lia. cbn [obind].
    rewrite skip_same by discriminate. cbn [obind].
    rewrite getnum_two by lia. cbn [obind]. rewrite in_range_in by lia. cbn [obind].
    rewrite skip_same by discriminate. cbn [obind].
    rewrite getnum_two by lia. cbn [obind]. rewrite in_range_in by lia. cbn [obind].
    rewrite (fraction_same _ _ Hf). cbn [obind].
    destruct (Z.ltb_spec d 1); [lia|]. destruct (Z.ltb_spec (days_in m y) d); [lia|]. cbn [orb].
    now rewrite date_day.
Qed.
