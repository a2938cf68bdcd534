(** Specification of the dump format and lemmas about [ParseWiresharkHex]. *)
From Coq Require Import ZArith String Ascii List Bool Lia.
From Verif Require Import GoBase Wireshark.
Import ListNotations.
Local Open Scope string_scope.
Local Open Scope Z_scope.

(** * Specification *)

(** The words of [l] with [sep] between them. *)
Fixpoint join (sep : ascii) (l : list string) : string :=
  match l with
  | [] => ""
  | [w] => w
  | w :: l' => w ++ String sep (join sep l')
  end.

(** [c] does not occur in [s]. *)
Fixpoint free_of (c : ascii) (s : string) : bool :=
  match s with
  | EmptyString => true
  | String d s' => negb (Ascii.eqb d c) && free_of c s'
  end.

(** Space and newline. *)
Definition sp : ascii := " "%char.
Definition newline : ascii := ascii_of_nat 10.

(** A hexadecimal digit: the digits in order, lower case and upper case. *)
Definition hex_lower : string := "0123456789abcdef".
Definition hex_upper : string := "0123456789ABCDEF".
Definition hex_char (upper : bool) (d : Z) : ascii :=
  match String.get (Z.to_nat d) (if upper then hex_upper else hex_lower) with
  | Some c => c
  | None => "?"%char
  end.

(** Two digits for a byte. *)
Definition hex_byte (upper : bool) (b : Z) : string :=
  String (hex_char upper (b / 16)) (String (hex_char upper (b mod 16)) "").

(** One byte of a dump with the number of additional spaces in front of it. *)
Record col : Type := { c_spaces : nat; c_upper : bool; c_byte : Z }.

(** A line: offset column, bytes, spaces at the end. *)
Record dump_line : Type := { dl_offset : string; dl_cols : list col; dl_trail : nat }.

Definition spaces (n : nat) : string := string_of_list_ascii (repeat sp n).

Fixpoint cols_text (l : list col) : string :=
  match l with
  | [] => ""
  | c :: l' => spaces (S (c_spaces c)) ++ hex_byte (c_upper c) (c_byte c) ++ cols_text l'
  end.

Definition line_text (d : dump_line) : string :=
  dl_offset d ++ cols_text (dl_cols d) ++ spaces (dl_trail d).

Definition dump_text (l : list dump_line) : string := join newline (map line_text l).

Definition dump_bytes (l : list dump_line) : list Z :=
  flat_map (fun d => map c_byte (dl_cols d)) l.

Definition dump_ok (l : list dump_line) : Prop :=
  Forall (fun d => free_of sp (dl_offset d) = true /\ free_of newline (dl_offset d) = true /\
                   Forall (fun c => 0 <= c_byte c < 256) (dl_cols d)) l.

(** Digits of a number in base 16, most significant first. *)
Definition hex_val (ds : list Z) : Z := fold_left (fun a d => 16 * a + d) ds 0.

(** [denotes w v]: the word [w] is an optional sign and at least one hexadecimal
    digit, and its value [v] fits ParseInt's 9 bits. *)
Inductive denotes : string -> Z -> Prop :=
| den_plain ds ups :
    ds <> [] -> length ups = length ds -> Forall (fun d => 0 <= d < 16) ds -> hex_val ds < 256 ->
    denotes (string_of_list_ascii (map (fun '(u, d) => hex_char u d) (combine ups ds))) (hex_val ds)
| den_plus ds ups :
    ds <> [] -> length ups = length ds -> Forall (fun d => 0 <= d < 16) ds -> hex_val ds < 256 ->
    denotes (String "+" (string_of_list_ascii (map (fun '(u, d) => hex_char u d) (combine ups ds))))
      (hex_val ds)
| den_minus ds ups :
    ds <> [] -> length ups = length ds -> Forall (fun d => 0 <= d < 16) ds -> hex_val ds <= 256 ->
    denotes (String "-" (string_of_list_ascii (map (fun '(u, d) => hex_char u d) (combine ups ds))))
      (- hex_val ds).

(** * Lemmas on split *)

Lemma split_nonempty : forall sep s, split sep s <> [].
Proof.
  intros sep s. destruct s as [|c s]; cbn; [discriminate|].
  destruct (Ascii.eqb c sep); [discriminate|]. destruct (split sep s); discriminate.
Qed.

Lemma split_free : forall sep w, free_of sep w = true -> split sep w = [w].
Proof.
  induction w as [|c w IH]; intro H; [reflexivity|].
  cbn in H. apply andb_prop in H as [H1 H2]. cbn.
  destruct (Ascii.eqb c sep); [discriminate|]. now rewrite IH.
Qed.

Lemma split_app : forall sep w s, free_of sep w = true ->
  split sep (w ++ String sep s) = w :: split sep s.
Proof.
  induction w as [|c w IH]; intros s H.
  - cbn. now rewrite Ascii.eqb_refl.
  - cbn in H. apply andb_prop in H as [H1 H2]. cbn.
    destruct (Ascii.eqb c sep); [discriminate|]. now rewrite IH.
Qed.

Lemma split_join : forall sep l, l <> [] -> Forall (fun w => free_of sep w = true) l ->
  split sep (join sep l) = l.
Proof.
  induction l as [|w l IH]; intros Hne HF; [congruence|].
  inversion HF as [|? ? Hw HF']; subst.
  destruct l as [|w' l].
  - cbn. now apply split_free.
  - change (join sep (w :: w' :: l)) with (w ++ String sep (join sep (w' :: l))).
    rewrite split_app by assumption. rewrite IH; [reflexivity|discriminate|assumption].
Qed.

Lemma join_split : forall sep s, join sep (split sep s) = s /\
  Forall (fun w => free_of sep w = true) (split sep s).
Proof.
  induction s as [|c s [IH1 IH2]].
  - split; [reflexivity|]. repeat constructor.
  - cbn. destruct (Ascii.eqb c sep) eqn:E.
    + apply Ascii.eqb_eq in E; subst c. split.
      * pose proof (split_nonempty sep s) as Hne.
        destruct (split sep s) as [|w ws] eqn:Es; [congruence|].
        change (join sep ("" :: w :: ws)) with (String sep (join sep (w :: ws))). now rewrite IH1.
      * constructor; [reflexivity|assumption].
    + pose proof (split_nonempty sep s) as Hne.
      destruct (split sep s) as [|w ws] eqn:Es; [congruence|].
      inversion IH2 as [|? ? Hw HF]; subst. split.
      * destruct ws; reflexivity.
      * constructor; [|assumption]. cbn. now rewrite E, Hw.
Qed.

Lemma free_split : forall c sep s, free_of c s = true ->
  Forall (fun w => free_of c w = true) (split sep s).
Proof.
  induction s as [|d s IH]; intro H; [repeat constructor|].
  cbn in H. apply andb_prop in H as [H1 H2]. specialize (IH H2). cbn.
  destruct (Ascii.eqb d sep); [constructor; [reflexivity|assumption]|].
  destruct (split sep s) as [|w ws]; inversion IH; subst; constructor; cbn; try rewrite H1; auto.
Qed.

(** * Lemmas on numbers *)

Lemma hex_digit_char : forall u d, 0 <= d < 16 -> hex_digit (hex_char u d) = Some d.
Proof.
  intros u d H.
  assert (Hc : forallb (fun k => match hex_digit (hex_char u (Z.of_nat k)) with
                                 | Some e => e =? Z.of_nat k | None => false end) (seq 0 16) = true)
    by (destruct u; vm_compute; reflexivity).
  rewrite forallb_forall in Hc. specialize (Hc (Z.to_nat d)).
  rewrite Z2Nat.id in Hc by lia.
  destruct (hex_digit (hex_char u d)) as [e|].
  - f_equal. apply Z.eqb_eq. apply Hc. apply in_seq. lia.
  - discriminate Hc. apply in_seq. lia.
Qed.

Lemma hex_digit_inv : forall c d, hex_digit c = Some d -> 0 <= d < 16 /\ exists u, c = hex_char u d.
Proof.
  intros c d H.
  assert (Hc : forallb (fun k => match hex_digit (ascii_of_nat k) with
                                 | Some e => (0 <=? e) && (e <? 16) &&
                                             (Ascii.eqb (ascii_of_nat k) (hex_char true e)
                                              || Ascii.eqb (ascii_of_nat k) (hex_char false e))
                                 | None => true end) (seq 0 256) = true)
    by (vm_compute; reflexivity).
  rewrite forallb_forall in Hc. specialize (Hc (nat_of_ascii c)).
  rewrite ascii_nat_embedding, H in Hc.
  assert (Hin : In (nat_of_ascii c) (seq 0 256)).
  { apply in_seq. split; [lia|]. cbn. destruct c as [[] [] [] [] [] [] [] []]; vm_compute; lia. }
  specialize (Hc Hin). apply andb_prop in Hc as [Hr Ho]. apply andb_prop in Hr as [H1 H2].
  split; [lia|].
  apply orb_prop in Ho as [Ho|Ho]; apply Ascii.eqb_eq in Ho; eexists; exact Ho.
Qed.

Lemma parse_hex_digits : forall ds ups acc, length ups = length ds ->
  Forall (fun d => 0 <= d < 16) ds ->
  parse_hex acc (string_of_list_ascii (map (fun '(u, d) => hex_char u d) (combine ups ds)))
  = Some (fold_left (fun a d => 16 * a + d) ds acc).
Proof.
  induction ds as [|d ds IH]; intros ups acc Hl HF.
  - destruct ups; [|discriminate]. reflexivity.
  - destruct ups as [|u ups]; [discriminate|].
    inversion HF; subst.
    cbn [combine map string_of_list_ascii parse_hex].
    rewrite hex_digit_char by assumption. cbn [fold_left]. apply IH; [now injection Hl|assumption].
Qed.

Lemma parse_hex_inv : forall s acc n, parse_hex acc s = Some n ->
  exists ds ups, length ups = length ds /\ Forall (fun d => 0 <= d < 16) ds /\
    s = string_of_list_ascii (map (fun '(u, d) => hex_char u d) (combine ups ds)) /\
    n = fold_left (fun a d => 16 * a + d) ds acc.
Proof.
  induction s as [|c s IH]; intros acc n H.
  - exists [], []. cbn in *. injection H as <-. auto.
  - cbn in H. destruct (hex_digit c) as [d|] eqn:E; [|discriminate].
    apply hex_digit_inv in E as [Hr [u ->]].
    destruct (IH _ _ H) as (ds & ups & Hl & HF & -> & ->).
    exists (d :: ds), (u :: ups). cbn. repeat split; auto.
Qed.

Lemma hex_char_not_sign : forall u d, 0 <= d < 16 ->
  Ascii.eqb (hex_char u d) "+" = false /\ Ascii.eqb (hex_char u d) "-" = false.
Proof.
  intros u d H. pose proof (hex_digit_char u d H) as E.
  split; apply Ascii.eqb_neq; intro F; rewrite F in E; discriminate E.
Qed.

Lemma parse_int_denotes : forall w v, parse_int16_9 w = Some v <-> denotes w v.
Proof.
  intros w v. split.
  - destruct w as [|c s]; cbn; [discriminate|].
    destruct (Ascii.eqb c "+") eqn:Ep; [|destruct (Ascii.eqb c "-") eqn:Em].
    + apply Ascii.eqb_eq in Ep; subst c.
      destruct s as [|c' s']; cbn [parse_uint16]; [discriminate|].
      destruct (parse_hex 0 (String c' s')) as [n|] eqn:E; [|discriminate].
      destruct (256 <=? n) eqn:El; [discriminate|]. intro H; injection H as <-.
      destruct (parse_hex_inv _ _ _ E) as (ds & ups & Hl & HF & Hs & ->). rewrite Hs.
      apply den_plus; auto; [|apply Z.leb_gt in El; exact El].
      intro; subst ds. destruct ups; discriminate Hs.
    + apply Ascii.eqb_eq in Em; subst c.
      destruct s as [|c' s']; cbn [parse_uint16]; [discriminate|].
      destruct (parse_hex 0 (String c' s')) as [n|] eqn:E; [|discriminate].
      destruct (256 <? n) eqn:El; [discriminate|]. intro H; injection H as <-.
      destruct (parse_hex_inv _ _ _ E) as (ds & ups & Hl & HF & Hs & ->). rewrite Hs.
      apply den_minus; auto; [|apply Z.ltb_ge in El; exact El].
      intro; subst ds. destruct ups; discriminate Hs.
    + cbn [parse_uint16].
      destruct (parse_hex 0 (String c s)) as [n|] eqn:E; [|discriminate].
      destruct (256 <=? n) eqn:El; [discriminate|]. intro H; injection H as <-.
      destruct (parse_hex_inv _ _ _ E) as (ds & ups & Hl & HF & Hs & ->). rewrite Hs.
      apply den_plain; auto; [|apply Z.leb_gt in El; exact El].
      intro; subst ds. destruct ups; discriminate Hs.
  - intros [ds ups Hne Hl HF Hv|ds ups Hne Hl HF Hv|ds ups Hne Hl HF Hv];
      destruct ds as [|d ds]; try congruence; destruct ups as [|u ups]; try discriminate;
      pose proof (parse_hex_digits (d :: ds) (u :: ups) 0 Hl HF) as E;
      change (fold_left (fun a d => 16 * a + d) (d :: ds) 0) with (hex_val (d :: ds)) in E;
      inversion HF; subst; destruct (hex_char_not_sign u d) as [Np Nm]; auto;
      cbn [combine map string_of_list_ascii] in *; unfold parse_int16_9.
    + rewrite Np, Nm. cbn [parse_uint16]. rewrite E.
      destruct (Z.leb_spec 256 (hex_val (d :: ds))); [lia|reflexivity].
    + cbn [parse_uint16 Ascii.eqb Bool.eqb]. rewrite E.
      destruct (Z.leb_spec 256 (hex_val (d :: ds))); [lia|reflexivity].
    + cbn [parse_uint16 Ascii.eqb Bool.eqb]. rewrite E.
      destruct (Z.ltb_spec 256 (hex_val (d :: ds))); [lia|reflexivity].
Qed.

(** * The whole text *)

(** The words the program looks at: every non-empty word of a line but its first
    one. *)
Definition line_words (line : list string) : list string :=
  filter (fun w => negb (String.eqb w "")) (tl line).

Lemma parse_elems_ok : forall l bs,
  parse_elems l = Ok bs <->
  exists vs, Forall2 denotes (filter (fun w => negb (String.eqb w "")) l) vs /\
             bs = map (fun v => v mod 256) vs.
Proof.
  induction l as [|w l IH]; intro bs; cbn.
  - split.
    + intro H; injection H as <-. exists []. auto.
    + intros (vs & HF & ->). inversion HF; subst. reflexivity.
  - destruct (String.eqb w "") eqn:E; cbn; [apply IH|].
    destruct (parse_int16_9 w) as [v|] eqn:Ev.
    + apply parse_int_denotes in Ev. split.
      * destruct (parse_elems l) as [r| |] eqn:Er; cbn; try discriminate.
        intro H; injection H as <-.
        destruct (proj1 (IH r) eq_refl) as (vs & HF & ->).
        exists (v :: vs). split; [constructor; assumption|reflexivity].
      * intros (vs & HF & ->). inversion HF as [|? v' ? vs' Hd HF']; subst.
        rewrite (proj2 (IH (map (fun v => v mod 256) vs'))) by eauto.
        cbn [rbind map]. apply parse_int_denotes in Hd. apply parse_int_denotes in Ev.
        rewrite Ev in Hd. injection Hd as <-. reflexivity.
    + split; [discriminate|]. intros (vs & HF & ->). inversion HF as [|? v' ? vs' Hd HF']; subst.
      apply parse_int_denotes in Hd. congruence.
Qed.

Lemma parse_elems_total : forall l, parse_elems l <> OutOfFuel.
Proof.
  induction l as [|w l IH]; cbn; [discriminate|].
  destruct (String.eqb w ""); [assumption|]. destruct (parse_int16_9 w); [|discriminate].
  destruct (parse_elems l); cbn; congruence.
Qed.

Lemma parse_lines_ok : forall ls bs,
  Forall (fun l => l <> [] /\ Forall (fun w => free_of sp w = true) l) ls ->
  parse_lines (map (join sp) ls) = Ok bs <->
  exists vs, Forall2 denotes (flat_map line_words ls) vs /\ bs = map (fun v => v mod 256) vs.
Proof.
  induction ls as [|l ls IH]; intros bs HF; cbn.
  - split.
    + intro H; injection H as <-. exists []. auto.
    + intros (vs & H & ->). inversion H; subst. reflexivity.
  - inversion HF as [|? ? [Hne Hw] HF']; subst.
    change (split " " (join sp l)) with (split sp (join sp l)).
    rewrite split_join by assumption. fold (line_words l). split.
    + destruct (parse_elems (tl l)) as [a| |] eqn:Ea; cbn; try discriminate.
      destruct (parse_lines (map (join sp) ls)) as [b| |] eqn:Eb; cbn; try discriminate.
      intro H; injection H as <-.
      apply parse_elems_ok in Ea as (v1 & H1 & ->).
      destruct (proj1 (IH b HF') eq_refl) as (v2 & H2 & ->).
      exists (v1 ++ v2)%list. split; [now apply Forall2_app|]. now rewrite map_app.
    + intros (vs & H & ->). apply Forall2_app_inv_l in H as (v1 & v2 & H1 & H2 & ->).
      rewrite (proj2 (parse_elems_ok (tl l) (map (fun v => v mod 256) v1))) by eauto.
      rewrite (proj2 (IH (map (fun v => v mod 256) v2) HF')) by eauto.
      cbn. now rewrite map_app.
Qed.

Lemma parse_lines_total : forall ls, parse_lines ls <> OutOfFuel.
Proof.
  induction ls as [|l ls IH]; cbn; [discriminate|].
  pose proof (parse_elems_total (tl (split " " l))).
  destruct (parse_elems (tl (split " " l))); cbn; try congruence.
  destruct (parse_lines ls); cbn; congruence.
Qed.

Lemma text_words : forall s, exists ls,
  s = join newline (map (join sp) ls) /\ ls <> [] /\
  Forall (fun l => l <> [] /\
     Forall (fun w => free_of sp w = true /\ free_of newline w = true) l) ls.
Proof.
  intro s. exists (map (split sp) (split newline s)).
  destruct (join_split newline s) as [H1 H2].
  rewrite map_map. split; [|split].
  - rewrite <- H1 at 1. f_equal. rewrite <- (map_id (split newline s)) at 1.
    apply map_ext. intro l. symmetry. apply join_split.
  - pose proof (split_nonempty newline s). destruct (split newline s); cbn; congruence.
  - rewrite Forall_map. eapply Forall_impl; [|exact H2].
    intros l Hl. split; [apply split_nonempty|].
    destruct (join_split sp l) as [_ Hs]. pose proof (free_split newline sp l Hl) as Hn.
    rewrite Forall_forall in *. auto.
Qed.

Lemma free_of_append : forall c a b, free_of c (a ++ b) = free_of c a && free_of c b.
Proof. induction a as [|d a IH]; intro b; cbn; [reflexivity|]. now rewrite IH, andb_assoc. Qed.

Lemma free_of_join : forall c sep l, Ascii.eqb sep c = false ->
  Forall (fun w => free_of c w = true) l -> free_of c (join sep l) = true.
Proof.
  induction l as [|w l IH]; intros Hs HF; [reflexivity|].
  inversion HF; subst. destruct l as [|w' l]; [assumption|].
  change (join sep (w :: w' :: l)) with (w ++ String sep (join sep (w' :: l))).
  rewrite free_of_append. cbn [free_of]. rewrite Hs, IH by assumption. now rewrite H1.
Qed.

Lemma wireshark_accepts : forall ls bs,
  ls <> [] ->
  Forall (fun l => l <> [] /\
     Forall (fun w => free_of sp w = true /\ free_of newline w = true) l) ls ->
  ParseWiresharkHex (join newline (map (join sp) ls)) = Ok bs <->
  exists vs, Forall2 denotes (flat_map line_words ls) vs /\ bs = map (fun v => v mod 256) vs.
Proof.
  intros ls bs Hne HF. unfold ParseWiresharkHex.
  change (ascii_of_nat 10) with newline. rewrite split_join.
  - apply parse_lines_ok. eapply Forall_impl; [|exact HF].
    intros l [H1 H2]. split; [assumption|]. eapply Forall_impl; [|exact H2]; intros ? [? ?]; assumption.
  - destruct ls; cbn; congruence.
  - rewrite Forall_map. eapply Forall_impl; [|exact HF].
    intros l [H1 H2]. apply free_of_join; [reflexivity|].
    eapply Forall_impl; [|exact H2]; intros ? [? ?]; assumption.
Qed.

(** * Dumps *)

Lemma spaces_S : forall n, spaces (S n) = String sp (spaces n).
Proof. reflexivity. Qed.

Lemma append_assoc : forall a b c : string, (a ++ b) ++ c = a ++ (b ++ c).
Proof. induction a; intros; cbn; congruence. Qed.

(** Words of the columns of a line. *)
Fixpoint cols_words (l : list col) (trail : nat) : list string :=
  match l with
  | [] => repeat "" trail
  | c :: l' => (repeat "" (c_spaces c) ++ hex_byte (c_upper c) (c_byte c) :: cols_words l' trail)%list
  end.

Lemma hex_char_free : forall u d, 0 <= d < 16 ->
  Ascii.eqb (hex_char u d) sp = false /\ Ascii.eqb (hex_char u d) newline = false.
Proof.
  intros u d H. pose proof (hex_digit_char u d H) as E.
  split; apply Ascii.eqb_neq; intro F; rewrite F in E; discriminate E.
Qed.

Lemma hex_byte_range : forall b, 0 <= b < 256 -> 0 <= b / 16 < 16 /\ 0 <= b mod 16 < 16.
Proof. intros b H. split; [split|apply Z.mod_pos_bound; lia].
  - apply Z.div_pos; lia.
  - apply Z.div_lt_upper_bound; lia.
Qed.

Lemma hex_byte_free : forall u b, 0 <= b < 256 ->
  free_of sp (hex_byte u b) = true /\ free_of newline (hex_byte u b) = true.
Proof.
  intros u b H. apply hex_byte_range in H as [H1 H2]. unfold hex_byte. cbn [free_of].
  destruct (hex_char_free u _ H1) as [-> ->]. destruct (hex_char_free u _ H2) as [-> ->].
  split; reflexivity.
Qed.

Lemma hex_byte_denotes : forall u b, 0 <= b < 256 -> denotes (hex_byte u b) b.
Proof.
  intros u b H. pose proof (hex_byte_range b H) as [H1 H2].
  assert (Hv : hex_val [b / 16; b mod 16] = b).
  { unfold hex_val. cbn [fold_left]. pose proof (Z.div_mod b 16). lia. }
  pose proof (den_plain [b / 16; b mod 16] [u; u]) as D. rewrite Hv in D. apply D.
  - discriminate.
  - reflexivity.
  - repeat constructor; lia.
  - lia.
Qed.

Lemma join_spaces : forall n l w, l <> [] ->
  join sp (w :: repeat "" n ++ l)%list = w ++ String sp (spaces n ++ join sp l).
Proof.
  induction n as [|n IH]; intros l w Hne.
  - cbn [repeat app]. destruct l; [congruence|]. reflexivity.
  - cbn [repeat app].
    change (join sp (w :: "" :: (repeat "" n ++ l))%list)
      with (w ++ String sp (join sp ("" :: (repeat "" n ++ l))%list)).
    rewrite IH by assumption. reflexivity.
Qed.

Lemma join_trail : forall n w, join sp (w :: repeat "" n) = w ++ spaces n.
Proof.
  induction n as [|n IH]; intro w.
  - cbn. induction w; cbn; congruence.
  - cbn [repeat]. change (join sp (w :: "" :: repeat "" n)) with (w ++ String sp (join sp ("" :: repeat "" n))).
    rewrite IH. reflexivity.
Qed.

Lemma line_join : forall cs w trail,
  w ++ cols_text cs ++ spaces trail = join sp (w :: cols_words cs trail).
Proof.
  induction cs as [|c cs IH]; intros w trail.
  - cbn [cols_text cols_words append]. symmetry. apply join_trail.
  - cbn [cols_text cols_words]. rewrite join_spaces by discriminate.
    rewrite <- IH. rewrite spaces_S. cbn [append]. f_equal. f_equal.
    rewrite !append_assoc. reflexivity.
Qed.

Lemma cols_words_denote : forall cs trail, Forall (fun c => 0 <= c_byte c < 256) cs ->
  Forall2 denotes (filter (fun w => negb (String.eqb w "")) (cols_words cs trail)) (map c_byte cs).
Proof.
  assert (Hr : forall n l, filter (fun w => negb (String.eqb w "")) (repeat "" n ++ l)%list
                           = filter (fun w => negb (String.eqb w "")) l)
    by (induction n; intros; cbn; auto).
  induction cs as [|c cs IH]; intros trail HF; cbn [cols_words map].
  - rewrite <- (app_nil_r (repeat "" trail)), Hr. constructor.
  - inversion HF; subst. rewrite Hr. cbn [filter]. cbn [String.eqb hex_byte negb].
    constructor; [now apply hex_byte_denotes|auto].
Qed.

Lemma cols_words_free : forall cs trail, Forall (fun c => 0 <= c_byte c < 256) cs ->
  Forall (fun w => free_of sp w = true /\ free_of newline w = true) (cols_words cs trail).
Proof.
  assert (Hr : forall n, Forall (fun w => free_of sp w = true /\ free_of newline w = true) (repeat "" n))
    by (induction n; cbn; constructor; auto).
  induction cs as [|c cs IH]; intros trail HF; cbn [cols_words]; [apply Hr|].
  inversion HF; subst. apply Forall_app. split; [apply Hr|].
  constructor; [now apply hex_byte_free|auto].
Qed.

Lemma dump_parses : forall l, l <> [] -> dump_ok l ->
  ParseWiresharkHex (dump_text l) = Ok (dump_bytes l).
Proof.
  intros l Hne Hok.
  set (ls := map (fun d => dl_offset d :: cols_words (dl_cols d) (dl_trail d)) l).
  assert (E : dump_text l = join newline (map (join sp) ls)).
  { unfold dump_text, ls. rewrite map_map. f_equal. apply map_ext.
    intro d. apply line_join. }
  rewrite E. apply wireshark_accepts.
  - unfold ls. destruct l; cbn; congruence.
  - unfold ls. rewrite Forall_map. eapply Forall_impl; [|exact Hok].
    intros d (H1 & H2 & H3). split; [discriminate|].
    constructor; [auto|]. now apply cols_words_free.
  - exists (dump_bytes l). unfold ls, dump_bytes. clear Hne E ls. split.
    + induction l as [|d l IH]; cbn; [constructor|].
      inversion Hok as [|? ? (H1 & H2 & H3) Hok']; subst.
      apply Forall2_app; [|auto]. unfold line_words. cbn [tl]. now apply cols_words_denote.
    + induction l as [|d l IH]; cbn; [reflexivity|].
      inversion Hok as [|? ? (H1 & H2 & H3) Hok']; subst.
      rewrite map_app, <- IH by assumption. f_equal.
      rewrite <- (map_id (map c_byte (dl_cols d))) at 1.
      rewrite !map_map. apply map_ext_Forall. eapply Forall_impl; [|exact H3].
      intros c Hc. cbn. symmetry. now apply Z.mod_small.
Qed.
