(** The lexer over a stream of bytes computes the lexical items of [LexSpec.v]. *)
From Coq Require Import ZArith String Ascii Bool List Lia.
From Verif Require Import GoBase Utf8 Unicode Reader Stream Tokens Reserved Lexer Grammar LexErr LexTotal LexSpec DriverSound GoifyFacts.
Import ListNotations.
Local Open Scope string_scope.
Local Open Scope Z_scope.

(** ** Runes of a byte sequence *)

Definition byte (b : Z) : Prop := 0 <= b < 256.

Lemma decode_fuel_more : forall n m l, (length l <= n)%nat -> (n <= m)%nat -> decode_fuel m l = decode_fuel n l.
Proof.
  induction n as [|n IH]; intros m l H1 H2.
  - destruct l; [destruct m; reflexivity|cbn in H1; lia].
  - destruct m as [|m]; [lia|]. destruct l as [|b l]; [reflexivity|]. cbn [decode_fuel].
    pose proof (decode_width (b :: l) ltac:(discriminate)) as W.
    destruct (decode_rune (b :: l)) as [r k]. cbn [snd] in W. f_equal. apply IH; [|lia].
    rewrite skipn_length. cbn [length] in *. lia.
Qed.

Lemma runes_nil : runes [] = [].
Proof. reflexivity. Qed.

Lemma runes_cons l : l <> [] ->
  runes l = fst (decode_rune l) :: runes (skipn (snd (decode_rune l)) l).
Proof.
  intros H. destruct l as [|b l]; [congruence|]. unfold runes, decode_all. cbn [length decode_fuel].
  pose proof (decode_width (b :: l) H) as W. destruct (decode_rune (b :: l)) as [r k]. cbn [fst snd map] in *.
  f_equal. f_equal. apply decode_fuel_more; [lia|]. rewrite skipn_length. cbn [length] in *. lia.
Qed.

Lemma first_length b n lo hi : utf8_first b = Some (n, lo, hi) -> (2 <= n <= 4)%nat.
Proof.
  unfold utf8_first. repeat match goal with |- context [if ?c then _ else _] => destruct c end;
    intros F; try discriminate F; injection F as <- _ _; lia.
Qed.

Lemma decode_four l : decode_rune (firstn 4 l) = decode_rune l.
Proof.
  destruct l as [|b0 [|b1 [|b2 [|b3 l]]]]; try reflexivity. cbn [firstn].
  destruct l as [|b4 l]; [reflexivity|]. unfold decode_rune. destruct (b0 <? rune_self); [reflexivity|].
  destruct (utf8_first b0) as [[[n lo] hi]|] eqn:F; [|reflexivity]. apply first_length in F.
  replace (length [b0; b1; b2; b3] <? n)%nat with false by (symmetry; apply Nat.ltb_ge; cbn; lia).
  replace (length (b0 :: b1 :: b2 :: b3 :: b4 :: l) <? n)%nat with false by (symmetry; apply Nat.ltb_ge; cbn; lia).
  reflexivity.
Qed.

Lemma in_range_spec lo b hi : negb (in_range lo b hi) = false -> lo <= b <= hi.
Proof. unfold in_range. intros H. apply negb_false_iff, andb_true_iff in H. lia. Qed.

Lemma decode_high b l : 128 <= b -> 128 <= fst (decode_rune (b :: l)).
Proof.
  intros B. unfold decode_rune, rune_error. replace (b <? rune_self) with false by (symmetry; apply Z.ltb_ge; unfold rune_self; lia).
  destruct (utf8_first b) as [[[n lo] hi]|] eqn:F; [|cbn; lia].
  destruct l as [|b1 l]; [cbn; lia|]. destruct (_ <? n)%nat; [cbn; lia|].
  destruct (negb (in_range lo b1 hi)) eqn:R1; [cbn; lia|]. apply in_range_spec in R1.
  revert F. unfold utf8_first.
  repeat match goal with |- context [if ?a <? ?c then _ else _] => destruct (Z.ltb_spec a c)
                    | |- context [if ?a =? ?c then _ else _] => destruct (Z.eqb_spec a c) end;
    intros F; try discriminate F; injection F as <- <- <-; cbn [Nat.eqb];
    (cbn [fst]; try (Z.div_mod_to_equations; lia));
    (destruct l as [|b2 l]; [cbn; lia|]; destruct (negb (in_range 128 b2 191)) eqn:R2; [cbn; lia|]; apply in_range_spec in R2);
    (cbn [fst]; try (Z.div_mod_to_equations; lia));
    (destruct l as [|b3 l]; [cbn; lia|]; destruct (negb (in_range 128 b3 191)) eqn:R3; [cbn; lia|]; apply in_range_spec in R3);
    (cbn [fst]; Z.div_mod_to_equations; lia).
Qed.

Lemma decode_low b l : b < 128 -> decode_rune (b :: l) = (b, 1%nat).
Proof. intros B. unfold decode_rune. now replace (b <? rune_self) with true by (symmetry; apply Z.ltb_lt; unfold rune_self; lia). Qed.

Lemma runes_low b l : b < 128 -> runes (b :: l) = b :: runes l.
Proof. intros B. rewrite runes_cons by discriminate. now rewrite decode_low. Qed.

Lemma runes_high b l : 128 <= b -> exists r rs, runes (b :: l) = r :: rs /\ 128 <= r.
Proof. intros B. rewrite runes_cons by discriminate. pose proof (decode_high b l B). eauto. Qed.

(** ** States *)

Section Eq.
  Context (U : unicode_tables).
  Notation lexer := (lexer stream).
  Notation ops := stream_ops.

  (** The lexer [x] has the bytes [bs] before it, error [e], flag lastWasNumber [n];
      [k] is the line number it will have reached at the end of the text. *)
  Record at_ (x : lexer) (bs : list Z) (e : option string) (n : bool) (k : Z) : Prop := {
    at_ev : s_ev (lx_rd x) = map EvByte bs;
    at_term : s_term (lx_rd x) = TEof;
    at_bytes : Forall byte bs;
    at_err : lx_err x = e;
    at_num : lx_lastWasNumber x = n;
    at_line : lx_lineNo x + breaks (runes bs) = k
  }.

  Definition st (x : lexer) (rs : list Z) (e : option string) (n : bool) (k : Z) : Prop :=
    exists bs, at_ x bs e n k /\ runes bs = rs.

  Lemma lead_bytes_all n : forall bs, lead_bytes n (map EvByte bs) = firstn n bs.
  Proof. induction n as [|n IH]; intros [|b bs]; cbn; auto. now rewrite IH. Qed.

  Lemma runes_not_nil bs : runes bs = [] -> bs = [].
  Proof. destruct bs as [|b bs]; [auto|]. rewrite runes_cons by discriminate. discriminate. Qed.

  Lemma buf_nil x e n k : st x [] e n k ->
    exists x1, bufReadRune ops x = (x1, (0, Some EOF)) /\ st x1 [] e n k /\ lx_lineNo x1 = lx_lineNo x.
  Proof.
    intros (bs & [A1 A2 A3 A4 A5 A6] & R). apply runes_not_nil in R. subst bs.
    unfold bufReadRune. cbn [rd_rune stream_ops]. unfold stream_rune, stream_err. rewrite A1, A2. cbn.
    eexists. split; [reflexivity|]. split; [|reflexivity]. exists []. split; [|reflexivity]. constructor; cbn; auto.
  Qed.

  (** A rune is read, and can be pushed back. *)
  Lemma buf_cons x r rs e n k : st x (r :: rs) e n k ->
    exists x1, bufReadRune ops x = (x1, (r, None)) /\
      (exists bs, at_ x1 bs e n (k - (if isNewline r then 1 else 0)) /\ runes bs = rs) /\
      lx_lineNo x1 = lx_lineNo x /\
      exists s, stream_unread (lx_rd x1) = Some s /\
        forall y, lx_rd y = s -> lx_err y = e -> lx_lastWasNumber y = n -> lx_lineNo y = lx_lineNo x -> st y (r :: rs) e n k.
  Proof.
    intros (bs & [A1 A2 A3 A4 A5 A6] & R). destruct bs as [|b bs]; [discriminate R|].
    pose proof R as R'. rewrite runes_cons in R' by discriminate. assert (R1 : fst (decode_rune (b :: bs)) = r) by congruence.
    assert (R2 : runes (skipn (snd (decode_rune (b :: bs))) (b :: bs)) = rs) by congruence. clear R'.
    pose proof (decode_width (b :: bs) ltac:(discriminate)) as W.
    unfold bufReadRune. cbn [rd_rune stream_ops]. unfold stream_rune. rewrite A1, lead_bytes_all.
    destruct (firstn 4 (b :: bs)) as [|c cs] eqn:F4; [discriminate F4|]. rewrite <- F4, decode_four.
    rewrite (surjective_pairing (decode_rune (b :: bs))). set (m := snd (decode_rune (b :: bs))) in *. rewrite R1.
    assert (M4 : (m <= 4)%nat).
    { pose proof (decode_width (firstn 4 (b :: bs)) ltac:(discriminate)) as W4. rewrite decode_four in W4; fold m in W4.
      rewrite firstn_length in W4. lia. }
    eexists. split; [reflexivity|]. cbn [with_rd lx_rd lx_lineNo]. split.
    { exists (skipn m (b :: bs)). split; [|exact R2]. constructor; cbn [with_rd lx_rd s_ev s_term lx_err lx_lastWasNumber lx_lineNo]; auto.
      - now rewrite skipn_map.
      - rewrite Forall_forall in A3 |- *. intros z Hz. apply A3. rewrite <- (firstn_skipn m). apply in_or_app. now right.
      - rewrite R in A6. rewrite R2. cbn [breaks] in A6. lia. }
    split; [reflexivity|].
    unfold stream_unread. cbn [s_last s_ev s_term]. eexists. split; [reflexivity|].
    intros y Y1 Y2 Y3 Y4. exists (b :: bs). split; [|exact R]. constructor; rewrite ?Y1; cbn [s_ev s_term]; auto.
    - rewrite firstn_firstn. replace (Nat.min m 4) with m by lia.
      rewrite skipn_map, <- map_app, firstn_skipn. reflexivity.
    - rewrite Y4. exact A6.
  Qed.

  Lemma read_nil x e n k : st x [] e n k ->
    exists x1, readRune ops x = (x1, (0, Some EOF)) /\ st x1 [] e n k.
  Proof.
    intros H. destruct (buf_nil _ _ _ _ H) as (x1 & E & S1 & _). unfold readRune. rewrite E. cbn. eauto.
  Qed.

  Lemma peek_nil x e n k : st x [] e n k ->
    exists x1, peekRune ops x = (x1, 0) /\ st x1 [] e n k.
  Proof.
    intros H. destruct (buf_nil _ _ _ _ H) as (x1 & E & S1 & _). unfold peekRune, peekRuneE. rewrite E. eauto.
  Qed.

  Lemma peek_cons x r rs e n k : st x (r :: rs) e n k ->
    exists x1, peekRune ops x = (x1, r) /\ st x1 (r :: rs) e n k /\ lx_lineNo x1 = lx_lineNo x.
  Proof.
    intros H. destruct (buf_cons _ _ _ _ _ _ H) as (x1 & E & (bs & A & R) & L & s & S1 & S2).
    unfold peekRune, peekRuneE. rewrite E. cbn [rd_unread stream_ops]. rewrite S1.
    eexists. split; [reflexivity|]. split; [|exact L]. apply S2; [reflexivity|apply A|apply A|exact L].
  Qed.

  Lemma peek_st x rs e n k : st x rs e n k -> exists x1, peekRune ops x = (x1, hd 0 rs) /\ st x1 rs e n k.
  Proof.
    destruct rs as [|r rs]; intros H; [now apply peek_nil|].
    destruct (peek_cons _ _ _ _ _ _ H) as (x1 & E & S1 & _). eauto.
  Qed.

  Lemma read_cons x r rs e n k : st x (r :: rs) e n k ->
    exists x1 x2, readRune ops x = (x1, (r, None)) /\ st x1 rs e n k /\
      unreadRune ops x1 = Ok x2 /\ st x2 (r :: rs) e n k.
  Proof.
    intros H. destruct (buf_cons _ _ _ _ _ _ H) as (x1 & E & (bs & A & R) & L & s & S1 & S2).
    unfold readRune. rewrite E. destruct A as [A1 A2 A3 A4 A5 A6].
    set (x1' := if isNewline r then with_lineNo x1 (lx_lineNo x1 + 1) else x1).
    assert (RD : lx_rd x1' = lx_rd x1) by (unfold x1'; now destruct (isNewline r)).
    assert (ER : lx_err x1' = e) by (unfold x1'; now destruct (isNewline r)).
    assert (NU : lx_lastWasNumber x1' = n) by (unfold x1'; now destruct (isNewline r)).
    assert (LN : lx_lineNo x1' = lx_lineNo x + (if isNewline r then 1 else 0))
      by (unfold x1'; destruct (isNewline r); cbn; lia).
    assert (P0 : st (with_lineNo (with_rd x1' s) (lx_lineNo x)) (r :: rs) e n k).
    { apply S2; cbn; auto. }
    assert (P : exists x3, peekRune ops (with_rd x1' s) = (x3, r) /\ lx_lineNo x3 = lx_lineNo x1' /\
              st (with_lineNo x3 (lx_lineNo x)) (r :: rs) e n k).
    { destruct (peek_cons _ _ _ _ _ _ P0) as (x3 & E3 & S3 & L3).
      unfold peekRune, peekRuneE, bufReadRune in *. cbn [with_lineNo with_rd lx_rd] in *.
      destruct (rd_rune ops s) as [s1 [r1 e1]]. cbn [with_lineNo with_rd lx_rd] in *. destruct e1 as [e1|].
      - injection E3 as <- ->. eexists. split; [reflexivity|]. split; [reflexivity|].
        cbn [with_lineNo with_rd lx_rd lx_lineNo lx_err lx_lastWasNumber] in *. exact S3.
      - destruct (rd_unread ops s1); injection E3 as <- ->; eexists; (split; [reflexivity|]); (split; [reflexivity|]);
          cbn [with_lineNo with_rd lx_rd lx_lineNo lx_err lx_lastWasNumber] in *; exact S3. }
    destruct P as (x3 & E3 & L3 & S3).
    exists x1'. eexists. split; [reflexivity|]. split.
    { exists bs. split; [|exact R]. constructor; rewrite ?RD; auto. rewrite LN, <- L. lia. }
    unfold unreadRune. rewrite RD. cbn [rd_unread stream_ops]. rewrite S1.
    replace (with_rd x1' s) with (with_rd x1' s) by reflexivity. rewrite E3.
    split; [reflexivity|].
    destruct S3 as (bs3 & [B1 B2 B3 B4 B5 B6] & R3). exists bs3. split; [|exact R3].
    cbn [with_lineNo lx_rd lx_err lx_lastWasNumber lx_lineNo] in *.
    destruct (isNewline r); constructor; cbn [with_lineNo lx_rd lx_err lx_lastWasNumber lx_lineNo]; auto; lia.
  Qed.

  Lemma st_num x rs e n k b : st x rs e n k -> st (with_lastWasNumber x b) rs e b k.
  Proof. intros (bs & [A1 A2 A3 A4 A5 A6] & R). exists bs. split; [|exact R]. constructor; auto. Qed.

  Lemma st_line x rs e n k : st x rs e n k -> lx_lineNo x = k - breaks rs.
  Proof. intros (bs & [A1 A2 A3 A4 A5 A6] & <-). lia. Qed.

  (** The message of an error with [rest] still to read. *)
  Definition located (k : Z) (rest : list Z) (msg : string) : option string :=
    Some ("line " ++ sprint_int (k - breaks rest + 1) ++ ": " ++ msg).

  Lemma st_Error x rs e n k msg : st x rs e n k -> st (Error x msg) rs (located k rs msg) n k.
  Proof.
    intros H. pose proof (st_line _ _ _ _ _ H) as L. destruct H as (bs & [A1 A2 A3 A4 A5 A6] & R).
    exists bs. split; [|exact R]. constructor; auto. cbn. unfold located. now rewrite L.
  Qed.

  (** Discarding ASCII runes that are no line breaks. *)
  Lemma discard_st : forall p x rs e n k, Forall (fun a => a < 128 /\ isNewline a = false) p ->
    st x (p ++ rs) e n k -> st (discard ops x (length p)) rs e n k.
  Proof.
    intros p x rs e n k P (bs & [A1 A2 A3 A4 A5 A6] & R).
    assert (G : exists bs', bs = (p ++ bs')%list /\ runes bs' = rs).
    { clear -P R. revert bs R. induction p as [|a p IH]; intros bs R; [exists bs; auto|].
      apply Forall_cons_iff in P as [[Pa _] P]. destruct bs as [|b bs]; [discriminate R|].
      destruct (Z.lt_ge_cases b 128) as [L|L].
      - rewrite runes_low in R by assumption. injection R as -> R. apply IH in R; [|exact P].
        destruct R as (bs' & -> & R). exists bs'. auto.
      - destruct (runes_high b bs L) as (r & rs' & E & H). rewrite E in R. injection R as -> _. lia. }
    destruct G as (bs' & -> & R'). exists bs'. split; [|exact R'].
    assert (D : stream_discard_ev (length p) (map EvByte (p ++ bs')) = map EvByte bs').
    { clear. induction p; cbn; [now destruct (map EvByte bs')|assumption]. }
    constructor; cbn; auto.
    - now rewrite A1, D.
    - now apply Forall_app in A3 as [_ A3].
    - rewrite R in A6. rewrite R', <- A6. clear -P. induction p as [|a p IH]; [cbn; lia|]. cbn [app breaks].
      apply Forall_cons_iff in P as [[_ Pa] P]. rewrite Pa. specialize (IH P). lia.
  Qed.

  (** ** Text of runes *)

  Lemma text_nil : text [] = "".
  Proof. reflexivity. Qed.

  Lemma string_of_bytes_app a b : string_of_bytes (a ++ b) = string_of_bytes a ++ string_of_bytes b.
  Proof. induction a as [|c a IH]; cbn; [reflexivity|now rewrite IH]. Qed.

  Lemma text_app a b : text (a ++ b)%list = text a ++ text b.
  Proof. unfold text, encode_all. now rewrite flat_map_app, string_of_bytes_app. Qed.

  Lemma text_one r : text [r] = string_of_rune r.
  Proof. unfold text, encode_all, string_of_rune. cbn [flat_map]. now rewrite app_nil_r. Qed.

  Lemma byte_of_ascii_of b : 0 <= b < 256 -> byte_of_ascii (ascii_of_byte b) = b.
  Proof. intros B. unfold byte_of_ascii, ascii_of_byte. rewrite N_ascii_embedding; lia. Qed.

  Lemma encode_last r : exists l b, encode_rune r = (l ++ [b])%list /\
    ((b = r /\ 0 <= r < 128) \/ (128 <= b < 256 /\ ~ (0 <= r < 128))).
  Proof.
    unfold encode_rune.
    destruct ((0 <=? r) && (r <? 128)) eqn:E1.
    { apply andb_true_iff in E1. exists [], r. split; [reflexivity|]. left. lia. }
    assert (N : ~ (0 <= r < 128)) by (intros H; apply andb_false_iff in E1; lia).
    destruct ((0 <=? r) && (r <? 2048)).
    { exists [192 + r / 64], (128 + r mod 64). split; [reflexivity|]. right. split; [|exact N].
      pose proof (Z.mod_pos_bound r 64 ltac:(lia)). lia. }
    destruct (_ || _ || _).
    { exists [239; 191], 189. split; [reflexivity|]. right. split; [lia|exact N]. }
    destruct (r <? 65536).
    - exists [224 + r / 4096; 128 + r / 64 mod 64], (128 + r mod 64). split; [reflexivity|]. right. split; [|exact N].
      pose proof (Z.mod_pos_bound r 64 ltac:(lia)). lia.
    - exists [240 + r / 262144; 128 + r / 4096 mod 64; 128 + r / 64 mod 64], (128 + r mod 64). split; [reflexivity|].
      right. split; [|exact N]. pose proof (Z.mod_pos_bound r 64 ltac:(lia)). lia.
  Qed.

  Lemma ends_app s c : ends_with_hyphen (s ++ String c "") = Ascii.eqb c "-".
  Proof.
    induction s as [|d s IH]; [reflexivity|]. cbn [append ends_with_hyphen]. rewrite <- IH.
    destruct (s ++ String c "") eqn:E; [destruct s; discriminate E|reflexivity].
  Qed.

  Lemma ends_text w r : ends_with_hyphen (text (w ++ [r])%list) = (r =? ch "-").
  Proof.
    rewrite text_app. unfold text at 2, encode_all. cbn [flat_map]. rewrite app_nil_r.
    destruct (encode_last r) as (l & b & -> & H). rewrite string_of_bytes_app. cbn [string_of_bytes].
    replace (text w ++ string_of_bytes l ++ String (ascii_of_byte b) "") with ((text w ++ string_of_bytes l) ++ String (ascii_of_byte b) "")
      by (generalize (text w); induction s; cbn; congruence).
    rewrite ends_app.
    destruct (Ascii.eqb_spec (ascii_of_byte b) "-") as [E|E].
    - apply (f_equal byte_of_ascii) in E. rewrite byte_of_ascii_of in E by lia.
      destruct H as [[-> _]|[H _]]; [symmetry; now apply Z.eqb_eq|]. cbn in E. lia.
    - symmetry. apply Z.eqb_neq. intros ->. apply E. destruct H as [[-> _]|[_ H]]; [reflexivity|].
      exfalso. apply H. cbv. split; [discriminate|reflexivity].
  Qed.

  (** ** Comments and white space *)

  Lemma skip_fst_nil m : fst (skip m []) = [].
  Proof. now destruct m. Qed.

  Lemma skipLine_eq fuel : forall x hy rs e n k, st x rs e n k -> (length rs < fuel)%nat ->
    exists x' rs', skipLineCommentLoop ops fuel x hy = Ok x' /\ st x' rs' e n k /\
      (length rs' <= length rs)%nat /\ fst (skip (Line hy) rs) = fst (skip Plain rs').
  Proof.
    induction fuel as [|f IH]; intros x hy rs e n k H L; [lia|]. cbn [skipLineCommentLoop].
    destruct rs as [|r rs].
    { destruct (read_nil _ _ _ _ H) as (x1 & -> & S1). cbn. exists x1, []. auto. }
    destruct (read_cons _ _ _ _ _ _ H) as (x1 & x2 & -> & S1 & _). cbn [skip]. rewrite orb_false_r.
    destruct (isNewline r).
    { exists x1, rs. split; [reflexivity|]. split; [exact S1|]. split; [cbn; lia|reflexivity]. }
    cbn [length] in L.
    assert (K : forall hy', exists x' rs', skipLineCommentLoop ops f x1 hy' = Ok x' /\ st x' rs' e n k /\
      (length rs' <= S (length rs))%nat /\ fst (skip (Line hy') rs) = fst (skip Plain rs')).
    { intros hy'. destruct (IH x1 hy' rs e n k S1 ltac:(lia)) as (x' & rs' & A & B & C & D).
      exists x', rs'. repeat split; auto. }
    destruct (r =? ch "-"); [destruct hy|]; cbn [length fst]; auto.
    exists x1, rs. split; [reflexivity|]. split; [exact S1|]. split; [lia|reflexivity].
  Qed.

  (** Leaving one level of nesting. *)
  Definition leave (depth : nat) : mode :=
    match depth with O => Plain | S d => Block d false false end.

  Lemma skipBlock_eq fuel : forall x slash star rs e n k depth, st x rs e n k -> (length rs < fuel)%nat ->
    exists x' rs', skipBlockCommentLoop ops fuel x slash star = Ok x' /\ st x' rs' e n k /\
      (length rs' <= length rs)%nat /\ fst (skip (Block depth slash star) rs) = fst (skip (leave depth) rs').
  Proof.
    induction fuel as [|f IH]; intros x slash star rs e n k depth H L; [lia|]. cbn [skipBlockCommentLoop].
    destruct rs as [|r rs].
    { destruct (read_nil _ _ _ _ H) as (x1 & -> & S1). exists x1, []. rewrite !skip_fst_nil. auto. }
    destruct (read_cons _ _ _ _ _ _ H) as (x1 & x2 & -> & S1 & _). cbn [skip]. cbn [length] in L.
    assert (K : forall x2 rs2 a b d, st x2 rs2 e n k -> (length rs2 <= length rs)%nat ->
      exists x' rs', skipBlockCommentLoop ops f x2 a b = Ok x' /\ st x' rs' e n k /\
      (length rs' <= length rs)%nat /\ fst (skip (Block d a b) rs2) = fst (skip (leave d) rs')).
    { intros x3 rs2 a b d S3 L3. destruct (IH x3 a b rs2 e n k d S3 ltac:(lia)) as (x' & rs' & A & B & C & D).
      exists x', rs'. repeat split; auto. lia. }
    assert (K1 : forall a b d, exists x' rs', skipBlockCommentLoop ops f x1 a b = Ok x' /\ st x' rs' e n k /\
      (length rs' <= length (r :: rs))%nat /\ fst (skip (Block d a b) rs) = fst (skip (leave d) rs')).
    { intros a b d. destruct (K x1 rs a b d S1 ltac:(lia)) as (x' & rs' & A & B & C & D).
      exists x', rs'. repeat split; auto. cbn. lia. }
    destruct (r =? ch "/").
    { destruct star; [|apply K1]. exists x1, rs. split; [reflexivity|]. split; [exact S1|]. split; [cbn; lia|].
      now destruct depth. }
    destruct (r =? ch "*"); [|apply K1]. destruct slash; [|apply K1].
    destruct (K x1 rs false false (S depth) S1 ltac:(lia)) as (x3 & rs3 & -> & S3 & L3 & E3). cbn [rbind leave fst] in *.
    destruct (K x3 rs3 false false depth S3 L3) as (x4 & rs4 & -> & S4 & L4 & E4).
    exists x4, rs4. split; [reflexivity|]. split; [exact S4|]. split; [cbn; lia|]. congruence.
  Qed.

  (** ** Words and numbers *)

  Lemma white_not_ident r : isIdentifierChar U r = true -> isWhitespace r = false.
  Proof.
    intros H. destruct (isWhitespace r) eqn:W; [exfalso|reflexivity]. unfold isWhitespace in W.
    repeat (apply orb_true_iff in W as [W|W]); apply Z.eqb_eq in W; subst r; discriminate H.
  Qed.

  Lemma break_not_ident r : isIdentifierChar U r = true -> isNewline r = false.
  Proof.
    intros H. destruct (isNewline r) eqn:W; [exfalso|reflexivity]. unfold isNewline in W.
    repeat (apply orb_true_iff in W as [W|W]); apply Z.eqb_eq in W; subst r; discriminate H.
  Qed.

  Lemma zero_not_ident : isIdentifierChar U 0 = false.
  Proof. reflexivity. Qed.

  Lemma consumeWordLoop_eq fuel : forall x w last rs e n k, st x rs e n k -> (length rs < fuel)%nat ->
    exists x', consumeWordLoop ops U fuel x (text (w ++ [last])%list) last =
        Ok (x', match fst (word_scan U (w ++ [last]) last rs) with
                | inl m => WordErr m | inr w' => WordOk (text w') end)
      /\ st x' (snd (word_scan U (w ++ [last]) last rs)) e n k.
  Proof.
    induction fuel as [|f IH]; intros x w last rs e n k H L; [lia|]. cbn [consumeWordLoop].
    destruct rs as [|r rs].
    { destruct (read_nil _ _ _ _ H) as (x1 & -> & S1). cbn [orb word_scan].
      rewrite ends_text. destruct (last =? ch "-"); exists x1; auto. }
    destruct (read_cons _ _ _ _ _ _ H) as (x1 & x2 & -> & S1 & U1 & S2). cbn [orb word_scan].
    destruct (isIdentifierChar U r) eqn:I.
    - rewrite (white_not_ident _ I). cbn [orb negb].
      replace (text (w ++ [last])%list ++ string_of_rune r) with (text ((w ++ [last]) ++ [r])%list)
        by (now rewrite (text_app (w ++ [last])), text_one).
      destruct ((last =? ch "-") && (r =? ch "-")); [exists x1; auto|].
      apply IH; [exact S1|cbn in L; lia].
    - cbn [negb]. rewrite orb_true_r, ends_text. destruct (last =? ch "-"); [exists x1; auto|].
      rewrite U1. cbn [rbind]. exists x2. auto.
  Qed.

  Lemma digit_not_break r : is_digit U r = true -> isNewline r = false.
  Proof. intros H. apply break_not_ident. unfold isIdentifierChar. rewrite H. now rewrite orb_true_r. Qed.

  Lemma letter_not_break r : is_letter U r = true -> isNewline r = false.
  Proof. intros H. apply break_not_ident. unfold isIdentifierChar. now rewrite H. Qed.

  (** Outcome of reading a number. *)
  Lemma consumeNumberLoop_eq fuel : forall x v w rs e n k, st x rs e n k -> (length rs < fuel)%nat ->
    exists x', st x' (snd (digits_scan U w rs)) e n k /\
      consumeNumberLoop ops U fuel x v (text w) =
        let t := text (fst (digits_scan U w rs)) in
        match atoi t with
        | AtoiOk i => Ok (T_NUMBER, lv_set_number v t i, x')
        | AtoiSyntax => Ok (-1, v, Error x' ("Failed to parse number: " ++ atoi_error_text t false))
        | AtoiRange => Ok (-1, v, Error x' ("Failed to parse number: " ++ atoi_error_text t true))
        end.
  Proof.
    induction fuel as [|f IH]; intros x v w rs e n k H L; [lia|]. cbn [consumeNumberLoop].
    destruct rs as [|r rs].
    { destruct (read_nil _ _ _ _ H) as (x1 & -> & S1). cbn [orb digits_scan fst snd rbind]. exists x1. auto. }
    destruct (read_cons _ _ _ _ _ _ H) as (x1 & x2 & -> & S1 & U1 & S2). cbn [orb digits_scan].
    destruct (is_digit U r) eqn:I; cbn [negb].
    - replace (text w ++ string_of_rune r) with (text (w ++ [r])%list) by (now rewrite text_app, text_one).
      apply IH; [exact S1|cbn in L; lia].
    - rewrite U1. cbn [rbind fst snd]. exists x2. auto.
  Qed.

  Lemma buf_plain x r rs e n k : st x (r :: rs) e n k -> isNewline r = false ->
    exists x1, bufReadRune ops x = (x1, (r, None)) /\ st x1 rs e n k.
  Proof.
    intros H N. destruct (buf_cons _ _ _ _ _ _ H) as (x1 & E & (bs & A & R) & _). rewrite N in A.
    exists x1. split; [exact E|]. exists bs. split; [|exact R]. now replace (k - 0) with k in A by lia.
  Qed.

  (** ** Looking at two runes *)

  Lemma peek_bytes m x bs e n k : at_ x bs e n k ->
    exists s, stream_peek m (lx_rd x) =
      (s, (firstn m bs, m, if (length (firstn m bs) =? m)%nat then None else Some EOF))
      /\ at_ (with_rd x s) bs e n k.
  Proof.
    intros [A1 A2 A3 A4 A5 A6]. unfold stream_peek. rewrite A1, lead_bytes_all.
    destruct (length (firstn m bs) =? m)%nat eqn:L.
    - eexists. split; [reflexivity|]. constructor; cbn; auto.
    - unfold stream_err. cbn [s_ev s_term].
      assert (DF : drop_fail (map EvByte bs) = map EvByte bs) by (clear; induction bs; cbn; congruence).
      rewrite DF. apply Nat.eqb_neq in L. rewrite firstn_length in L.
      rewrite skipn_map, skipn_all2 by (rewrite firstn_length; lia). cbn [map]. rewrite A2.
      eexists. split; [reflexivity|]. constructor; cbn; auto.
  Qed.

  (** One round of peekRunes at byte position [pos]. *)
  Lemma peekInner_eq x bs e n k pos : at_ x bs e n k -> (pos <= length bs)%nat ->
    exists x1 o, peekInner ops x pos [1; 2; 3; 4]%nat = Ok (x1, o) /\ at_ x1 bs e n k /\
      match skipn pos bs with
      | [] => o = PiReturn
      | b :: _ => if b <? 128 then o = PiBreak b 1%nat else o = PiReturn \/ exists r w, o = PiBreak r w /\ 128 <= r /\ (pos + w <= length bs)%nat
      end.
  Proof.
    intros A P.
    assert (G : forall ls x, at_ x bs e n k -> Forall (fun l => 1 <= l)%nat ls -> last ls 4%nat = 4%nat -> ls <> [] ->
      exists x1 o, peekInner ops x pos ls = Ok (x1, o) /\ at_ x1 bs e n k /\
      match skipn pos bs with
      | [] => o = PiReturn
      | b :: _ => if b <? 128 then (exists l ls', ls = l :: ls' /\ (1 <= l)%nat) /\ o = PiBreak b 1%nat \/ (skipn pos bs <> [] /\ (2 <= hd 0 ls)%nat /\ o = PiReturn)
                  else o = PiReturn \/ exists r w, o = PiBreak r w /\ 128 <= r /\ (pos + w <= length bs)%nat
      end).
    { clear x A. induction ls as [|l ls IH]; intros x A F LL NE; [congruence|]. clear NE. cbn [peekInner].
      apply Forall_cons_iff in F as [F1 F2].
      destruct (peek_bytes (pos + l) x bs e n k A) as (s & E & A1). cbn [rd_peek stream_ops]. rewrite E.
      rewrite Nat.ltb_irrefl, firstn_length.
      destruct (pos + l <=? length bs)%nat eqn:LE.
      - apply Nat.leb_le in LE. rewrite Nat.min_l by lia. rewrite Nat.eqb_refl, Nat.leb_refl. cbn [andb].
        replace (firstn l (skipn pos (firstn (pos + l) bs))) with (firstn l (skipn pos bs)).
        2:{ rewrite <- firstn_skipn_comm. now rewrite firstn_firstn, Nat.min_id. }
        destruct (skipn pos bs) as [|b t] eqn:SK.
        { apply (f_equal (@length Z)) in SK. rewrite skipn_length in SK. cbn in SK. lia. }
        destruct l as [|l]; [lia|]. cbn [firstn].
        destruct (Z.ltb_spec b 128) as [B|B].
        + replace (full_rune (b :: firstn l t)) with true
            by (unfold full_rune, rune_self; now replace (b <? 128) with true by (symmetry; now apply Z.ltb_lt)).
          rewrite decode_low by assumption. eexists _, _. split; [reflexivity|]. split; [exact A1|]. left.
          split; [|reflexivity]. exists (S l), ls. split; [reflexivity|lia].
        + destruct (full_rune (b :: firstn l t)) eqn:FR.
          * pose proof (decode_high b (firstn l t) B) as DH. pose proof (decode_width (b :: firstn l t) ltac:(discriminate)) as DW. destruct (decode_rune (b :: firstn l t)) as [r w].
            eexists _, _. split; [reflexivity|]. split; [exact A1|]. right. exists r, w. split; [reflexivity|]. split; [exact DH|].
            cbn [snd length] in DW. rewrite firstn_length in DW. apply (f_equal (@length Z)) in SK. rewrite skipn_length in SK. cbn in SK. lia.
          * destruct ls as [|l' ls].
            { exfalso. cbn in LL. injection LL as ->. rewrite full_rune_four in FR; [discriminate FR|].
              cbn [length]. rewrite firstn_length. apply (f_equal (@length Z)) in SK. rewrite skipn_length in SK. cbn in SK. lia. }
            destruct (IH (with_rd x s) A1 F2 LL ltac:(discriminate)) as (x1 & o & E1 & A2 & Q).
            exists x1, o. split; [exact E1|]. split; [exact A2|].
            replace (b <? 128) with false in Q by (symmetry; now apply Z.ltb_ge). exact Q.
      - apply Nat.leb_gt in LE. rewrite Nat.min_r by lia.
        replace (length bs =? pos + l)%nat with false by (symmetry; apply Nat.eqb_neq; lia).
        replace (pos + l <=? length bs)%nat with false by (symmetry; apply Nat.leb_gt; lia). cbn [andb].
        eexists _, _. split; [reflexivity|]. split; [exact A1|].
        destruct (skipn pos bs) as [|b t] eqn:SK; [reflexivity|].
        destruct (b <? 128); [|now left]. right. split; [discriminate|]. cbn [hd]. split; [|reflexivity].
        apply (f_equal (@length Z)) in SK. rewrite skipn_length in SK. cbn in SK. lia. }
    destruct (G [1; 2; 3; 4]%nat x A) as (x1 & o & E & A1 & Q); [repeat constructor; lia|reflexivity|discriminate|].
    exists x1, o. split; [exact E|]. split; [exact A1|]. destruct (skipn pos bs) as [|b t]; [exact Q|].
    destruct (b <? 128); [|exact Q]. destruct Q as [[_ Q]|(_ & Q & _)]; [exact Q|cbn in Q; lia].
  Qed.

  Lemma rune_low b : 0 <= b < 128 -> string_of_rune b = String (ascii_of_byte b) "".
  Proof.
    intros B. unfold string_of_rune, encode_rune. now replace ((0 <=? b) && (b <? 128)) with true by (symmetry; apply andb_true_iff; lia).
  Qed.

  Lemma rune_high r : 128 <= r -> exists c s, string_of_rune r = String c s /\ 128 <= byte_of_ascii c.
  Proof.
    intros B. unfold string_of_rune, encode_rune.
    replace ((0 <=? r) && (r <? 128)) with false by (symmetry; apply andb_false_iff; lia).
    destruct ((0 <=? r) && (r <? 2048)) eqn:E2.
    { apply andb_true_iff in E2. eexists _, _. cbn [string_of_bytes]. split; [reflexivity|].
      assert (2 <= r / 64 < 32) by (split; [apply Z.div_le_lower_bound|apply Z.div_lt_upper_bound]; lia).
      rewrite byte_of_ascii_of; lia. }
    assert (r >= 2048) by (apply andb_false_iff in E2; lia).
    destruct ((r <? 0) || (1114111 <? r) || _) eqn:E3.
    { eexists _, _. cbn [string_of_bytes]. split; [reflexivity|]. rewrite byte_of_ascii_of; lia. }
    apply orb_false_iff in E3 as [E3 _]. apply orb_false_iff in E3 as [_ E3]. apply Z.ltb_ge in E3.
    destruct (Z.ltb_spec r 65536); eexists _, _; cbn [string_of_bytes]; (split; [reflexivity|]).
    - assert (0 <= r / 4096 < 16) by (split; [apply Z.div_le_lower_bound|apply Z.div_lt_upper_bound]; lia).
      rewrite byte_of_ascii_of; lia.
    - assert (0 <= r / 262144 < 5) by (split; [apply Z.div_le_lower_bound|apply Z.div_lt_upper_bound]; lia).
      rewrite byte_of_ascii_of; lia.
  Qed.

  Lemma ascii_eq a b : 0 <= a < 256 -> 0 <= b < 256 -> ascii_of_byte a = ascii_of_byte b -> a = b.
  Proof. intros A B H. apply (f_equal byte_of_ascii) in H. now rewrite !byte_of_ascii_of in H. Qed.

  Lemma peekRunes_eq fuel x rs e n k a b : st x rs e n k -> (2 <= fuel)%nat -> 0 <= a < 128 -> 0 <= b < 128 ->
    exists x1 s, peekRunes ops fuel x 2 = Ok (x1, s) /\ st x1 rs e n k /\
      String.eqb s (String (ascii_of_byte a) (String (ascii_of_byte b) "")) = starts [a; b] rs.
  Proof.
    intros (bs & A & R) F Ha Hb. destruct fuel as [|[|fuel]]; [lia|lia|].
    unfold peekRunes. cbn [peekRunesLoop].
    destruct (peekInner_eq x bs e n k 0 A ltac:(lia)) as (x1 & o & E & A1 & Q). rewrite E. cbn [rbind].
    cbn [skipn] in Q. destruct bs as [|b1 bs].
    { subst o. exists x1, "". split; [reflexivity|]. split; [now exists []|]. subst rs. reflexivity. }
    assert (B1 : byte b1) by (apply at_bytes, Forall_cons_iff in A; apply A).
    destruct (Z.ltb_spec b1 128) as [L1|L1].
    - subst o. cbn [append Nat.add]. rewrite rune_low by (unfold byte in B1; lia).
      rewrite runes_low in R by assumption.
      destruct (peekInner_eq x1 (b1 :: bs) e n k 1 A1 ltac:(cbn; lia)) as (x2 & o & E2 & A2 & Q2). rewrite E2.
      cbn [rbind]. cbn [skipn] in Q2.
      assert (S2 : st x2 rs e n k) by (exists (b1 :: bs); split; [exact A2|now rewrite runes_low]).
      assert (QA : forall s, String.eqb (String (ascii_of_byte b1) s) (String (ascii_of_byte a) (String (ascii_of_byte b) ""))
         = (a =? b1) && String.eqb s (String (ascii_of_byte b) "")).
      { intros s. cbn [String.eqb]. destruct (Z.eqb_spec a b1) as [->|N].
        - now rewrite Ascii.eqb_refl.
        - destruct (Ascii.eqb_spec (ascii_of_byte b1) (ascii_of_byte a)) as [C|C]; [|reflexivity].
          apply ascii_eq in C; unfold byte in B1; lia. }
      destruct bs as [|b2 bs].
      { subst o. exists x2, (String (ascii_of_byte b1) ""). split; [reflexivity|]. split; [exact S2|]. subst rs.
        rewrite QA. cbn. now rewrite andb_false_r. }
      assert (B2 : byte b2) by (apply at_bytes in A; apply Forall_cons_iff in A as [_ A]; apply Forall_cons_iff in A as [A _]; exact A).
      assert (QB : forall c s, String.eqb (String c s) (String (ascii_of_byte b) "") = (byte_of_ascii c =? b) && String.eqb s "").
      { intros c s. cbn [String.eqb]. destruct (Z.eqb_spec (byte_of_ascii c) b) as [Eb|N].
        - rewrite <- Eb at 1. rewrite ascii_of_byte_of. now rewrite Ascii.eqb_refl.
        - destruct (Ascii.eqb_spec c (ascii_of_byte b)) as [C|C]; [|reflexivity].
          exfalso. apply N. rewrite C, byte_of_ascii_of; lia. }
      destruct (Z.ltb_spec b2 128) as [L2|L2].
      + subst o. rewrite runes_low in R by assumption. eexists x2, _. cbn [append]. split.
        { destruct fuel; reflexivity. }
        split; [exact S2|]. rewrite rune_low by (unfold byte in B2; lia). cbn [append].
        rewrite QA, QB. subst rs. cbn [starts String.eqb]. rewrite byte_of_ascii_of by exact B2.
        rewrite (Z.eqb_sym b2 b). now rewrite andb_true_r.
      + destruct (runes_high b2 bs L2) as (r2 & rs2 & E3 & H3). rewrite E3 in R.
        assert (ST : starts [a; b] rs = false).
        { subst rs. cbn [starts]. replace (b =? r2) with false by (symmetry; apply Z.eqb_neq; lia). cbn. now rewrite andb_false_r. }
        rewrite ST. destruct Q2 as [->|(r & w & -> & Hr & LW)].
        * exists x2, (String (ascii_of_byte b1) ""). split; [reflexivity|]. split; [exact S2|]. rewrite QA. cbn. now rewrite andb_false_r.
        * eexists x2, _. split; [destruct fuel; reflexivity|]. split; [exact S2|].
          destruct (rune_high r Hr) as (c & s & -> & Hc). cbn [append]. rewrite QA, QB.
          replace (byte_of_ascii c =? b) with false by (symmetry; apply Z.eqb_neq; lia). cbn. now rewrite andb_false_r.
    - destruct (runes_high b1 bs L1) as (r1 & rs1 & E3 & H3). rewrite E3 in R.
      assert (ST : starts [a; b] rs = false).
      { subst rs. cbn [starts]. now replace (a =? r1) with false by (symmetry; apply Z.eqb_neq; lia). }
      rewrite ST. assert (S1 : st x1 rs e n k) by (exists (b1 :: bs); split; [exact A1|congruence]).
      destruct Q as [->|(r & w & -> & Hr & LW)].
      + exists x1, "". auto.
      + (* whatever follows, the first character is not [a] *)
        cbn [append]. destruct (rune_high r Hr) as (c & s & Es & Hc). rewrite Es.
        assert (NEQ : forall t, String.eqb (String c t) (String (ascii_of_byte a) (String (ascii_of_byte b) "")) = false).
        { intros t. cbn [String.eqb]. destruct (Ascii.eqb_spec c (ascii_of_byte a)) as [C|C]; [|reflexivity].
          exfalso. rewrite C, byte_of_ascii_of in Hc; lia. }
        destruct (peekInner_eq x1 (b1 :: bs) e n k (0 + w) A1 LW) as (x2 & o2 & E2 & A2 & Q2). rewrite E2. cbn [rbind].
        assert (S2 : st x2 rs e n k) by (exists (b1 :: bs); split; [exact A2|congruence]).
        assert (o2 = PiReturn \/ exists r' w', o2 = PiBreak r' w').
        { destruct (skipn (0 + w) (b1 :: bs)) as [|b0 t]; [auto|]. destruct (b0 <? 128); [subst; eauto|].
          destruct Q2 as [->|(r' & w' & -> & _ & _)]; eauto. }
        destruct H as [->|(r' & w' & ->)].
        * eexists x2, _. split; [reflexivity|]. split; [exact S2|]. apply NEQ.
        * eexists x2, _. split; [destruct fuel; reflexivity|]. split; [exact S2|]. cbn [append]. apply NEQ.
  Qed.

  (** ** Single symbols *)

  Lemma symbols_low : forallb (fun r => 
    match symbol_code r with
    | Some c => (fst (consumeSingleSymbol (new_lexer tt) r) =? c) && (57346 <=? c)
                && negb ((c =? T_TYPEORMODULEREFERENCE) || (c =? T_VALUEIDENTIFIER)) && negb (c =? T_NUMBER)
    | None => fst (consumeSingleSymbol (new_lexer tt) r) =? -1
    end) (map Z.of_nat (seq 0 128)) = true.
  Proof. vm_compute. reflexivity. Qed.

  Lemma single_any {A B} (x : Lexer.lexer A) (y : Lexer.lexer B) r : fst (consumeSingleSymbol x r) = fst (consumeSingleSymbol y r).
  Proof.
    unfold consumeSingleSymbol.
    repeat match goal with |- context [if ?b then _ else _] => destruct b end; reflexivity.
  Qed.

  Lemma single_state (x : lexer) r : snd (consumeSingleSymbol x r) =
    if fst (consumeSingleSymbol x r) =? -1 then Error x ("Unexpected character: " ++ string_of_rune r) else x.
  Proof.
    unfold consumeSingleSymbol.
    repeat match goal with |- context [if r =? ?b then _ else _] => destruct (r =? b) end; reflexivity.
  Qed.

  Lemma symbol_high r : ~ (0 <= r < 128) -> symbol_code r = None /\
    fst (consumeSingleSymbol (new_lexer tt) r) = -1.
  Proof.
    intros H. split.
    - unfold symbol_code. rewrite text_one.
      assert (L : forall c, String.eqb (string_of_rune r) (String c "") = false).
      { intros c. apply String.eqb_neq. unfold string_of_rune, encode_rune.
        replace ((0 <=? r) && (r <? 128)) with false by (symmetry; apply andb_false_iff; lia).
        repeat match goal with |- context [if ?b then _ else _] => destruct b end; cbn; discriminate. }
      cbn [assoc_word]. rewrite !L. reflexivity.
    - unfold consumeSingleSymbol.
      repeat match goal with |- context [if r =? ?b then _ else _] => 
        let v := eval vm_compute in b in change b with v; destruct (Z.eqb_spec r v); [lia|] end.
      reflexivity.
  Qed.

  Lemma symbol_eq (x : lexer) r : 
    match symbol_code r with
    | Some c => consumeSingleSymbol x r = (c, x) /\ 57346 <= c /\ token_of c = fun _ => plain_token c
    | None => consumeSingleSymbol x r = (-1, Error x ("Unexpected character: " ++ text [r]))
    end.
  Proof.
    rewrite text_one. pose proof (single_state x r) as S1. pose proof (single_any x (new_lexer tt) r) as S2.
    destruct (Z_lt_dec r 0) as [N|N]; [|destruct (Z_lt_dec r 128) as [N2|N2]].
    - destruct (symbol_high r ltac:(lia)) as [-> H]. rewrite H in S2. rewrite S2 in S1. cbn in S1.
      rewrite (surjective_pairing (consumeSingleSymbol x r)). now rewrite S1, S2.
    - pose proof symbols_low as C. rewrite forallb_forall in C. specialize (C r).
      assert (I : In r (map Z.of_nat (seq 0 128))).
      { apply in_map_iff. exists (Z.to_nat r). split; [lia|]. apply in_seq. lia. }
      specialize (C I). destruct (symbol_code r) as [c|].
      + apply andb_true_iff in C as [C C4]. apply andb_true_iff in C as [C C3]. apply andb_true_iff in C as [C1 C2].
        apply Z.eqb_eq in C1. apply Z.leb_le in C2. rewrite C1 in S2. rewrite S2 in S1.
        replace (c =? -1) with false in S1 by (symmetry; apply Z.eqb_neq; lia).
        split; [rewrite (surjective_pairing (consumeSingleSymbol x r)); now rewrite S1, S2|]. split; [exact C2|].
        apply negb_true_iff in C3, C4. unfold token_of, plain_token. now rewrite C3, C4.
      + apply Z.eqb_eq in C. rewrite C in S2. rewrite S2 in S1. cbn in S1.
        rewrite (surjective_pairing (consumeSingleSymbol x r)). now rewrite S1, S2.
    - destruct (symbol_high r ltac:(lia)) as [-> H]. rewrite H in S2. rewrite S2 in S1. cbn in S1.
      rewrite (surjective_pairing (consumeSingleSymbol x r)). now rewrite S1, S2.
  Qed.

  Lemma reserved_plain_check : forallb (fun p => let c := snd p in
    negb ((c =? T_TYPEORMODULEREFERENCE) || (c =? T_VALUEIDENTIFIER)) && negb (c =? T_NUMBER)) RESERVED_WORDS = true.
  Proof. vm_compute. reflexivity. Qed.

  Lemma reserved_plain w c v : assoc_word w RESERVED_WORDS = Some c -> token_of c v = plain_token c.
  Proof.
    intros H. apply assoc_word_In in H. pose proof reserved_plain_check as C. rewrite forallb_forall in C.
    apply C in H. cbn [snd] in H. apply andb_true_iff in H as [C3 C4]. apply negb_true_iff in C3, C4.
    unfold token_of, plain_token. now rewrite C3, C4.
  Qed.

  (** ** Lex *)

  (** The message of an error in a word. *)
  Lemma word_scan_message : forall rs w l, match fst (word_scan U w l rs) with
    | inl m => String.prefix "Failed" m = false | inr _ => True end.
  Proof.
    induction rs as [|x rs IH]; intros w l; cbn [word_scan].
    - destruct (_ =? _); reflexivity || exact I.
    - destruct (isIdentifierChar U x); [|destruct (_ =? _); reflexivity || exact I].
      destruct (_ && _); [reflexivity|apply IH].
  Qed.

  (** What lval is after the token [t]. *)
  Definition lval_of (v : lexval) (t : token) : lexval :=
    if tk_kind t =? T_NUMBER then lv_set_number v (tk_name t) (tk_number t)
    else if (tk_kind t =? T_TYPEORMODULEREFERENCE) || (tk_kind t =? T_VALUEIDENTIFIER) then lv_set_name v (tk_name t)
    else v.

  (** What a call of Lex that met the lexical item [i] leaves behind. *)
  Definition lexedf (e : option string) (k : Z) (v : lexval) (i : item) (c : Z) (v' : lexval) (x' : lexer) : Prop :=
    match i with
    | End => c = 0 /\ v' = v /\ st x' [] e false k
    | Tok t num rest => c = tk_kind t /\ (57346 <= c /\ v' = lval_of v t) /\ token_of c v' = t /\ st x' rest e num k
    | Bad msg rest => c = -1 /\ v' = v /\ st x' rest (located k rest msg) (String.prefix "Failed" msg) k
    end.

  Lemma plain_lexedf e k v c x' rest : 57346 <= c -> (token_of c = fun _ => plain_token c) -> st x' rest e false k ->
    lexedf e k v (Tok (plain_token c) false rest) c v x'.
  Proof.
    intros C T S1. cbn [lexedf]. split; [reflexivity|]. split; [|split; [now rewrite T|exact S1]].
    split; [exact C|]. unfold lval_of. cbn [plain_token tk_kind].
    pose proof (f_equal (fun f => f {| lv_name := "x"; lv_numberRepr := "x"; lv_Number := 1 |}) T) as T1.
    unfold token_of, plain_token in T1. injection T1 as T1 T2.
    destruct (c =? T_NUMBER); [discriminate T2|]. now destruct ((c =? _) || _).
  Qed.

  Lemma lexToken_eq fuel x v lw r rs e k : st x rs e false k -> (length rs + 2 <= fuel)%nat ->
    (is_letter U r = true \/ is_digit U r = true -> exists x2, unreadRune ops x = Ok x2 /\ st x2 (r :: rs) e false k) ->
    exists c v' x', lexToken ops U fuel x v lw r = Ok (c, v', x') /\ lexedf e k v (token_at U lw r rs) c v' x'.
  Proof.
    intros S1 F UN. unfold lexToken, token_at. destruct (is_letter U r) eqn:LT.
    { destruct (lw && _).
      { eexists _, _, _. split; [reflexivity|]. apply plain_lexedf; [cbv; discriminate|reflexivity|exact S1]. }
      destruct (UN (or_introl eq_refl)) as (x2 & -> & S2). cbn [rbind].
      destruct (buf_plain _ _ _ _ _ _ S2 (letter_not_break _ LT)) as (x3 & E3 & S3).
      unfold consumeWord. rewrite E3. 
      destruct (consumeWordLoop_eq fuel x3 [] r rs e false k S3 ltac:(lia)) as (x4 & E4 & S4).
      cbn [app] in E4, S4. rewrite text_one in E4. rewrite E4. cbn [rbind].
      pose proof (word_scan_message rs [r] r) as WM.
      destruct (word_scan U [r] r rs) as [[m|w] rest]; cbn [fst snd] in *.
      - eexists _, _, _. split; [reflexivity|]. split; [reflexivity|]. split; [reflexivity|]. rewrite WM. eapply st_Error. exact S4.
      - unfold word_token. destruct (is_upper U r).
        + destruct (assoc_word (text w) RESERVED_WORDS) as [code|] eqn:A.
          * eexists _, _, _. split; [reflexivity|]. cbn [lexedf plain_token tk_kind]. split; [reflexivity|].
            split; [split; [now apply assoc_word_pos in A|]|split; [now apply reserved_plain with (w := text w)|exact S4]].
            pose proof (reserved_plain (text w) code {| lv_name := "x"; lv_numberRepr := "x"; lv_Number := 1 |} A) as T1.
            unfold token_of, plain_token in T1. injection T1 as T1 T2. unfold lval_of. cbn [plain_token tk_kind].
            destruct (code =? T_NUMBER); [discriminate T2|]. now destruct ((code =? _) || _).
          * eexists _, _, _. split; [reflexivity|]. cbn. split; [reflexivity|]. split; [split; [cbv; discriminate|reflexivity]|].
            split; [reflexivity|exact S4].
        + eexists _, _, _. split; [reflexivity|]. cbn. split; [reflexivity|]. split; [split; [cbv; discriminate|reflexivity]|].
          split; [reflexivity|exact S4]. }
    destruct (is_digit U r) eqn:DG.
    { destruct (UN (or_intror eq_refl)) as (x2 & -> & S2). cbn [rbind]. apply (st_num _ _ _ _ _ true) in S2.
      destruct (buf_plain _ _ _ _ _ _ S2 (digit_not_break _ DG)) as (x3 & E3 & S3).
      unfold consumeNumber. rewrite E3.
      destruct (consumeNumberLoop_eq fuel x3 v [r] rs e true k S3 ltac:(lia)) as (x4 & S4 & E4).
      rewrite text_one in E4. rewrite E4. destruct (digits_scan U [r] rs) as [w rest]; cbn [fst snd] in *.
      cbv zeta. destruct (atoi (text w)) as [i| |].
      - eexists _, _, _. split; [reflexivity|]. cbn. split; [reflexivity|]. split; [split; [cbv; discriminate|reflexivity]|].
        split; [reflexivity|exact S4].
      - eexists _, _, _. split; [reflexivity|]. split; [reflexivity|]. split; [reflexivity|]. cbn [append String.prefix ascii_dec ascii_rec ascii_rect]. eapply st_Error. exact S4.
      - eexists _, _, _. split; [reflexivity|]. split; [reflexivity|]. split; [reflexivity|]. cbn [append String.prefix ascii_dec ascii_rec ascii_rect]. eapply st_Error. exact S4. }
    clear UN LT DG.
    assert (PK2 : forall (b : bool) x a1 b1 rs, st x rs e false k -> (length rs + 2 <= fuel)%nat -> 0 <= a1 < 128 -> 0 <= b1 < 128 ->
      exists x1, (if b then rbind (peekRunes ops fuel x 2) (fun p => let '(x', s) := p in Ok (x', String.eqb s (String (ascii_of_byte a1) (String (ascii_of_byte b1) "")))) else Ok (x, false))
        = Ok (x1, b && starts [a1; b1] rs) /\ st x1 rs e false k).
    { clear. intros b x a1 b1 rs S1 F A B. destruct b; [|exists x; auto].
      destruct (peekRunes_eq fuel x rs e false k a1 b1 S1 ltac:(lia) A B) as (x1 & s & E & S2 & Q).
      rewrite E. cbn [rbind]. rewrite Q. exists x1. auto. }
    assert (PK1 : forall (b : bool) x a1 rs, st x rs e false k -> 0 < a1 ->
      exists x1, (if b then let '(x', c) := peekRune ops x in (x', c =? a1) else (x, false))
        = (x1, b && starts [a1] rs) /\ st x1 rs e false k).
    { clear. intros b x a1 rs S1 A. destruct b; [|exists x; auto].
      destruct (peek_st _ _ _ _ _ S1) as (x1 & E & S2). rewrite E. exists x1. split; [|exact S2].
      destruct rs as [|r rs]; cbn [hd starts].
      - replace (0 =? a1) with false by (symmetry; apply Z.eqb_neq; lia). reflexivity.
      - now rewrite Z.eqb_sym, andb_true_r. }
    assert (DS : forall p x, Forall (fun a => a < 128 /\ isNewline a = false) p -> starts p rs = true -> st x rs e false k ->
      st (discard ops x (length p)) (skipn (length p) rs) e false k).
    { clear. intros p x FP H S1. apply discard_st with (p := p); [exact FP|].
      replace (p ++ skipn (length p) rs)%list with rs; [exact S1|].
      clear -H. revert rs H. induction p as [|a p IH]; intros rs H; [reflexivity|].
      destruct rs as [|r rs]; [discriminate H|]. cbn in H. apply andb_true_iff in H as [H1 H2]. apply Z.eqb_eq in H1.
      subst. cbn. f_equal. now apply IH. }
    destruct (PK2 (r =? ch ":") x (ch ":") (ch "=") rs S1 F) as (x1 & E1 & S2); [cbv; intuition discriminate..|].
    change (String (ascii_of_byte (ch ":")) (String (ascii_of_byte (ch "=")) "")) with ":=" in E1.
    rewrite E1. cbn [rbind].
    destruct ((r =? ch ":") && starts [ch ":"; ch "="] rs) eqn:B1.
    { apply andb_true_iff in B1 as [_ B1]. eexists _, _, _. split; [reflexivity|].
      apply plain_lexedf; [cbv; discriminate|reflexivity|].
      apply (DS [ch ":"; ch "="]); [repeat constructor|exact B1|exact S2]. }
    destruct (PK2 (r =? ch ".") x1 (ch ".") (ch ".") rs S2 F) as (x2 & E2 & S3); [cbv; intuition discriminate..|].
    change (String (ascii_of_byte (ch ".")) (String (ascii_of_byte (ch ".")) "")) with ".." in E2.
    rewrite E2. cbn [rbind].
    destruct ((r =? ch ".") && starts [ch "."; ch "."] rs) eqn:B2.
    { apply andb_true_iff in B2 as [_ B2]. eexists _, _, _. split; [reflexivity|].
      apply plain_lexedf; [cbv; discriminate|reflexivity|].
      apply (DS [ch "."; ch "."]); [repeat constructor|exact B2|exact S3]. }
    destruct (PK1 (r =? ch ".") x2 (ch ".") rs S3) as (x3 & E3 & S4); [reflexivity|]. rewrite E3.
    destruct ((r =? ch ".") && starts [ch "."] rs) eqn:B3.
    { apply andb_true_iff in B3 as [_ B3]. eexists _, _, _. split; [reflexivity|].
      apply plain_lexedf; [cbv; discriminate|reflexivity|].
      apply (DS [ch "."]); [repeat constructor|exact B3|exact S4]. }
    destruct (PK1 (r =? ch "[") x3 (ch "[") rs S4) as (x4 & E4 & S5); [reflexivity|]. rewrite E4.
    destruct ((r =? ch "[") && starts [ch "["] rs) eqn:B4.
    { apply andb_true_iff in B4 as [_ B4]. eexists _, _, _. split; [reflexivity|].
      apply plain_lexedf; [cbv; discriminate|reflexivity|].
      apply (DS [ch "["]); [repeat constructor|exact B4|exact S5]. }
    destruct (PK1 (r =? ch "]") x4 (ch "]") rs S5) as (x5 & E5 & S6); [reflexivity|]. rewrite E5.
    destruct ((r =? ch "]") && starts [ch "]"] rs) eqn:B5.
    { apply andb_true_iff in B5 as [_ B5]. eexists _, _, _. split; [reflexivity|].
      apply plain_lexedf; [cbv; discriminate|reflexivity|].
      apply (DS [ch "]"]); [repeat constructor|exact B5|exact S6]. }
    pose proof (symbol_eq x5 r) as Q. destruct (symbol_code r) as [c|].
    - destruct Q as (-> & Q2 & Q3). eexists _, _, _. split; [reflexivity|]. now apply plain_lexedf.
    - rewrite Q. eexists _, _, _. split; [reflexivity|]. split; [reflexivity|]. split; [reflexivity|]. cbn [append String.prefix ascii_dec ascii_rec ascii_rect]. eapply st_Error. exact S6.
  Qed.

  Lemma next_skipped lw rs rs1 : fst (skip Plain rs) = fst (skip Plain rs1) -> snd (skip Plain rs) = true ->
    next U lw rs = next U false rs1.
  Proof.
    unfold next. destruct (skip Plain rs) as [a s], (skip Plain rs1) as [b t]. cbn [fst snd]. intros -> ->.
    destruct b; [reflexivity|]. now rewrite andb_false_r.
  Qed.

  Lemma lexLoop_eq fuel : forall x v lw rs e k, st x rs e false k -> (length rs + 2 <= fuel)%nat ->
    exists c v' x', lexLoop ops U fuel x v lw = Ok (c, v', x') /\ lexedf e k v (next U lw rs) c v' x'.
  Proof.
    induction fuel as [|f IH]; intros x v lw rs e k S0 F; [lia|]. cbn [lexLoop].
    destruct rs as [|r rs].
    { destruct (read_nil _ _ _ _ S0) as (x1 & -> & S1). eexists _, _, _. split; [reflexivity|]. cbn. auto. }
    destruct (read_cons _ _ _ _ _ _ S0) as (x1 & xu & -> & S1 & U1 & SU). cbn [length] in F.
    destruct (isWhitespace r) eqn:W.
    { destruct (IH x1 v false rs e k S1 ltac:(lia)) as (c & v' & x' & E & Q). exists c, v', x'. split; [exact E|].
      rewrite (next_skipped lw (r :: rs) rs); [exact Q|cbn [skip]; now rewrite W..]. }
    assert (P1 : exists x2, (if r =? ch "-" then let '(x', c) := peekRune ops x1 in (x', c =? ch "-") else (x1, false))
       = (x2, (r =? ch "-") && (hd 0 rs =? ch "-")) /\ st x2 rs e false k /\ ((r =? ch "-") = false -> x2 = x1)).
    { destruct (r =? ch "-"); [|exists x1; auto]. destruct (peek_st _ _ _ _ _ S1) as (x2 & -> & S2).
      exists x2. split; [reflexivity|]. split; [exact S2|discriminate]. }
    destruct P1 as (x2 & -> & S2 & X2).
    destruct ((r =? ch "-") && (hd 0 rs =? ch "-")) eqn:B1.
    { unfold skipLineComment.
      destruct (skipLine_eq (S f) x2 false rs e false k S2 ltac:(lia)) as (x3 & rs3 & -> & S3 & L3 & E3). cbn [rbind].
      destruct (IH x3 v false rs3 e k S3 ltac:(lia)) as (c & v' & x' & E & Q). exists c, v', x'. split; [exact E|].
      rewrite (next_skipped lw (r :: rs) rs3); [exact Q|cbn [skip]; rewrite W, B1; assumption|cbn [skip]; now rewrite W, B1]. }
    assert (P2 : exists x4, (if r =? ch "/" then let '(x', c) := peekRune ops x2 in (x', c =? ch "*") else (x2, false))
       = (x4, (r =? ch "/") && (hd 0 rs =? ch "*")) /\ st x4 rs e false k /\ ((r =? ch "/") = false -> x4 = x2)).
    { destruct (r =? ch "/"); [|exists x2; auto]. destruct (peek_st _ _ _ _ _ S2) as (x4 & -> & S4).
      exists x4. split; [reflexivity|]. split; [exact S4|discriminate]. }
    destruct P2 as (x4 & -> & S4 & X4).
    destruct ((r =? ch "/") && (hd 0 rs =? ch "*")) eqn:B2.
    { unfold skipBlockComment.
      destruct (skipBlock_eq (S f) x4 false false rs e false k 0 S4 ltac:(lia)) as (x5 & rs5 & -> & S5 & L5 & E5). cbn [rbind].
      destruct (IH x5 v false rs5 e k S5 ltac:(lia)) as (c & v' & x' & E & Q). exists c, v', x'. split; [exact E|].
      rewrite (next_skipped lw (r :: rs) rs5); [exact Q|cbn [skip]; rewrite W, B1, B2; assumption|cbn [skip]; now rewrite W, B1, B2]. }
    assert (NX : next U lw (r :: rs) = token_at U lw r rs).
    { unfold next. cbn [skip]. rewrite W, B1, B2. cbn [negb]. now rewrite andb_true_r. }
    rewrite NX. apply lexToken_eq; [exact S4|lia|].
    intros L. assert (r =? ch "-" = false).
    { destruct (Z.eqb_spec r (ch "-")); [subst r; destruct L; discriminate|reflexivity]. }
    assert (r =? ch "/" = false).
    { destruct (Z.eqb_spec r (ch "/")); [subst r; destruct L; discriminate|reflexivity]. }
    rewrite (X4 H0), (X2 H). eauto.
  Qed.

  Theorem Lex_eqf fuel x v rs e n k : st x rs e n k -> (length rs + 2 <= fuel)%nat ->
    exists c v' x', Lex ops U fuel x v = Ok (c, v', x') /\ lexedf e k v (next U n rs) c v' x'.
  Proof.
    intros S0 F. unfold Lex. assert (N : lx_lastWasNumber x = n) by (destruct S0 as (bs & A & _); apply A). rewrite N.
    apply lexLoop_eq; [|exact F]. now apply (st_num _ _ _ n).
  Qed.

  (** The same without the flag after an error. *)
  Definition lexed (e : option string) (k : Z) (v : lexval) (i : item) (c : Z) (v' : lexval) (x' : lexer) : Prop :=
    match i with
    | End => c = 0 /\ v' = v /\ st x' [] e false k
    | Tok t num rest => c = tk_kind t /\ (57346 <= c /\ v' = lval_of v t) /\ token_of c v' = t /\ st x' rest e num k
    | Bad msg rest => c = -1 /\ v' = v /\ exists num, st x' rest (located k rest msg) num k
    end.

  Theorem Lex_eq fuel x v rs e n k : st x rs e n k -> (length rs + 2 <= fuel)%nat ->
    exists c v' x', Lex ops U fuel x v = Ok (c, v', x') /\ lexed e k v (next U n rs) c v' x'.
  Proof.
    intros S0 F. destruct (Lex_eqf fuel x v rs e n k S0 F) as (c & v' & x' & E & Q). exists c, v', x'. split; [exact E|].
    destruct (next U n rs); cbn [lexedf lexed] in *; [exact Q|exact Q|]. destruct Q as (Q1 & Q2 & Q3). eauto.
  Qed.

  (** ** Lengths *)

  Lemma skip_length m : forall rs, (length (fst (skip m rs)) <= length rs)%nat.
  Proof.
    intros rs. revert m. induction rs as [|r rs IH]; intros m; [now destruct m|].
    destruct m as [|hy|d sl st0]; cbn [skip];
      repeat match goal with |- context [if ?b then _ else _] => destruct b
        | |- context [match ?b with O => _ | S _ => _ end] => destruct b end; cbn [fst length];
      try lia; match goal with |- (length (fst (skip ?m _)) <= _)%nat => specialize (IH m); lia end.
  Qed.

  Lemma word_scan_length : forall rs w l, (length (snd (word_scan U w l rs)) <= length rs)%nat.
  Proof.
    induction rs as [|r rs IH]; intros w l; cbn [word_scan].
    - now destruct (l =? ch "-").
    - destruct (isIdentifierChar U r); [destruct ((l =? ch "-") && _)|destruct (l =? ch "-")]; cbn [snd length]; try lia.
      specialize (IH (w ++ [r])%list r). lia.
  Qed.

  Lemma digits_scan_length : forall rs w, (length (snd (digits_scan U w rs)) <= length rs)%nat.
  Proof.
    induction rs as [|r rs IH]; intros w; cbn [digits_scan]; [cbn; lia|].
    destruct (is_digit U r); cbn [snd length]; [|lia]. specialize (IH (w ++ [r])%list). lia.
  Qed.

  Lemma next_length n rs t n' rest : next U n rs = Tok t n' rest -> (length rest < length rs)%nat.
  Proof.
    unfold next. pose proof (skip_length Plain rs) as L. destruct (skip Plain rs) as [[|r rs'] s]; [discriminate|].
    cbn [fst length] in L. unfold token_at.
    destruct (is_letter U r).
    - destruct (_ && _); [intros H; injection H as _ _ <-; lia|].
      pose proof (word_scan_length rs' [r] r) as W. destruct (word_scan U [r] r rs') as [[m|w] q]; [discriminate|].
      intros H. injection H as _ _ <-. cbn [snd] in W. lia.
    - destruct (is_digit U r).
      + pose proof (digits_scan_length rs' [r]) as W. destruct (digits_scan U [r] rs') as [w q]. cbn [snd] in W.
        destruct (atoi _); try discriminate. intros H. injection H as _ _ <-. lia.
      + repeat match goal with |- context [if ?b then _ else _] => destruct b end;
          try match goal with |- Tok _ _ (skipn ?j _) = _ -> _ =>
            intros H; assert (E : rest = skipn j rs') by congruence; rewrite E, skipn_length; lia end.
        destruct (symbol_code r); [|discriminate]. intros H; injection H as _ _ <-; lia.
  Qed.

  (** ** Feeding the driver *)

  Notation flex fuel := (Lex ops U fuel).

  (** The tokens delivered by successive calls of Lex are those of the text. *)
  Lemma feed_tokens fuel : forall x0 v0 ts x v, feed (flex fuel) x0 v0 ts x v ->
    forall rs n k, st x0 rs None n k -> (length rs + 2 <= fuel)%nat ->
    exists n' rest, st x rest None n' k /\ (length rest <= length rs)%nat /\
      forall us, tokens U n' rest us -> tokens U n rs (ts ++ us).
  Proof.
    induction 1 as [|x0 v0 ts x v c v'' x'' F IH E C]; intros rs n k S0 L.
    - exists n, rs. auto.
    - destruct (IH rs n k S0 L) as (n1 & r1 & S1 & L1 & T1).
      destruct (Lex_eq fuel x v r1 None n1 k S1 ltac:(lia)) as (c1 & v1 & x1 & E1 & Q).
      rewrite E in E1. injection E1 as <- <- <-.
      destruct (next U n1 r1) as [|t n2 r2|msg r2] eqn:NX; cbn [lexed] in Q.
      + destruct Q as [Q _]. lia.
      + destruct Q as (Q1 & _ & Q2 & Q3). pose proof (next_length _ _ _ _ _ NX). exists n2, r2. split; [exact Q3|].
        split; [lia|]. intros us T. rewrite <- app_assoc. apply T1. cbn [app]. rewrite Q2.
        econstructor; eassumption.
      + destruct Q as [Q _]. lia.
  Qed.

  Lemma st_init (s : string) :
    st (new_lexer (stream_of_bytes (bytes_of_string s))) (runes (bytes_of_string s)) None false
       (breaks (runes (bytes_of_string s))).
  Proof.
    exists (bytes_of_string s). split; [|reflexivity]. constructor; cbn; auto.
    clear. induction s; cbn; constructor; auto. apply byte_range.
  Qed.
End Eq.
