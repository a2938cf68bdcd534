(** The lexer over a stream of bytes whose reader fails for ever behind them: which
    texts it finishes on. *)
From Coq Require Import ZArith String Ascii Bool List Lia.
From Verif Require Import GoBase Utf8 Unicode Reader Stream Tokens Reserved Lexer LexErr LexTotal
  Ast Grammar Driver Parser LexEq DriverFacts DriverRun ParserFacts.
Import ListNotations.
Local Open Scope Z_scope.

(** * Specification *)

(** Nothing in the text makes the lexer wait for what is behind the text: wherever
    [q] is the rest of it,
    - a comment [--] that may begin there is ended by the end of a line,
    - no comment [/*] begins there,
    - a colon or a full stop there is followed by two characters: two of ASCII, or
      eight bytes. *)
Definition two_more (q : list Z) : Prop :=
  (exists a b q', q = a :: b :: q' /\ a < 128 /\ b < 128) \/ (8 <= length q)%nat.
Definition finished (bs : list Z) : Prop :=
  forall p q, bs = (p ++ q)%list ->
    (forall q', q = ch "-" :: ch "-" :: q' -> exists b, In b q' /\ In b [10; 11; 12; 13]) /\
    (forall q', q <> ch "/" :: ch "*" :: q') /\
    (forall c q', q = c :: q' -> c = ch ":" \/ c = ch "." -> two_more q').

(** Deciding it, for examples. *)
Fixpoint finishedb (bs : list Z) : bool :=
  match bs with
  | [] => true
  | c :: q =>
      match q with
      | d :: q' =>
          (negb ((c =? ch "-") && (d =? ch "-")) || existsb (fun b => existsb (Z.eqb b) [10; 11; 12; 13]) q') &&
          negb ((c =? ch "/") && (d =? ch "*"))
      | [] => true
      end &&
      (negb ((c =? ch ":") || (c =? ch ".")) || match q with a :: b :: _ => (a <? 128) && (b <? 128) | _ => false end || (8 <=? length q)%nat) && finishedb q
  end.

Lemma finishedb_sound bs : finishedb bs = true -> finished bs.
Proof.
  induction bs as [|c bs IH]; intros H p q E.
  - symmetry in E. apply app_eq_nil in E as [_ ->]. repeat split; discriminate.
  - cbn [finishedb] in H. apply andb_true_iff in H as [H H3]. apply andb_true_iff in H as [H1 H2].
    destruct p as [|a p]; [|injection E as _ E; exact (IH H3 p q E)].
    cbn [app] in E. subst q. repeat split.
    + intros q' E. injection E as -> ->. cbn [Z.eqb] in H1. apply andb_true_iff in H1 as [H1 _].
      rewrite !Z.eqb_refl in H1. cbn [andb negb orb] in H1. apply existsb_exists in H1 as (b & B1 & B2).
      apply existsb_exists in B2 as (d & D1 & D2). apply Z.eqb_eq in D2. subst d. eauto.
    + intros q' E. injection E as -> ->. apply andb_true_iff in H1 as [_ H1]. rewrite !Z.eqb_refl in H1. discriminate H1.
    + intros d q' E D. injection E as <- <-. apply orb_true_iff in H2 as [H2|H2]; [apply orb_true_iff in H2 as [H2|H2]|].
      * apply negb_true_iff, orb_false_iff in H2 as [N1 N2]. apply Z.eqb_neq in N1, N2. destruct D; congruence.
      * left. destruct bs as [|a [|b bs]]; try discriminate H2. apply andb_true_iff in H2 as [A B].
        apply Z.ltb_lt in A, B. eauto 10.
      * right. now apply Nat.leb_le in H2.
Qed.

(** * Runes *)

Lemma finished_app p q : finished (p ++ q) -> finished q.
Proof. intros H a b ->. apply (H (p ++ a)%list b). now rewrite app_assoc. Qed.

(** A byte of ASCII is a rune of its own. *)
Lemma decode_ascii l r n : decode_rune l = (r, n) -> forall b, In b (firstn n l) -> b < 128 -> l = b :: tl l /\ n = 1%nat /\ r = b.
Proof.
  destruct l as [|b0 r0]; [intros _ b H; now destruct n|]. unfold decode_rune.
  destruct (Z.ltb_spec b0 rune_self) as [L|L].
  { intros E b. injection E as <- <-. cbn [firstn In]. intros [<-|[]] _. auto. }
  assert (One : forall r', (r', 1%nat) = (r, n) -> forall b, In b (firstn n (b0 :: r0)) -> b < 128 -> b0 :: r0 = b :: tl (b0 :: r0) /\ n = 1%nat /\ r = b).
  { intros r' E b. injection E as <- <-. cbn [firstn In]. unfold rune_self in L. intros [<-|[]] B. lia. }
  destruct (utf8_first b0) as [[[k lo] hi]|] eqn:F; [|apply One].
  assert (Lo : 128 <= lo).
  { revert F. unfold utf8_first. repeat match goal with |- context [if ?c then _ else _] => destruct c end;
      intros F; try discriminate F; injection F as _ <- _; lia. }
  destruct r0 as [|b1 r1]; [apply One|]. destruct (_ <? k)%nat; [apply One|].
  destruct (negb (in_range lo b1 hi)) eqn:R1; [apply One|]. apply in_range_spec in R1.
  destruct (k =? 2)%nat.
  { intros E b. injection E as _ <-. cbn [firstn In]. unfold rune_self in L. intros [<-|[<-|[]]] B; lia. }
  destruct r1 as [|b2 r2]; [apply One|]. destruct (negb (in_range 128 b2 191)) eqn:R2; [apply One|]. apply in_range_spec in R2.
  destruct (k =? 3)%nat.
  { intros E b. injection E as _ <-. cbn [firstn In]. unfold rune_self in L. intros [<-|[<-|[<-|[]]]] B; lia. }
  destruct r2 as [|b3 r3]; [apply One|]. destruct (negb (in_range 128 b3 191)) eqn:R3; [apply One|]. apply in_range_spec in R3.
  intros E b. injection E as _ <-. cbn [firstn In]. unfold rune_self in L. intros [<-|[<-|[<-|[<-|[]]]]] B; lia.
Qed.

Lemma decode_rune_ascii l r n : l <> [] -> decode_rune l = (r, n) -> r < 128 -> l = r :: tl l /\ n = 1%nat.
Proof.
  destruct l as [|b l]; [congruence|]. intros _ E R. destruct (Z.ltb_spec b 128) as [B|B].
  - rewrite (decode_low b l B) in E. injection E as <- <-. auto.
  - pose proof (decode_high b l B) as H. rewrite E in H. cbn in H. lia.
Qed.

Section Fail.
  Context (U : unicode_tables) (msg : string).
  Notation lexer := (lexer stream).
  Notation ops := stream_ops.

  (** The lexer has these bytes left. *)
  Definition left (x : lexer) (bs : list Z) : Prop :=
    s_ev (lx_rd x) = map EvByte bs /\ s_term (lx_rd x) = TFail msg.

  (** It has a rest of [bs] left, at least [k] bytes on. *)
  Definition on (k : nat) (bs : list Z) (x : lexer) : Prop :=
    exists p q, bs = (p ++ q)%list /\ (k <= length p)%nat /\ left x q.

  Lemma on_left x bs : left x bs -> on 0 bs x.
  Proof. intros L. exists [], bs. repeat split; try apply L. cbn. lia. Qed.

  Lemma on_trans j k bs q p x : bs = (p ++ q)%list -> (j <= length p)%nat -> on k q x -> on (j + k) bs x.
  Proof.
    intros -> L (p' & q' & -> & L' & H). exists (p ++ p')%list, q'. rewrite app_assoc, app_length.
    repeat split; try apply H. lia.
  Qed.

  Lemma on_le j k bs x : on k bs x -> (j <= k)%nat -> on j bs x.
  Proof. intros (p & q & E & L & H) J. exists p, q. repeat split; try apply H; [exact E|lia]. Qed.

  (** What one read does. *)
  Definition got (bs : list Z) (x1 : lexer) (r : Z) (e : option rd_err) : Prop :=
    (bs = [] /\ e <> None /\ e <> Some EOF /\ r = 0 /\ left x1 []) \/
    (e = None /\ exists p q, bs = (p ++ q)%list /\ p <> [] /\ left x1 q /\ s_last (lx_rd x1) = Some p /\
       (forall b, In b p -> b < 128 -> p = [b] /\ r = b) /\ (r < 128 -> p = [r])).

  Lemma buf_got x bs x1 r e : left x bs -> bufReadRune ops x = (x1, (r, e)) -> got bs x1 r e.
  Proof.
    intros [E T]. unfold bufReadRune. cbn [rd_rune stream_ops].
    unfold stream_rune. rewrite E, lead_bytes_all. destruct bs as [|b bs].
    { cbn [firstn]. unfold stream_err. rewrite E, T. cbn [map]. intros H. injection H as <- <- <-. left.
      repeat split; try discriminate; try exact T. }
    change (firstn 4 (b :: bs)) with (b :: firstn 3 bs). cbv iota beta.
    change (b :: firstn 3 bs) with (firstn 4 (b :: bs)). rewrite decode_four.
    destruct (decode_rune (b :: bs)) as [r' n] eqn:D. intros H. injection H as <- <- <-. right. split; [reflexivity|].
    pose proof (decode_width (b :: bs) ltac:(discriminate)) as W. rewrite D in W. cbn [snd] in W.
    assert (N4 : (n <= 4)%nat).
    { pose proof (decode_four (b :: bs)) as D4. rewrite D in D4.
      pose proof (decode_width (firstn 4 (b :: bs)) ltac:(discriminate)) as W4. rewrite D4 in W4. cbn [snd] in W4.
      rewrite firstn_length in W4. lia. }
    exists (firstn n (b :: bs)), (skipn n (b :: bs)).
    split; [symmetry; apply firstn_skipn|].
    split; [destruct n; [lia|discriminate]|].
    split; [split; [cbn [with_rd lx_rd s_ev]; change (EvByte b :: map EvByte bs) with (map EvByte (b :: bs)); now rewrite skipn_map|exact T]|].
    split; [transitivity (Some (firstn n (firstn 4 (b :: bs)))); [reflexivity|rewrite firstn_firstn, Nat.min_l by exact N4; reflexivity]|].
    split.
    - intros c I C. destruct (decode_ascii _ _ _ D c I C) as (E1 & -> & E3). rewrite E1. auto.
    - intros R. destruct (decode_rune_ascii (b :: bs) r' n ltac:(discriminate) D R) as [E1 ->]. rewrite E1. reflexivity.
  Qed.

  Lemma read_got x bs x1 r e : left x bs -> readRune ops x = (x1, (r, e)) -> got bs x1 r e.
  Proof.
    intros L. unfold readRune. destruct (bufReadRune ops x) as [x0 [r0 e0]] eqn:E. apply (buf_got _ _ _ _ _ L) in E.
    intros H. injection H as <- <- <-. now destruct (isNewline r0).
  Qed.

  Lemma got_on bs x1 r e : got bs x1 r e -> on 0 bs x1.
  Proof.
    intros [(-> & _ & _ & _ & L)|(_ & p & q & -> & _ & L & _)]; [now apply on_left|].
    exists p, q. repeat split; try apply L. lia.
  Qed.

  Lemma got_unread x1 bs r : got bs x1 r None -> exists s, stream_unread (lx_rd x1) = Some s /\ s_ev s = map EvByte bs /\ s_term s = TFail msg.
  Proof.
    intros [(_ & N & _)|(_ & p & q & -> & _ & [E T] & S & _)]; [congruence|].
    unfold stream_unread. rewrite S. eexists. split; [reflexivity|]. cbn. rewrite E, map_app. auto.
  Qed.

  Lemma peek_left x bs x1 c : left x bs -> peekRune ops x = (x1, c) -> left x1 bs /\ (c <> 0 -> c < 128 -> exists q, bs = c :: q).
  Proof.
    intros L. unfold peekRune, peekRuneE. destruct (bufReadRune ops x) as [x0 [r e]] eqn:E. apply (buf_got _ _ _ _ _ L) in E.
    destruct e as [e|].
    - intros H. injection H as <- <-. destruct E as [(-> & _ & _ & -> & L0)|(N & _)]; [|discriminate].
      split; [exact L0|congruence].
    - destruct (got_unread _ _ _ E) as (s & S1 & S2 & S3). cbn [rd_unread stream_ops]. rewrite S1.
      intros H. injection H as <- <-. split; [split; assumption|]. intros _ C.
      destruct E as [(_ & N & _)|(_ & p & q & -> & _ & _ & _ & _ & P)]; [congruence|]. rewrite (P C). cbn. eauto.
  Qed.

  Lemma unread_left x1 bs r : got bs x1 r None -> exists x2, unreadRune ops x1 = Ok x2 /\ left x2 bs.
  Proof.
    intros G. destruct (got_unread _ _ _ G) as (s & S1 & S2 & S3). unfold unreadRune.
    cbn [rd_unread stream_ops]. rewrite S1.
    destruct (peekRune ops (with_rd x1 s)) as [x2 c] eqn:P.
    destruct (peek_left (with_rd x1 s) bs x2 c (conj S2 S3) P) as [L _].
    eexists. split; [reflexivity|]. now destruct (isNewline c).
  Qed.

  Lemma discard_bytes n : forall bs, stream_discard_ev n (map EvByte bs) = map EvByte (skipn n bs).
  Proof. induction n as [|n IH]; intros [|b bs]; try reflexivity. cbn. apply IH. Qed.

  Lemma discard_on x bs n : left x bs -> on 0 bs (discard ops x n).
  Proof.
    intros [E T]. exists (firstn n bs), (skipn n bs). split; [symmetry; apply firstn_skipn|]. split; [lia|].
    split; [|exact T]. unfold discard. cbn. rewrite E. apply discard_bytes.
  Qed.

  (** ** peekRunes, with enough to look at *)

  Lemma peek_enough x bs n : left x bs -> (n <= length bs)%nat ->
    exists rd, stream_peek n (lx_rd x) = (rd, (firstn n bs, n, None)) /\ left (with_rd x rd) bs.
  Proof.
    intros [E T] L. unfold stream_peek. rewrite E, lead_bytes_all, firstn_length, Nat.min_l, Nat.eqb_refl by exact L.
    eexists. split; [reflexivity|]. split; [reflexivity|exact T].
  Qed.

  Lemma inner_enough bs pos : (pos + 4 <= length bs)%nat -> forall ls x, left x bs -> Forall (fun l => (l <= 4)%nat) ls -> last ls 4%nat = 4%nat -> ls <> [] ->
    exists x1 r size, peekInner ops x pos ls = Ok (x1, PiBreak r size) /\ left x1 bs /\ (size <= 4)%nat.
  Proof.
    intros B. induction ls as [|l ls IH]; intros x L F LS NE; [congruence|]. inversion_clear F as [|? ? F1 F2].
    cbn [peekInner rd_peek stream_ops].
    destruct (peek_enough x bs (pos + l) L ltac:(lia)) as (rd & P & L1). rewrite P, Nat.ltb_irrefl.
    destruct ((pos + l <=? length (firstn (pos + l) bs))%nat && full_rune (firstn l (skipn pos (firstn (pos + l) bs)))) eqn:Q.
    - destruct (decode_rune (firstn l (skipn pos (firstn (pos + l) bs)))) as [r size] eqn:D.
      exists (with_rd x rd), r, size. split; [reflexivity|]. split; [exact L1|].
      set (w := firstn l (skipn pos (firstn (pos + l) bs))) in *.
      assert (W : w <> []) by (intros W; rewrite W in Q; now rewrite andb_false_r in Q).
      pose proof (decode_width w W) as DW. rewrite D in DW. cbn [snd] in DW.
      assert (length w <= l)%nat by (unfold w; rewrite firstn_length; lia). lia.
    - destruct ls as [|l' ls].
      + exfalso. cbn in LS. subst l. assert (LL : length (firstn (pos + 4) bs) = (pos + 4)%nat) by (rewrite firstn_length; lia).
        rewrite LL, Nat.leb_refl, full_rune_four in Q; [discriminate Q|].
        rewrite firstn_length, skipn_length, LL. lia.
      + apply IH; [exact L1|exact F2|exact LS|discriminate].
  Qed.

  Lemma inner_ascii bs pos a : nth_error bs pos = Some a -> a < 128 -> forall ls x, left x bs ->
    exists x1 r, peekInner ops x pos (1%nat :: ls) = Ok (x1, PiBreak r 1%nat) /\ left x1 bs.
  Proof.
    intros N A ls x L. cbn [peekInner rd_peek stream_ops].
    assert (LN : (pos + 1 <= length bs)%nat) by (assert (pos < length bs)%nat by (apply nth_error_Some; congruence); lia).
    destruct (peek_enough x bs (pos + 1) L LN) as (rd & P & L1). rewrite P, Nat.ltb_irrefl.
    assert (W : firstn 1 (skipn pos (firstn (pos + 1) bs)) = [a]).
    { apply nth_error_split in N as (l1 & l2 & -> & <-).
      rewrite firstn_app, (firstn_all2 (n := length l1 + 1) l1) by lia.
      replace (length l1 + 1 - length l1)%nat with 1%nat by lia. cbn [firstn].
      rewrite skipn_app, skipn_all, Nat.sub_diag. reflexivity. }
    rewrite W, firstn_length, Nat.min_l, Nat.leb_refl by exact LN.
    unfold full_rune, decode_rune. replace (a <? rune_self) with true by (symmetry; apply Z.ltb_lt; exact A).
    cbn [andb]. eexists _, _. split; [reflexivity|exact L1].
  Qed.

  Lemma peekRunes_enough fuel x bs : left x bs -> two_more bs -> (2 <= fuel)%nat ->
    exists x1 s, peekRunes ops fuel x 2 = Ok (x1, s) /\ left x1 bs.
  Proof.
    intros L B F. destruct fuel as [|[|f]]; try lia. unfold peekRunes. cbn [peekRunesLoop].
    destruct B as [(a & b & q & EB & A1 & A2)|B].
    { destruct (inner_ascii bs 0 a ltac:(now rewrite EB) A1 [2; 3; 4]%nat x L) as (x1 & r & -> & L1). cbn [rbind].
      destruct (inner_ascii bs (0 + 1) b ltac:(now rewrite EB) A2 [2; 3; 4]%nat x1 L1) as (x2 & r2 & -> & L2). cbn [rbind].
      destruct f; eexists _, _; (split; [reflexivity|exact L2]). }
    destruct (inner_enough bs 0 ltac:(lia) [1; 2; 3; 4]%nat x L ltac:(repeat constructor) eq_refl ltac:(discriminate)) as (x1 & r & size & -> & L1 & S1).
    cbn [rbind]. 
    destruct (inner_enough bs (0 + size) ltac:(lia) [1; 2; 3; 4]%nat x1 L1 ltac:(repeat constructor) eq_refl ltac:(discriminate)) as (x2 & r2 & size2 & -> & L2 & S2).
    cbn [rbind]. destruct f; eexists _, _; (split; [reflexivity|exact L2]).
  Qed.

  (** ** Comments *)

  Lemma newline_cases b : In b [10; 11; 12; 13] -> isNewline b = true /\ b < 128.
  Proof. cbn. intros [<-|[<-|[<-|[<-|[]]]]]; split; reflexivity. Qed.

  Lemma skipLine_left fuel : forall x bs h, left x bs -> (exists b, In b bs /\ In b [10; 11; 12; 13]) -> (length bs < fuel)%nat ->
    exists x1, skipLineCommentLoop ops fuel x h = Ok x1 /\ on 0 bs x1.
  Proof.
    induction fuel as [|f IH]; intros x bs h L (b & B1 & B2) F; [lia|]. cbn [skipLineCommentLoop].
    destruct (readRune ops x) as [x1 [r e]] eqn:E. apply (read_got _ _ _ _ _ L) in E.
    pose proof (got_on _ _ _ _ E) as O.
    destruct E as [(-> & _)|(-> & p & q & -> & NE & L1 & _ & PA & _)]; [destruct B1|].
    destruct (isNewline r || false) eqn:Q; [eauto|].
    assert (B : In b q).
    { apply in_app_or in B1. destruct B1 as [B1|B1]; [|exact B1]. exfalso.
      destruct (newline_cases b B2) as [NL AS]. destruct (PA b B1 AS) as [_ ->]. rewrite NL in Q. discriminate Q. }
    assert (K : forall h', exists x2, skipLineCommentLoop ops f x1 h' = Ok x2 /\ on 0 (p ++ q) x2).
    { intros h'. destruct (IH x1 q h' L1 (ex_intro _ b (conj B B2))) as (x2 & -> & O2).
      - rewrite app_length in F. destruct p; [congruence|cbn in F; lia].
      - exists x2. split; [reflexivity|]. apply (on_trans 0 0 _ q p); [reflexivity|lia|exact O2]. }
    destruct (r =? ch "-"); [|apply K]. destruct h; [eauto|apply K].
  Qed.

  (** ** Words and numbers *)

  Lemma word_left fuel : forall x bs acc l, left x bs -> (length bs < fuel)%nat ->
    exists x1 w, consumeWordLoop ops U fuel x acc l = Ok (x1, w) /\ on 0 bs x1.
  Proof.
    induction fuel as [|f IH]; intros x bs acc l L F; [lia|]. cbn [consumeWordLoop].
    destruct (readRune ops x) as [x1 [r e]] eqn:E. apply (read_got _ _ _ _ _ L) in E.
    pose proof (got_on _ _ _ _ E) as O.
    destruct (_ || isWhitespace r || _) eqn:Q.
    - destruct (ends_with_hyphen acc); [eauto|]. destruct e; [eauto|].
      destruct (unread_left _ _ _ E) as (x2 & -> & L2). cbn [rbind]. eexists _, _. split; [reflexivity|now apply on_left].
    - destruct e; [eauto|]. destruct (negb _); [eauto|]. destruct ((l =? ch "-") && _); [eauto|].
      destruct E as [(_ & N & _)|(_ & p & q & -> & NE & L1 & _)]; [congruence|].
      destruct (IH x1 q (acc ++ string_of_rune r)%string r L1) as (x2 & w & -> & O2).
      + rewrite app_length in F. destruct p; [congruence|cbn in F; lia].
      + eexists _, _. split; [reflexivity|]. apply (on_trans 0 0 _ q p); [reflexivity|lia|exact O2].
  Qed.

  Lemma number_left fuel : forall x bs v acc, left x bs -> (length bs < fuel)%nat ->
    exists c v' x1, consumeNumberLoop ops U fuel x v acc = Ok (c, v', x1) /\ on 0 bs x1.
  Proof.
    induction fuel as [|f IH]; intros x bs v acc L F; [lia|]. cbn [consumeNumberLoop].
    destruct (readRune ops x) as [x1 [r e]] eqn:E. apply (read_got _ _ _ _ _ L) in E.
    pose proof (got_on _ _ _ _ E) as O.
    destruct (_ || negb _) eqn:Q.
    - assert (K : exists x2, match e with None => if negb (is_digit U r) then unreadRune ops x1 else Ok x1 | Some _ => Ok x1 end = Ok x2 /\ on 0 bs x2).
      { destruct e; [eauto|]. destruct (negb _); [|eauto].
        destruct (unread_left _ _ _ E) as (x2 & -> & L2). eexists. split; [reflexivity|now apply on_left]. }
      destruct K as (x2 & -> & O2). cbn [rbind]. destruct (atoi acc); eexists _, _, _; (split; [reflexivity|exact O2]).
    - destruct e; [eexists _, _, _; split; [reflexivity|exact O]|].
      destruct E as [(_ & N & _)|(_ & p & q & -> & NE & L1 & _)]; [congruence|].
      destruct (IH x1 q v (acc ++ string_of_rune r)%string L1) as (c & v' & x2 & -> & O2).
      + rewrite app_length in F. destruct p; [congruence|cbn in F; lia].
      + eexists _, _, _. split; [reflexivity|]. apply (on_trans 0 0 _ q p); [reflexivity|lia|exact O2].
  Qed.

  (** ** Tokens *)

  Lemma first_read x bs x1 r e : left x bs -> bs <> [] -> bufReadRune ops x = (x1, (r, e)) ->
    e = None /\ exists p q, bs = (p ++ q)%list /\ p <> [] /\ left x1 q.
  Proof.
    intros L NE E. apply (buf_got _ _ _ _ _ L) in E.
    destruct E as [(-> & _)|(-> & p & q & E & NP & L1 & _)]; [congruence|]. split; [reflexivity|eauto].
  Qed.

  Lemma token_left fuel bs x1 v lw r p q : bs = (p ++ q)%list -> p <> [] -> left x1 q -> finished bs ->
    (is_letter U r = true \/ is_digit U r = true -> got bs x1 r None) ->
    (r = ch ":" \/ r = ch "." -> p = [r]) ->
    (length bs + 2 <= fuel)%nat ->
    exists c v' x2, lexToken ops U fuel x1 v lw r = Ok (c, v', x2) /\ on 1 bs x2.
  Proof.
    intros EB NP L1 FN RR PP FU. subst bs.
    assert (P1 : (1 <= length p)%nat) by (destruct p; [congruence|cbn; lia]).
    assert (O1 : forall x, left x q -> on 1 (p ++ q) x).
    { intros x L. exists p, q. repeat split; try apply L. lia. }
    assert (NB : (p ++ q)%list <> []) by (destruct p; [congruence|discriminate]).
    unfold lexToken. destruct (is_letter U r).
    { specialize (RR (or_introl eq_refl)). destruct (lw && _); [eexists _, _, _; split; [reflexivity|now apply O1]|].
      destruct (unread_left _ _ _ RR) as (x2 & -> & L2). cbn [rbind]. unfold consumeWord.
      destruct (bufReadRune ops x2) as [x3 [r3 e3]] eqn:E3.
      destruct (first_read _ _ _ _ _ L2 NB E3) as (-> & p3 & q3 & E4 & NP3 & L3).
      destruct (word_left fuel x3 q3 (string_of_rune r3) r3 L3) as (x4 & w & -> & O4).
      { apply (f_equal (@length Z)) in E4. rewrite !app_length in *. destruct p3; [congruence|cbn in E4; lia]. }
      cbn [rbind].
      assert (O5 : on 1 (p ++ q) x4).
      { apply (on_trans 1 0 _ q3 p3); [exact E4|destruct p3; [congruence|cbn; lia]|exact O4]. }
      destruct w; [destruct (is_upper U r); [destruct (assoc_word _ _)|]|]; eexists _, _, _; (split; [reflexivity|exact O5]). }
    destruct (is_digit U r).
    { specialize (RR (or_intror eq_refl)).
      destruct (unread_left _ _ _ RR) as (x2 & -> & L2). cbn [rbind]. unfold consumeNumber.
      destruct (bufReadRune ops (with_lastWasNumber x2 true)) as [x3 [r3 e3]] eqn:E3.
      destruct (first_read (with_lastWasNumber x2 true) _ _ _ _ L2 NB E3) as (-> & p3 & q3 & E4 & NP3 & L3).
      destruct (number_left fuel x3 q3 v (string_of_rune r3) L3) as (c & v' & x4 & -> & O4).
      { apply (f_equal (@length Z)) in E4. rewrite !app_length in *. destruct p3; [congruence|cbn in E4; lia]. }
      eexists _, _, _. split; [reflexivity|].
      apply (on_trans 1 0 _ q3 p3); [exact E4|destruct p3; [congruence|cbn; lia]|exact O4]. }
    clear RR.
    assert (DA : forall x n, left x q -> on 1 (p ++ q) (discard ops x n)).
    { intros x n L. apply (on_trans 1 0 _ q p); [reflexivity|exact P1|]. now apply discard_on. }
    assert (PK : forall x, left x q -> r = ch ":" \/ r = ch "." -> exists x' s, peekRunes ops fuel x 2 = Ok (x', s) /\ left x' q).
    { intros x L R. apply peekRunes_enough; [exact L| |rewrite app_length in FU; lia].
      rewrite (PP R) in *. destruct (FN [] (r :: q) eq_refl) as (_ & _ & F3). now apply (F3 r q eq_refl). }
    assert (PK1 : forall (b : bool) c x' x'' d, left x' q ->
      (if b then let '(y, k) := peekRune ops x' in (y, k =? c) else (x', false)) = (x'', d : bool) -> left x'' q).
    { intros b c x' x'' d A' H. destruct b; [|injection H as <- _; exact A'].
      destruct (peekRune ops x') as [y k] eqn:P. destruct (peek_left _ _ _ _ A' P) as [Y _]. now injection H as <- _. }
    assert (Q1 : exists y1 a1, (if r =? ch ":" then rbind (peekRunes ops fuel x1 2) (fun '(x', s) => Ok (x', String.eqb s ":=")) else Ok (x1, false)) = Ok (y1, a1) /\ left y1 q).
    { destruct (Z.eqb_spec r (ch ":")) as [R|_]; [|eauto]. destruct (PK x1 L1 (or_introl R)) as (y & s & -> & Y). cbn [rbind]. eauto. }
    destruct Q1 as (y1 & a1 & -> & Y1). cbn [rbind]. destruct a1; [eexists _, _, _; split; [reflexivity|now apply DA]|].
    assert (Q2 : exists y2 a2, (if r =? ch "." then rbind (peekRunes ops fuel y1 2) (fun '(x', s) => Ok (x', String.eqb s "..")) else Ok (y1, false)) = Ok (y2, a2) /\ left y2 q).
    { destruct (Z.eqb_spec r (ch ".")) as [R|_]; [|eauto]. destruct (PK y1 Y1 (or_intror R)) as (y & s & -> & Y). cbn [rbind]. eauto. }
    destruct Q2 as (y2 & a2 & -> & Y2). cbn [rbind]. destruct a2; [eexists _, _, _; split; [reflexivity|now apply DA]|].
    match goal with |- exists _ _ _, (let '(_, _) := ?m in _) = _ /\ _ => destruct m as [y3 a3] eqn:Q3 end.
    apply PK1 in Q3; [|exact Y2]. destruct a3; [eexists _, _, _; split; [reflexivity|now apply DA]|].
    match goal with |- exists _ _ _, (let '(_, _) := ?m in _) = _ /\ _ => destruct m as [y4 a4] eqn:Q4 end.
    apply PK1 in Q4; [|exact Q3]. destruct a4; [eexists _, _, _; split; [reflexivity|now apply DA]|].
    match goal with |- exists _ _ _, (let '(_, _) := ?m in _) = _ /\ _ => destruct m as [y5 a5] eqn:Q5 end.
    apply PK1 in Q5; [|exact Q4]. destruct a5; [eexists _, _, _; split; [reflexivity|now apply DA]|].
    destruct (consumeSingleSymbol y5 r) as [code y6] eqn:C. eexists _, _, _. split; [reflexivity|]. apply O1.
    assert (Same : lx_rd y6 = lx_rd y5).
    { revert C. unfold consumeSingleSymbol. repeat match goal with |- context [if ?b then _ else _] => destruct b end;
        intros H; injection H as _ <-; reflexivity. }
    unfold left. rewrite Same. exact Q5.
  Qed.

  Lemma loop_left fuel : forall x bs v lw, left x bs -> finished bs -> (length bs + 2 <= fuel)%nat ->
    exists c v' x1, lexLoop ops U fuel x v lw = Ok (c, v', x1) /\ on 0 bs x1 /\ (0 < c -> on 1 bs x1).
  Proof.
    induction fuel as [|f IH]; intros x bs v lw L FN FU; [lia|]. cbn [lexLoop].
    destruct (readRune ops x) as [x1 [r e]] eqn:E. apply (read_got _ _ _ _ _ L) in E.
    pose proof (got_on _ _ _ _ E) as O.
    destruct e as [[|m]|].
    { exfalso. destruct E as [(_ & _ & N & _)|(N & _)]; congruence. }
    { eexists _, _, _. split; [reflexivity|]. split; [exact O|lia]. }
    pose proof E as G. destruct E as [(_ & N & _)|(_ & p & q & EB & NP & L1 & _ & _ & PR)]; [congruence|].
    assert (P1 : (1 <= length p)%nat) by (destruct p; [congruence|cbn; lia]).
    assert (LB : (length bs = length p + length q)%nat) by (rewrite EB; apply app_length).
    assert (FQ : finished q) by (rewrite EB in FN; now apply finished_app in FN).
    assert (K : forall x2, on 0 q x2 -> exists c v' x3, lexLoop ops U f x2 v false = Ok (c, v', x3) /\ on 0 bs x3 /\ (0 < c -> on 1 bs x3)).
    { intros x2 (p2 & q2 & E2 & _ & L2).
      assert (LQ : (length q = length p2 + length q2)%nat) by (rewrite E2; apply app_length).
      destruct (IH x2 q2 v false L2) as (c & v' & x3 & -> & O3 & O3').
      - rewrite E2 in FQ. now apply finished_app in FQ.
      - lia.
      - assert (T : forall k, on k q2 x3 -> on 1 bs x3).
        { intros k Ok_. apply (on_le 1 (1 + k)); [|lia]. apply (on_trans 1 k _ q2 (p ++ p2)%list); [rewrite EB, E2; now rewrite app_assoc|rewrite app_length; lia|exact Ok_]. }
        eexists _, _, _. split; [reflexivity|]. split; [apply (on_le 0 1); [|lia]; now apply (T 0%nat)|]. intros C. apply (T 1%nat). auto. }
    destruct (isWhitespace r); [apply K; now apply on_left|].
    match goal with |- exists _ _ _, (let '(_, _) := ?m in _) = _ /\ _ => destruct m as [x2 a2] eqn:Q2 end.
    assert (L2 : left x2 q /\ (a2 = true -> r = ch "-" /\ exists q', q = ch "-" :: q')).
    { destruct (Z.eqb_spec r (ch "-")) as [R|_]; [|injection Q2 as <- <-; split; [exact L1|discriminate]].
      destruct (peekRune ops x1) as [y k] eqn:P. destruct (peek_left _ _ _ _ L1 P) as [Y C]. injection Q2 as <- <-.
      split; [exact Y|]. intros EK. apply Z.eqb_eq in EK. split; [exact R|]. destruct C as [q' C]; [rewrite EK; discriminate|rewrite EK; reflexivity|].
      rewrite EK in C. eauto. }
    destruct L2 as [L2 H2].
    destruct a2.
    { destruct (H2 eq_refl) as (R & q' & EQ).
      assert (PP : p = [r]) by (apply PR; rewrite R; reflexivity).
      destruct (FN [] bs eq_refl) as (F1 & _).
      destruct (F1 q') as (b & B1 & B2). { rewrite EB, PP, EQ, R. reflexivity. }
      destruct (skipLine_left (S f) x2 q false L2) as (x3 & E3 & O3).
      - exists b. split; [rewrite EQ; now right|exact B2].
      - lia.
      - unfold skipLineComment. rewrite E3. cbn [rbind]. now apply K. }
    match goal with |- exists _ _ _, (let '(_, _) := ?m in _) = _ /\ _ => destruct m as [x4 a4] eqn:Q4 end.
    assert (L4 : left x4 q /\ (a4 = true -> r = ch "/" /\ exists q', q = ch "*" :: q')).
    { destruct (Z.eqb_spec r (ch "/")) as [R|_]; [|injection Q4 as <- <-; split; [exact L2|discriminate]].
      destruct (peekRune ops x2) as [y k] eqn:P. destruct (peek_left _ _ _ _ L2 P) as [Y C]. injection Q4 as <- <-.
      split; [exact Y|]. intros EK. apply Z.eqb_eq in EK. split; [exact R|]. destruct C as [q' C]; [rewrite EK; discriminate|rewrite EK; reflexivity|].
      rewrite EK in C. eauto. }
    destruct L4 as [L4 H4].
    destruct a4.
    { exfalso. destruct (H4 eq_refl) as (R & q' & EQ).
      assert (PP : p = [r]) by (apply PR; rewrite R; reflexivity).
      destruct (FN [] bs eq_refl) as (_ & F2 & _). apply (F2 q'). rewrite EB, PP, EQ, R. reflexivity. }
    destruct (token_left (S f) bs x4 v lw r p q EB NP L4 FN) as (c & v' & x5 & E5 & O5).
    - intros Hl. assert (r =? ch "-" = false).
      { destruct (Z.eqb_spec r (ch "-")); [subst r; destruct Hl; discriminate|reflexivity]. }
      assert (r =? ch "/" = false).
      { destruct (Z.eqb_spec r (ch "/")); [subst r; destruct Hl; discriminate|reflexivity]. }
      rewrite H in Q2. rewrite H0 in Q4. injection Q2 as <-. injection Q4 as <-. exact G.
    - intros [R|R]; apply PR; rewrite R; reflexivity.
    - exact FU.
    - rewrite E5. eexists _, _, _. split; [reflexivity|]. split; [apply (on_le 0 1); [exact O5|lia]|auto].
  Qed.

  Lemma Lex_left fuel x bs v : left x bs -> finished bs -> (length bs + 2 <= fuel)%nat ->
    exists c v' x1, Lex ops U fuel x v = Ok (c, v', x1) /\ on 0 bs x1 /\ (0 < c -> on 1 bs x1).
  Proof. intros L. unfold Lex. now apply loop_left. Qed.

  (** ** The parser *)

  Lemma fail_total fuel bs : finished bs -> 120 * Z.of_nat (length bs) + 122 <= Z.of_nat fuel ->
    exists r, ParseStream U fuel {| s_ev := map EvByte bs; s_term := TFail msg; s_last := None |} = Ok r.
  Proof.
    intros FN F. unfold ParseStream, ParseReader.
    destruct (parse_terminates (Lex stream_ops U fuel) Error
                (fun x => exists q, left x q /\ finished q /\ (length q + 2 <= fuel)%nat) ev) with (fuel := fuel)
                (lx := new_lexer {| s_ev := map EvByte bs; s_term := TFail msg; s_last := None |}) as (c & ps & ->).
    - intros x v (q & L & Hq & Hf). destruct (Lex_left fuel x q v L Hq Hf) as (c & v' & x' & E & (p1 & q1 & E1 & _ & L1) & O).
      assert (LE : forall y bs', left y bs' -> ev y = length bs') by (intros y bs' [H _]; unfold ev; rewrite H; apply map_length).
      assert (LQ : (length q = length p1 + length q1)%nat) by (rewrite E1; apply app_length).
      exists c, v', x'. split; [exact E|]. split; [exists q1; split; [exact L1|]; split; [rewrite E1 in Hq; now apply finished_app in Hq|lia]|].
      rewrite (LE _ _ L), (LE _ _ L1). split; [lia|].
      intros C. destruct (O C) as (p2 & q2 & E2 & P2 & L2). pose proof (LE _ _ L2) as L3. rewrite (LE _ _ L1) in L3.
      rewrite L3, E2, app_length. lia.
    - exists bs. split; [split; reflexivity|]. split; [exact FN|lia].
    - unfold ev. cbn [new_lexer lx_rd s_ev]. rewrite map_length. lia.
    - cbn [rbind]. destruct (lx_err (ps_lx ps)); eauto.
  Qed.
End Fail.
