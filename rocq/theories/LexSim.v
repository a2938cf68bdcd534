(** Two readers that answer alike make the lexer do the same: every function of
    [Lexer.v] is followed on both readers.  The second reader needs to answer only
    where the first one does not panic. *)
From Coq Require Import ZArith String Ascii List Bool Lia.
From Verif Require Import GoBase Utf8 Unicode Reader Tokens Reserved Lexer.
Import ListNotations.
Local Open Scope string_scope.
Local Open Scope list_scope.
Local Open Scope Z_scope.

Section LexSim.
  Context {R1 R2 : Type} (o1 : reader_ops R1) (o2 : reader_ops R2) (U : unicode_tables).
  (** [A r]: at least one byte can be read before the next error. *)
  Context (Q : R1 -> R2 -> Prop) (A : R1 -> Prop).
  Context (Q_rune : forall a b a' out, Q a b -> rd_rune o1 a = (a', out) -> exists b', rd_rune o2 b = (b', out) /\ Q a' b').
  Context (Q_unread : forall a b a', Q a b -> rd_unread o1 a = Some a' -> exists b', rd_unread o2 b = Some b' /\ Q a' b').
  Context (Q_peek : forall n a b a' bs c e, (n <= 8)%nat -> Q a b -> rd_peek o1 n a = (a', (bs, c, e)) ->
             exists b' c', rd_peek o2 n b = (b', (bs, c', e)) /\ Q a' b' /\ (n <= c')%nat).
  Context (Q_discard : forall n a b, (n <= 8)%nat -> Q a b -> A a -> Q (rd_discard o1 n a) (rd_discard o2 n b)).
  Context (rune_back : forall a a' r, rd_rune o1 a = (a', (r, None)) -> exists a'', rd_unread o1 a' = Some a'' /\ A a'').
  Context (rune_zero : forall a a' r e, rd_rune o1 a = (a', (r, Some e)) -> r = 0).
  Context (peek_some : forall n a a' bs c e, rd_peek o1 n a = (a', (bs, c, e)) -> A a \/ bs <> [] -> A a').

  (** Lexers in the same state but for the reader. *)
  Definition like (x : lexer R1) (y : lexer R2) : Prop :=
    Q (lx_rd x) (lx_rd y) /\ lx_err x = lx_err y /\ lx_lastWasNumber x = lx_lastWasNumber y /\ lx_lineNo x = lx_lineNo y.

  Lemma like_rd x y a b : like x y -> Q a b -> like (with_rd x a) (with_rd y b).
  Proof. intros (_ & E & F & G) H. repeat split; assumption. Qed.

  Lemma like_num x y b : like x y -> like (with_lastWasNumber x b) (with_lastWasNumber y b).
  Proof. intros (D & E & F & G). repeat split; assumption. Qed.

  Lemma like_line x y d : like x y -> like (with_lineNo x (lx_lineNo x + d)) (with_lineNo y (lx_lineNo y + d)).
  Proof. intros (D & E & F & G). repeat split; cbn; auto. now rewrite G. Qed.

  Lemma like_Error x y m : like x y -> like (Error x m) (Error y m).
  Proof. intros (D & E & F & G). repeat split; cbn; auto. now rewrite G. Qed.

  Lemma buf_sim x y x' out : like x y -> bufReadRune o1 x = (x', out) -> exists y', bufReadRune o2 y = (y', out) /\ like x' y'.
  Proof.
    intros H. unfold bufReadRune. destruct (rd_rune o1 (lx_rd x)) as [a o] eqn:E. intros F. injection F as <- <-.
    destruct (Q_rune _ _ _ _ (proj1 H) E) as (b & -> & Hb). exists (with_rd y b). split; [reflexivity|]. now apply like_rd.
  Qed.

  Lemma read_sim x y x' out : like x y -> readRune o1 x = (x', out) -> exists y', readRune o2 y = (y', out) /\ like x' y'.
  Proof.
    intros H. unfold readRune. destruct (bufReadRune o1 x) as [x1 [r e]] eqn:E. intros F. injection F as <- <-.
    destruct (buf_sim _ _ _ _ H E) as (y1 & -> & H1). eexists. split; [reflexivity|].
    destruct (isNewline r); [|exact H1]. now apply like_line.
  Qed.

  Lemma peekE_sim x y x' r e : like x y -> peekRuneE o1 x = (x', (r, e)) ->
    exists y', peekRuneE o2 y = (y', (r, e)) /\ like x' y' /\ (e = None -> A (lx_rd x')) /\ (e <> None -> r = 0).
  Proof.
    intros H. unfold peekRuneE. destruct (bufReadRune o1 x) as [x1 [r1 e1]] eqn:E.
    destruct (buf_sim _ _ _ _ H E) as (y1 & -> & H1). destruct e1 as [er|].
    - intros F. injection F as <- <- <-. exists y1. repeat split; try assumption; try apply H1; try discriminate.
      intros _. unfold bufReadRune in E. destruct (rd_rune o1 (lx_rd x)) as [a [r2 e2]] eqn:E2.
      injection E as _ -> ->. exact (rune_zero _ _ _ _ E2).
    - assert (B : exists a'', rd_unread o1 (lx_rd x1) = Some a'' /\ A a'').
      { unfold bufReadRune in E. destruct (rd_rune o1 (lx_rd x)) as [a [r2 e2]] eqn:E2.
        injection E as <- -> ->. cbn. exact (rune_back _ _ _ E2). }
      destruct B as (a'' & B & Ba). rewrite B. intros F. injection F as <- <- <-.
      destruct (Q_unread _ _ _ (proj1 H1) B) as (b'' & -> & Hb).
      exists (with_rd y1 b''). split; [reflexivity|]. split; [now apply like_rd|].
      split; [intros _; exact Ba|]. intros C. now contradiction C.
  Qed.

  Lemma peek_sim x y x' r : like x y -> peekRune o1 x = (x', r) ->
    exists y', peekRune o2 y = (y', r) /\ like x' y' /\ (r <> 0 -> A (lx_rd x')).
  Proof.
    intros H. unfold peekRune. destruct (peekRuneE o1 x) as [x1 [r1 e1]] eqn:E. intros F. injection F as <- <-.
    destruct (peekE_sim _ _ _ _ _ H E) as (y1 & -> & H1 & B & C). exists y1. split; [reflexivity|]. split; [exact H1|].
    intros N. destruct e1; [|auto]. contradiction N. apply C. discriminate.
  Qed.

  Lemma unread_sim x y x' : like x y -> unreadRune o1 x = Ok x' -> exists y', unreadRune o2 y = Ok y' /\ like x' y'.
  Proof.
    intros H. unfold unreadRune. destruct (rd_unread o1 (lx_rd x)) as [a|] eqn:E; [|discriminate].
    destruct (Q_unread _ _ _ (proj1 H) E) as (b & -> & Hb).
    destruct (peekRune o1 (with_rd x a)) as [x1 r] eqn:P. intros F. injection F as <-.
    destruct (peek_sim _ (with_rd y b) _ _ (like_rd _ _ _ _ H Hb) P) as (y1 & -> & H1 & _).
    eexists. split; [reflexivity|]. destruct (isNewline r); [|exact H1]. exact (like_line _ _ (-1) H1).
  Qed.

  Lemma discard_sim x y n : (n <= 8)%nat -> like x y -> A (lx_rd x) -> like (discard o1 x n) (discard o2 y n).
  Proof. intros N H a. apply like_rd; [exact H|]. apply Q_discard; [exact N|apply H|exact a]. Qed.

  Lemma peekInner_sim pos ls : forall x y x' o, Forall (fun l => pos + l <= 8)%nat ls -> like x y ->
    peekInner o1 x pos ls = Ok (x', o) ->
    exists y', peekInner o2 y pos ls = Ok (y', o) /\ like x' y' /\
      (A (lx_rd x) -> A (lx_rd x')) /\ (forall r size, o = PiBreak r size -> A (lx_rd x') /\ (size <= 4)%nat).
  Proof.
    induction ls as [|l ls IH]; intros x y x' o B H; cbn [peekInner].
    - intros E. injection E as <- <-. exists y. repeat split; auto; try apply H; discriminate.
    - inversion B as [|? ? Bl Bs]; subst. destruct (rd_peek o1 (pos + l) (lx_rd x)) as [a [[buf c] e]] eqn:P.
      destruct (Q_peek _ _ _ _ _ _ _ Bl (proj1 H) P) as (b & c' & -> & Hq & Hc).
      destruct (c <? pos + l)%nat; [discriminate|].
      replace (c' <? pos + l)%nat with false by (symmetry; apply Nat.ltb_ge; exact Hc).
      pose proof (like_rd _ _ _ _ H Hq) as H1. cbn zeta.
      destruct ((pos + l <=? length buf)%nat && full_rune (firstn l (skipn pos buf))) eqn:F.
      + destruct (decode_rune (firstn l (skipn pos buf))) as [r size] eqn:D. intros E. injection E as <- <-.
        exists (with_rd y b). split; [reflexivity|]. split; [exact H1|]. cbn [lx_rd with_rd].
        assert (N : buf <> []).
        { intros ->. apply andb_prop in F. destruct F as [_ F]. rewrite skipn_nil, firstn_nil in F. discriminate. }
        split; [intros Aa; apply (peek_some _ _ _ _ _ _ P); auto|].
        intros r0 s0 E0. injection E0 as <- <-. split; [apply (peek_some _ _ _ _ _ _ P); auto|].
        assert (L : forall m, (snd (decode_rune m) <= 4)%nat).
        { intros [|b0 [|b1 [|b2 [|b3 m]]]]; cbn; try lia;
            repeat match goal with |- context [if ?c then _ else _] => destruct c; cbn; try lia
                   | |- context [match ?c with _ => _ end] => destruct c; cbn; try lia end. }
        specialize (L (firstn l (skipn pos buf))). rewrite D in L. exact L.
      + assert (K : A (lx_rd x) -> A (lx_rd (with_rd x a))) by (intros Aa; apply (peek_some _ _ _ _ _ _ P); auto).
        destruct e as [[|m]|].
        * intros E. injection E as <- <-. exists (with_rd y b). split; [reflexivity|]. split; [exact H1|]. split; [exact K|]. discriminate.
        * intros E. destruct (IH _ _ _ _ Bs H1 E) as (y' & Ey & H2 & K2 & B2). exists y'. split; [exact Ey|]. split; [exact H2|]. split; [intros Aa; exact (K2 (K Aa))|exact B2].
        * intros E. destruct (IH _ _ _ _ Bs H1 E) as (y' & Ey & H2 & K2 & B2). exists y'. split; [exact Ey|]. split; [exact H2|]. split; [intros Aa; exact (K2 (K Aa))|exact B2].
  Qed.

  Lemma peekRunesLoop_sim fuel : forall n pos acc x y x' s, (pos + 4 * n <= 8)%nat -> like x y ->
    (acc <> "" -> A (lx_rd x)) ->
    peekRunesLoop o1 fuel x n pos acc = Ok (x', s) ->
    exists y', peekRunesLoop o2 fuel y n pos acc = Ok (y', s) /\ like x' y' /\ (s <> "" -> A (lx_rd x')).
  Proof.
    induction fuel as [|f IH]; intros n pos acc x y x' s B H a; destruct n as [|n]; cbn [peekRunesLoop]; try discriminate.
    - intros E. injection E as <- <-. exists y. auto.
    - intros E. injection E as <- <-. exists y. auto.
    - destruct (peekInner o1 x pos [1; 2; 3; 4]%nat) as [[x1 o]| |] eqn:P; try discriminate.
      destruct (peekInner_sim pos [1; 2; 3; 4]%nat x y x1 o) as (y1 & -> & H1 & K & C); auto.
      { repeat (apply Forall_cons; [lia|]). apply Forall_nil. }
      cbn [rbind]. destruct o as [r size| |].
      + destruct (C r size eq_refl) as [Ca Cs]. intros E. apply (IH n (pos + size)%nat _ x1 y1); auto. lia.
      + intros E. injection E as <- <-. exists y1. auto.
      + intros E. apply (IH (Datatypes.S n) pos acc x1 y1); auto.
  Qed.

  Lemma peekRunes_sim fuel x y x' s : like x y -> peekRunes o1 fuel x 2 = Ok (x', s) ->
    exists y', peekRunes o2 fuel y 2 = Ok (y', s) /\ like x' y' /\ (s <> "" -> A (lx_rd x')).
  Proof. intros H. apply peekRunesLoop_sim; auto. now intros []. Qed.

  Lemma line_sim fuel : forall x y b x', like x y -> skipLineCommentLoop o1 fuel x b = Ok x' ->
    exists y', skipLineCommentLoop o2 fuel y b = Ok y' /\ like x' y'.
  Proof.
    induction fuel as [|f IH]; intros x y b x' H; cbn [skipLineCommentLoop]; [discriminate|].
    destruct (readRune o1 x) as [x1 [r e]] eqn:E. destruct (read_sim _ _ _ _ H E) as (y1 & -> & H1).
    destruct (isNewline r || _); [intros F; injection F as <-; eauto|].
    destruct (r =? ch "-"); [destruct b; [intros F; injection F as <-; eauto|]|]; intros F; exact (IH _ _ _ _ H1 F).
  Qed.

  Lemma block_sim fuel : forall x y b c x', like x y -> skipBlockCommentLoop o1 fuel x b c = Ok x' ->
    exists y', skipBlockCommentLoop o2 fuel y b c = Ok y' /\ like x' y'.
  Proof.
    induction fuel as [|f IH]; intros x y b c x' H; cbn [skipBlockCommentLoop]; [discriminate|].
    destruct (readRune o1 x) as [x1 [r e]] eqn:E. destruct (read_sim _ _ _ _ H E) as (y1 & -> & H1).
    assert (G : forall F, (if r =? ch "/" then if c then Ok x1 else skipBlockCommentLoop o1 f x1 true c
        else if r =? ch "*" then if b then do x2 <- skipBlockCommentLoop o1 f x1 false false; skipBlockCommentLoop o1 f x2 false false
          else skipBlockCommentLoop o1 f x1 b true
        else skipBlockCommentLoop o1 f x1 false false) = Ok F ->
      exists y', (if r =? ch "/" then if c then Ok y1 else skipBlockCommentLoop o2 f y1 true c
        else if r =? ch "*" then if b then do x2 <- skipBlockCommentLoop o2 f y1 false false; skipBlockCommentLoop o2 f x2 false false
          else skipBlockCommentLoop o2 f y1 b true
        else skipBlockCommentLoop o2 f y1 false false) = Ok y' /\ like F y').
    { intros F. destruct (r =? ch "/").
      - destruct c; [intros E1; injection E1 as <-; eauto|apply IH; exact H1].
      - destruct (r =? ch "*"); [|apply IH; exact H1]. destruct b; [|apply IH; exact H1].
        destruct (skipBlockCommentLoop o1 f x1 false false) as [x2| |] eqn:E2; try discriminate.
        destruct (IH _ _ _ _ _ H1 E2) as (y2 & -> & H2). cbn [rbind]. apply IH. exact H2. }
    destruct e as [[|m]|]; [intros F; injection F as <-; eauto|apply G|apply G].
  Qed.

  Lemma wordLoop_sim fuel : forall x y acc l x' w, like x y -> consumeWordLoop o1 U fuel x acc l = Ok (x', w) ->
    exists y', consumeWordLoop o2 U fuel y acc l = Ok (y', w) /\ like x' y'.
  Proof.
    induction fuel as [|f IH]; intros x y acc l x' w H; cbn [consumeWordLoop]; [discriminate|].
    destruct (readRune o1 x) as [x1 [r e]] eqn:E. destruct (read_sim _ _ _ _ H E) as (y1 & -> & H1).
    destruct (_ || isWhitespace r || _).
    - destruct (ends_with_hyphen acc); [intros F; injection F as <- <-; eauto|].
      destruct e as [er|]; [intros F; injection F as <- <-; eauto|].
      destruct (unreadRune o1 x1) as [x2| |] eqn:E2; try discriminate.
      destruct (unread_sim _ _ _ H1 E2) as (y2 & -> & H2). cbn [rbind]. intros F. injection F as <- <-. eauto.
    - destruct e as [er|]; [intros F; injection F as <- <-; eauto|].
      destruct (negb (isIdentifierChar U r)); [intros F; injection F as <- <-; eauto|].
      destruct ((l =? ch "-") && (r =? ch "-")); [intros F; injection F as <- <-; eauto|].
      intros F. exact (IH _ _ _ _ _ _ H1 F).
  Qed.

  Lemma word_sim fuel x y x' w : like x y -> consumeWord o1 U fuel x = Ok (x', w) ->
    exists y', consumeWord o2 U fuel y = Ok (y', w) /\ like x' y'.
  Proof.
    intros H. unfold consumeWord. destruct (bufReadRune o1 x) as [x1 [r e]] eqn:E.
    destruct (buf_sim _ _ _ _ H E) as (y1 & -> & H1). now apply wordLoop_sim.
  Qed.

  Lemma numberLoop_sim fuel : forall x y v acc c v' x', like x y -> consumeNumberLoop o1 U fuel x v acc = Ok (c, v', x') ->
    exists y', consumeNumberLoop o2 U fuel y v acc = Ok (c, v', y') /\ like x' y'.
  Proof.
    induction fuel as [|f IH]; intros x y v acc c v' x' H; cbn [consumeNumberLoop]; [discriminate|].
    destruct (readRune o1 x) as [x1 [r e]] eqn:E. destruct (read_sim _ _ _ _ H E) as (y1 & -> & H1).
    destruct (_ || negb (is_digit U r)).
    - set (m1 := match e with None => if negb (is_digit U r) then unreadRune o1 x1 else Ok x1 | Some _ => Ok x1 end).
      set (m2 := match e with None => if negb (is_digit U r) then unreadRune o2 y1 else Ok y1 | Some _ => Ok y1 end).
      assert (M : forall x2, m1 = Ok x2 -> exists y2, m2 = Ok y2 /\ like x2 y2).
      { intros x2. unfold m1, m2. destruct e as [er|]; [intros F; injection F as <-; eauto|].
        destruct (negb (is_digit U r)); [apply unread_sim; exact H1|intros F; injection F as <-; eauto]. }
      destruct m1 as [x2| |]; try discriminate. destruct (M x2 eq_refl) as (y2 & -> & H2). cbn [rbind].
      destruct (atoi acc); intros F; injection F as <- <- <-; eexists; (split; [reflexivity|]); try apply like_Error; exact H2.
    - destruct e as [er|]; [intros F; injection F as <- <- <-; eexists; (split; [reflexivity|]); now apply like_Error|].
      intros F. exact (IH _ _ _ _ _ _ _ H1 F).
  Qed.

  Lemma number_sim fuel x y v c v' x' : like x y -> consumeNumber o1 U fuel x v = Ok (c, v', x') ->
    exists y', consumeNumber o2 U fuel y v = Ok (c, v', y') /\ like x' y'.
  Proof.
    intros H. unfold consumeNumber. destruct (bufReadRune o1 x) as [x1 [r e]] eqn:E.
    destruct (buf_sim _ _ _ _ H E) as (y1 & -> & H1).
    destruct e as [er|]; [intros F; injection F as <- <- <-; eexists; (split; [reflexivity|]); now apply like_Error|].
    now apply numberLoop_sim.
  Qed.

  Lemma single_sim x y r c x' : like x y -> consumeSingleSymbol x r = (c, x') ->
    exists y', consumeSingleSymbol y r = (c, y') /\ like x' y'.
  Proof.
    intros H. unfold consumeSingleSymbol.
    repeat match goal with |- context [if ?c then _ else _] => destruct c end;
      intros F; injection F as <- <-; eexists; (split; [reflexivity|]); try exact H. now apply like_Error.
  Qed.

  (** A peek guarded by a test on the current rune. *)
  Lemma guarded_sim (g : bool) d x y x' b : d <> 0 -> like x y ->
    (if g then let '(x1, c) := peekRune o1 x in (x1, c =? d) else (x, false)) = (x', b) ->
    exists y', (if g then let '(y1, c) := peekRune o2 y in (y1, c =? d) else (y, false)) = (y', b) /\ like x' y' /\
      (b = true -> A (lx_rd x')).
  Proof.
    intros D H. destruct g; [|intros E; injection E as <- <-; exists y; repeat split; try apply H; discriminate].
    destruct (peekRune o1 x) as [x1 c] eqn:E. destruct (peek_sim _ _ _ _ H E) as (y1 & -> & H1 & B).
    intros F. injection F as <- <-. exists y1. split; [reflexivity|]. split; [exact H1|].
    intros T. apply B. apply Z.eqb_eq in T. congruence.
  Qed.

  (** Two runes peeked, guarded by a test on the current rune. *)
  Lemma guarded2_sim (g : bool) fuel t x y x' b : t <> "" -> like x y ->
    (if g then do (x1, s) <- peekRunes o1 fuel x 2; Ok (x1, String.eqb s t) else Ok (x, false)) = Ok (x', b) ->
    exists y', (if g then do (y1, s) <- peekRunes o2 fuel y 2; Ok (y1, String.eqb s t) else Ok (y, false)) = Ok (y', b) /\
      like x' y' /\ (b = true -> A (lx_rd x')).
  Proof.
    intros D H. destruct g; [|intros E; injection E as <- <-; exists y; repeat split; try apply H; discriminate].
    destruct (peekRunes o1 fuel x 2) as [[x1 s]| |] eqn:E; try discriminate.
    destruct (peekRunes_sim _ _ _ _ _ H E) as (y1 & -> & H1 & B). cbn [rbind].
    intros F. injection F as <- <-. exists y1. split; [reflexivity|]. split; [exact H1|].
    intros T. apply B. apply String.eqb_eq in T. congruence.
  Qed.

  Lemma token_sim fuel x y v lw r c v' x' : like x y -> lexToken o1 U fuel x v lw r = Ok (c, v', x') ->
    exists y', lexToken o2 U fuel y v lw r = Ok (c, v', y') /\ like x' y'.
  Proof.
    intros H. unfold lexToken. destruct (is_letter U r).
    { destruct (lw && _); [intros F; injection F as <- <- <-; eauto|].
      destruct (unreadRune o1 x) as [x1| |] eqn:E1; try discriminate.
      destruct (unread_sim _ _ _ H E1) as (y1 & -> & H1). cbn [rbind].
      destruct (consumeWord o1 U fuel x1) as [[x2 w]| |] eqn:E2; try discriminate.
      destruct (word_sim _ _ _ _ _ H1 E2) as (y2 & -> & H2). cbn [rbind].
      destruct w as [w|e]; [|intros F; injection F as <- <- <-; eexists; (split; [reflexivity|]); now apply like_Error].
      destruct (is_upper U r); [|intros F; injection F as <- <- <-; eauto].
      destruct (assoc_word w RESERVED_WORDS); intros F; injection F as <- <- <-; eauto. }
    destruct (is_digit U r).
    { destruct (unreadRune o1 x) as [x1| |] eqn:E1; try discriminate.
      destruct (unread_sim _ _ _ H E1) as (y1 & -> & H1). cbn [rbind]. apply number_sim. now apply like_num. }
    destruct (if r =? ch ":" then _ else _) as [[x1 b1]| |] eqn:E1; try discriminate.
    destruct (guarded2_sim _ fuel ":=" x y x1 b1 ltac:(discriminate) H E1) as (y1 & -> & H1 & A1). cbn [rbind].
    destruct b1; [intros F; injection F as <- <- <-; eexists; (split; [reflexivity|]); apply discard_sim; auto; lia|].
    destruct (if r =? ch "." then _ else Ok _) as [[x2 b2]| |] eqn:E2; try discriminate.
    destruct (guarded2_sim _ fuel ".." x1 y1 x2 b2 ltac:(discriminate) H1 E2) as (y2 & -> & H2 & A2). cbn [rbind].
    destruct b2; [intros F; injection F as <- <- <-; eexists; (split; [reflexivity|]); apply discard_sim; auto; lia|].
    destruct (if r =? ch "." then _ else (x2, false)) as [x3 b3] eqn:E3.
    destruct (guarded_sim _ (ch ".") x2 y2 x3 b3 ltac:(discriminate) H2 E3) as (y3 & -> & H3 & A3).
    destruct b3; [intros F; injection F as <- <- <-; eexists; (split; [reflexivity|]); apply discard_sim; auto; lia|].
    destruct (if r =? ch "[" then _ else (x3, false)) as [x4 b4] eqn:E4.
    destruct (guarded_sim _ (ch "[") x3 y3 x4 b4 ltac:(discriminate) H3 E4) as (y4 & -> & H4 & A4).
    destruct b4; [intros F; injection F as <- <- <-; eexists; (split; [reflexivity|]); apply discard_sim; auto; lia|].
    destruct (if r =? ch "]" then _ else (x4, false)) as [x5 b5] eqn:E5.
    destruct (guarded_sim _ (ch "]") x4 y4 x5 b5 ltac:(discriminate) H4 E5) as (y5 & -> & H5 & A5).
    destruct b5; [intros F; injection F as <- <- <-; eexists; (split; [reflexivity|]); apply discard_sim; auto; lia|].
    destruct (consumeSingleSymbol x5 r) as [c6 x6] eqn:E6. destruct (single_sim _ _ _ _ _ H5 E6) as (y6 & -> & H6).
    intros F. injection F as <- <- <-. eauto.
  Qed.

  Lemma loop_sim fuel : forall x y v lw c v' x', like x y -> lexLoop o1 U fuel x v lw = Ok (c, v', x') ->
    exists y', lexLoop o2 U fuel y v lw = Ok (c, v', y') /\ like x' y'.
  Proof.
    induction fuel as [|f IH]; intros x y v lw c v' x' H; cbn [lexLoop]; [discriminate|].
    destruct (readRune o1 x) as [x1 [r e]] eqn:E. destruct (read_sim _ _ _ _ H E) as (y1 & -> & H1).
    destruct e as [[|m]|]; [intros F; injection F as <- <- <-; eauto|
      intros F; injection F as <- <- <-; eexists; (split; [reflexivity|]); now apply like_Error|].
    destruct (isWhitespace r); [intros F; exact (IH _ _ _ _ _ _ _ H1 F)|].
    destruct (if r =? ch "-" then _ else (x1, false)) as [x2 b2] eqn:E2.
    destruct (guarded_sim _ (ch "-") x1 y1 x2 b2 ltac:(discriminate) H1 E2) as (y2 & -> & H2 & _).
    destruct b2.
    { unfold skipLineComment. destruct (skipLineCommentLoop o1 (Datatypes.S f) x2 false) as [x3| |] eqn:E3; try discriminate.
      destruct (line_sim _ _ _ _ _ H2 E3) as (y3 & -> & H3). cbn [rbind]. apply IH. exact H3. }
    destruct (if r =? ch "/" then _ else (x2, false)) as [x4 b4] eqn:E4.
    destruct (guarded_sim _ (ch "*") x2 y2 x4 b4 ltac:(discriminate) H2 E4) as (y4 & -> & H4 & _).
    destruct b4; [|apply token_sim; exact H4].
    unfold skipBlockComment. destruct (skipBlockCommentLoop o1 (Datatypes.S f) x4 false false) as [x5| |] eqn:E5; try discriminate.
    destruct (block_sim _ _ _ _ _ _ H4 E5) as (y5 & -> & H5). cbn [rbind]. apply IH. exact H5.
  Qed.

  Lemma Lex_sim fuel x y v c v' x' : like x y -> Lex o1 U fuel x v = Ok (c, v', x') ->
    exists y', Lex o2 U fuel y v = Ok (c, v', y') /\ like x' y'.
  Proof. intros H. unfold Lex. rewrite <- (proj1 (proj2 (proj2 H))). apply loop_sim. now apply like_num. Qed.

  Lemma like_new a b : Q a b -> like (new_lexer a) (new_lexer b).
  Proof. intros H. repeat split. exact H. Qed.
End LexSim.
