(** The lexer over any reader: the error field, and that more fuel does not change
    a result. *)
From Coq Require Import ZArith String Ascii Bool List Lia.
From Verif Require Import GoBase Utf8 Unicode Reader Tokens Reserved Lexer.
Import ListNotations.
Local Open Scope Z_scope.

Section Err.
  Context {R : Type} (ops : reader_ops R) (U : unicode_tables).
  Notation lexer := (lexer R).

  Lemma readRune_err x x' o : readRune ops x = (x', o) -> lx_err x' = lx_err x.
  Proof.
    unfold readRune, bufReadRune. destruct (rd_rune ops (lx_rd x)) as [r' [r e]]. intros H.
    injection H as <- _. now destruct (isNewline r).
  Qed.

  Lemma bufReadRune_err x x' o : bufReadRune ops x = (x', o) -> lx_err x' = lx_err x.
  Proof.
    unfold bufReadRune. destruct (rd_rune ops (lx_rd x)) as [r' out]. intros H. now injection H as <- _.
  Qed.

  Lemma peekRune_err x x' c : peekRune ops x = (x', c) -> lx_err x' = lx_err x.
  Proof.
    unfold peekRune, peekRuneE, bufReadRune. destruct (rd_rune ops (lx_rd x)) as [r' [r e]].
    destruct e; [|cbn [lx_rd with_rd]; destruct (rd_unread ops r')]; intros H; now injection H as <- _.
  Qed.

  Lemma unreadRune_err x x' : unreadRune ops x = Ok x' -> lx_err x' = lx_err x.
  Proof.
    unfold unreadRune. destruct (rd_unread ops (lx_rd x)) as [rd|]; [|discriminate].
    destruct (peekRune ops (with_rd x rd)) as [x1 r] eqn:P. apply peekRune_err in P.
    intros H. injection H as <-. now destruct (isNewline r).
  Qed.

  Lemma peekInner_err ls : forall x pos x' o, peekInner ops x pos ls = Ok (x', o) -> lx_err x' = lx_err x.
  Proof.
    induction ls as [|l ls IH]; intros x pos x' o; cbn [peekInner].
    - intros H. now injection H as <- _.
    - destruct (rd_peek ops (pos + l) (lx_rd x)) as [rd [[buf cap] e]].
      destruct (cap <? pos + l)%nat; [discriminate|].
      destruct ((pos + l <=? length buf)%nat && full_rune (firstn l (skipn pos buf))).
      + destruct (decode_rune (firstn l (skipn pos buf))). intros H. now injection H as <- _.
      + destruct e as [[|m]|]; [intros H; now injection H as <- _| |]; intros H; now apply IH in H.
  Qed.

  Lemma peekRunesLoop_err fuel : forall x n pos acc x' s,
    peekRunesLoop ops fuel x n pos acc = Ok (x', s) -> lx_err x' = lx_err x.
  Proof.
    induction fuel as [|f IH]; intros x [|n] pos acc x' s; cbn [peekRunesLoop]; try discriminate;
      try (intros H; now injection H as <- _).
    destruct (peekInner ops x pos [1; 2; 3; 4]%nat) as [[x1 o]| |] eqn:P; try discriminate. cbn [rbind].
    apply peekInner_err in P. destruct o.
    - intros H. apply IH in H. congruence.
    - intros H. injection H as <- _. assumption.
    - intros H. apply IH in H. congruence.
  Qed.

  Lemma skipLine_err fuel : forall x b x', skipLineCommentLoop ops fuel x b = Ok x' -> lx_err x' = lx_err x.
  Proof.
    induction fuel as [|f IH]; intros x b x'; cbn [skipLineCommentLoop]; [discriminate|].
    destruct (readRune ops x) as [x1 [r e]] eqn:E. apply readRune_err in E.
    destruct (isNewline r || _); [intros H; now injection H as <-|].
    destruct (r =? ch "-"); [destruct b; [intros H; now injection H as <-|]|]; intros H; apply IH in H; congruence.
  Qed.

  Lemma skipBlock_err fuel : forall x a b x', skipBlockCommentLoop ops fuel x a b = Ok x' -> lx_err x' = lx_err x.
  Proof.
    induction fuel as [|f IH]; intros x a b x'; cbn [skipBlockCommentLoop]; [discriminate|].
    destruct (readRune ops x) as [x1 [r e]] eqn:E. apply readRune_err in E.
    assert (K : (if r =? ch "/" then if b then Ok x1 else skipBlockCommentLoop ops f x1 true b
             else if r =? ch "*" then
               if a then rbind (skipBlockCommentLoop ops f x1 false false) (fun x2 => skipBlockCommentLoop ops f x2 false false)
               else skipBlockCommentLoop ops f x1 a true
             else skipBlockCommentLoop ops f x1 false false) = Ok x' -> lx_err x' = lx_err x).
    { destruct (r =? ch "/").
      { destruct b; [intros H; now injection H as <-|]. intros H; apply IH in H; congruence. }
      destruct (r =? ch "*").
      - destruct a.
        + destruct (skipBlockCommentLoop ops f x1 false false) as [x2| |] eqn:Q; try discriminate. cbn [rbind].
          apply IH in Q. intros H; apply IH in H; congruence.
        + intros H; apply IH in H; congruence.
      - intros H; apply IH in H; congruence. }
    destruct e as [[|m]|]; [intros H; now injection H as <-| |]; exact K.
  Qed.

  Lemma consumeWordLoop_err fuel : forall x acc lastR x' w,
    consumeWordLoop ops U fuel x acc lastR = Ok (x', w) -> lx_err x' = lx_err x.
  Proof.
    induction fuel as [|f IH]; intros x acc lastR x' w; cbn [consumeWordLoop]; [discriminate|].
    destruct (readRune ops x) as [x1 [r e]] eqn:E. apply readRune_err in E.
    destruct (_ || isWhitespace r || negb (isIdentifierChar U r)).
    - destruct (ends_with_hyphen acc); [intros H; now injection H as <- _|].
      destruct e; [intros H; now injection H as <- _|].
      destruct (unreadRune ops x1) as [x2| |] eqn:Q; try discriminate. apply unreadRune_err in Q. cbn [rbind].
      intros H. injection H as <- _. congruence.
    - destruct e; [intros H; now injection H as <- _|].
      destruct (negb (isIdentifierChar U r)); [intros H; now injection H as <- _|].
      destruct ((lastR =? ch "-") && (r =? ch "-")); [intros H; now injection H as <- _|].
      intros H; apply IH in H; congruence.
  Qed.

  (** What Lex may do to the error field. *)
  Definition err_step (x : lexer) (c : Z) (x' : lexer) : Prop :=
    (0 <= c /\ lx_err x' = lx_err x) \/ (c = -1 /\ lx_err x' <> None).

  Lemma err_step_eq x x1 c x' : lx_err x1 = lx_err x -> err_step x1 c x' -> err_step x c x'.
  Proof. intros E [[A B]|B]; [left|now right]. split; congruence. Qed.

  (** The same for a call that found a lexem. *)
  Definition tok_step (x : lexer) (c : Z) (x' : lexer) : Prop :=
    (0 < c /\ lx_err x' = lx_err x) \/ (c = -1 /\ lx_err x' <> None).

  Lemma tok_step_eq x x1 c x' : lx_err x1 = lx_err x -> tok_step x1 c x' -> tok_step x c x'.
  Proof. intros E [[A B]|B]; [left|now right]. split; congruence. Qed.

  Lemma tok_err_step x c x' : tok_step x c x' -> err_step x c x'.
  Proof. intros [[A B]|B]; [left|now right]. split; [lia|assumption]. Qed.

  Lemma Error_set (x : lexer) e : lx_err (Error x e) <> None.
  Proof. discriminate. Qed.

  Ltac done_err := intros H; injection H as <- _ <-; right; split; [reflexivity|discriminate].

  Lemma consumeNumberLoop_err fuel : forall x lval acc c v x',
    consumeNumberLoop ops U fuel x lval acc = Ok (c, v, x') -> tok_step x c x'.
  Proof.
    induction fuel as [|f IH]; intros x lval acc c v x'; cbn [consumeNumberLoop]; [discriminate|].
    destruct (readRune ops x) as [x1 [r e]] eqn:E. apply readRune_err in E.
    destruct (_ || negb (is_digit U r)).
    - match goal with |- rbind ?m _ = _ -> _ => destruct m as [x2| |] eqn:Q end; try discriminate. cbn [rbind].
      assert (E2 : lx_err x2 = lx_err x).
      { destruct e; [injection Q as <-; assumption|]. destruct (negb (is_digit U r)).
        - apply unreadRune_err in Q. congruence.
        - injection Q as <-. assumption. }
      destruct (atoi acc); [|done_err..].
      intros H. injection H as <- _ <-. left. split; [unfold T_NUMBER; lia|assumption].
    - destruct e; [done_err|]. intros H. apply IH in H. now apply (tok_step_eq x x1).
  Qed.

  Lemma consumeNumber_err fuel x lval c v x' :
    consumeNumber ops U fuel x lval = Ok (c, v, x') -> tok_step x c x'.
  Proof.
    unfold consumeNumber. destruct (bufReadRune ops x) as [x1 [r e]] eqn:E. apply bufReadRune_err in E.
    destruct e; [done_err|]. intros H. apply consumeNumberLoop_err in H. now apply (tok_step_eq x x1).
  Qed.

  Lemma consumeWord_err fuel x x' w : consumeWord ops U fuel x = Ok (x', w) -> lx_err x' = lx_err x.
  Proof.
    unfold consumeWord. destruct (bufReadRune ops x) as [x1 [r e]] eqn:E. apply bufReadRune_err in E.
    intros H. apply consumeWordLoop_err in H. congruence.
  Qed.

  Lemma single_err x r c x' : consumeSingleSymbol x r = (c, x') -> tok_step x c x'.
  Proof.
    unfold consumeSingleSymbol.
    repeat match goal with |- context [if ?b then _ else _] => destruct b end;
      intros H; injection H as <- <-;
      try (left; split; [cbv; reflexivity|reflexivity]).
    right. split; [reflexivity|discriminate].
  Qed.

  Lemma reserved_check : forallb (fun p => 57346 <=? snd p) RESERVED_WORDS = true.
  Proof. vm_compute. reflexivity. Qed.

  Lemma assoc_word_In w l c : assoc_word w l = Some c -> In (w, c) l.
  Proof.
    induction l as [|[k v] l IH]; cbn [assoc_word]; [discriminate|].
    destruct (String.eqb w k) eqn:E.
    - apply String.eqb_eq in E. intros H. injection H as <-. subst. now left.
    - intros H. right. now apply IH.
  Qed.

  Lemma assoc_word_pos w c : assoc_word w RESERVED_WORDS = Some c -> 57346 <= c.
  Proof.
    intros H. apply assoc_word_In in H. pose proof reserved_check as C. rewrite forallb_forall in C.
    apply C in H. now apply Z.leb_le in H.
  Qed.

  Lemma lexToken_err fuel x lval lw r c v x' :
    lexToken ops U fuel x lval lw r = Ok (c, v, x') -> tok_step x c x'.
  Proof.
    unfold lexToken. destruct (is_letter U r).
    - destruct (lw && _).
      { intros H. injection H as <- _ <-. left. split; [cbv; reflexivity|reflexivity]. }
      destruct (unreadRune ops x) as [x1| |] eqn:Q; try discriminate. apply unreadRune_err in Q. cbn [rbind].
      destruct (consumeWord ops U fuel x1) as [[x2 w]| |] eqn:W; try discriminate. apply consumeWord_err in W.
      cbn [rbind]. destruct w; [|done_err].
      destruct (is_upper U r).
      + destruct (assoc_word w RESERVED_WORDS) as [code|] eqn:A.
        * intros H. injection H as <- _ <-. apply assoc_word_pos in A. left. split; [lia|congruence].
        * intros H. injection H as <- _ <-. left. split; [cbv; reflexivity|congruence].
      + intros H. injection H as <- _ <-. left. split; [cbv; reflexivity|congruence].
    - destruct (is_digit U r).
      { destruct (unreadRune ops x) as [x1| |] eqn:Q; try discriminate. apply unreadRune_err in Q. cbn [rbind].
        intros H. apply consumeNumber_err in H. cbn [with_lastWasNumber lx_err] in H.
        apply (tok_step_eq x (with_lastWasNumber x1 true)); assumption. }
      match goal with |- rbind ?m _ = _ -> _ => destruct m as [[x1 a1]| |] eqn:Q1 end; try discriminate.
      assert (E1 : lx_err x1 = lx_err x).
      { destruct (r =? ch ":").
        - unfold peekRunes in Q1.
          destruct (peekRunesLoop ops fuel x 2 0 "") as [[xp s]| |] eqn:P; try discriminate.
          apply peekRunesLoop_err in P. cbn [rbind] in Q1. injection Q1 as <- _. assumption.
        - injection Q1 as <- _. reflexivity. }
      cbn [rbind]. destruct a1.
      { intros H. injection H as <- _ <-. left. split; [cbv; reflexivity|exact E1]. }
      match goal with |- rbind ?m _ = _ -> _ => destruct m as [[x2 a2]| |] eqn:Q2 end; try discriminate.
      assert (E2 : lx_err x2 = lx_err x1).
      { destruct (r =? ch ".").
        - unfold peekRunes in Q2.
          destruct (peekRunesLoop ops fuel x1 2 0 "") as [[xp s]| |] eqn:P; try discriminate.
          apply peekRunesLoop_err in P. cbn [rbind] in Q2. injection Q2 as <- _. assumption.
        - injection Q2 as <- _. reflexivity. }
      cbn [rbind]. destruct a2.
      { intros H. injection H as <- _ <-. left. split; [cbv; reflexivity|cbn; congruence]. }
      match goal with |- (let '(_, _) := ?m in _) = _ -> _ => destruct m as [x3 a3] eqn:Q3 end.
      assert (E3 : lx_err x3 = lx_err x2).
      { destruct (r =? ch "."); [|now injection Q3 as <- _].
        destruct (peekRune ops x2) as [xp s] eqn:P. apply peekRune_err in P. now injection Q3 as <- _. }
      destruct a3.
      { intros H. injection H as <- _ <-. left. split; [cbv; reflexivity|cbn; congruence]. }
      match goal with |- (let '(_, _) := ?m in _) = _ -> _ => destruct m as [x4 a4] eqn:Q4 end.
      assert (E4 : lx_err x4 = lx_err x3).
      { destruct (r =? ch "["); [|now injection Q4 as <- _].
        destruct (peekRune ops x3) as [xp s] eqn:P. apply peekRune_err in P. now injection Q4 as <- _. }
      destruct a4.
      { intros H. injection H as <- _ <-. left. split; [cbv; reflexivity|cbn; congruence]. }
      match goal with |- (let '(_, _) := ?m in _) = _ -> _ => destruct m as [x5 a5] eqn:Q5 end.
      assert (E5 : lx_err x5 = lx_err x4).
      { destruct (r =? ch "]"); [|now injection Q5 as <- _].
        destruct (peekRune ops x4) as [xp s] eqn:P. apply peekRune_err in P. now injection Q5 as <- _. }
      destruct a5.
      { intros H. injection H as <- _ <-. left. split; [cbv; reflexivity|cbn; congruence]. }
      destruct (consumeSingleSymbol x5 r) as [code x6] eqn:C. apply single_err in C.
      intros H. injection H as <- _ <-. apply (tok_step_eq x x5); [congruence|assumption].
  Qed.

  Lemma lexLoop_err fuel : forall x lval lw c v x',
    lexLoop ops U fuel x lval lw = Ok (c, v, x') -> err_step x c x'.
  Proof.
    induction fuel as [|f IH]; intros x lval lw c v x'; cbn [lexLoop]; [discriminate|].
    destruct (readRune ops x) as [x1 [r e]] eqn:E. apply readRune_err in E.
    destruct e as [[|m]|].
    { intros H. injection H as <- _ <-. left. split; [lia|assumption]. }
    { done_err. }
    destruct (isWhitespace r).
    { intros H. apply IH in H. now apply (err_step_eq x x1). }
    match goal with |- (let '(_, _) := ?m in _) = _ -> _ => destruct m as [x2 a2] eqn:Q2 end.
    assert (E2 : lx_err x2 = lx_err x1).
    { destruct (r =? ch "-"); [|now injection Q2 as <- _].
      destruct (peekRune ops x1) as [x'' s] eqn:P. apply peekRune_err in P. now injection Q2 as <- _. }
    destruct a2.
    { destruct (skipLineComment ops (S f) x2) as [x3| |] eqn:Q3; try discriminate. cbn [rbind].
      apply skipLine_err in Q3. intros H. apply IH in H. apply (err_step_eq x x3); congruence. }
    match goal with |- (let '(_, _) := ?m in _) = _ -> _ => destruct m as [x4 a4] eqn:Q4 end.
    assert (E4 : lx_err x4 = lx_err x2).
    { destruct (r =? ch "/"); [|now injection Q4 as <- _].
      destruct (peekRune ops x2) as [x'' s] eqn:P. apply peekRune_err in P. now injection Q4 as <- _. }
    destruct a4.
    { destruct (skipBlockComment ops (S f) x4) as [x5| |] eqn:Q5; try discriminate. cbn [rbind].
      apply skipBlock_err in Q5. intros H. apply IH in H. apply (err_step_eq x x5); congruence. }
    intros H. apply lexToken_err, tok_err_step in H. apply (err_step_eq x x4); congruence.
  Qed.

  Theorem Lex_err fuel x lval c v x' : Lex ops U fuel x lval = Ok (c, v, x') -> err_step x c x'.
  Proof.
    unfold Lex. intros H. apply lexLoop_err in H.
    now apply (err_step_eq x (with_lastWasNumber x false)).
  Qed.
End Err.

(** ** More fuel *)

(** [mono f]: once a result is there, more fuel gives the same. *)
Definition mono {A} (f : nat -> res A) : Prop :=
  forall n m a, f n = Ok a -> (n <= m)%nat -> f m = Ok a.

Section Mono.
  Context {R : Type} (ops : reader_ops R) (U : unicode_tables).

  Lemma rbind_mono {A B} (m m' : res A) (f f' : A -> res B) b :
    (forall a, m = Ok a -> m' = Ok a) -> (forall a, f a = Ok b -> f' a = Ok b) ->
    rbind m f = Ok b -> rbind m' f' = Ok b.
  Proof.
    intros H1 H2. destruct m as [a| |]; try discriminate. rewrite (H1 a eq_refl). cbn. apply H2.
  Qed.

  Lemma peekRunesLoop_mono n m : (n <= m)%nat -> forall x k pos acc a,
    peekRunesLoop ops n x k pos acc = Ok a -> peekRunesLoop ops m x k pos acc = Ok a.
  Proof.
    revert m. induction n as [|n IH]; intros m L x k pos acc a.
    - destruct k; [destruct m; intros H; exact H|discriminate].
    - destruct m as [|m]; [lia|]. destruct k as [|k]; [intros H; exact H|]. cbn [peekRunesLoop].
      apply rbind_mono; [auto|]. intros [x1 o]. destruct o; auto; apply IH; lia.
  Qed.

  Lemma skipLine_mono n m : (n <= m)%nat -> forall x b a,
    skipLineCommentLoop ops n x b = Ok a -> skipLineCommentLoop ops m x b = Ok a.
  Proof.
    revert m. induction n as [|n IH]; intros m L x b a; [discriminate|].
    destruct m as [|m]; [lia|]. cbn [skipLineCommentLoop]. destruct (readRune ops x) as [x1 [r e]].
    destruct (isNewline r || _); [auto|]. destruct (r =? ch "-"); [destruct b; [auto|]|]; apply IH; lia.
  Qed.

  Lemma skipBlock_mono n m : (n <= m)%nat -> forall x b c a,
    skipBlockCommentLoop ops n x b c = Ok a -> skipBlockCommentLoop ops m x b c = Ok a.
  Proof.
    revert m. induction n as [|n IH]; intros m L x b c a; [discriminate|].
    destruct m as [|m]; [lia|]. cbn [skipBlockCommentLoop]. destruct (readRune ops x) as [x1 [r e]].
    assert (K : forall P Q : res (lexer R), (P = Ok a -> Q = Ok a) ->
       match e with Some EOF => Ok x1 | _ => P end = Ok a -> match e with Some EOF => Ok x1 | _ => Q end = Ok a).
    { intros P Q H. destruct e as [[|]|]; auto. }
    apply K. destruct (r =? ch "/"); [destruct c; [auto|apply IH; lia]|].
    destruct (r =? ch "*"); [|apply IH; lia]. destruct b; [|apply IH; lia].
    apply rbind_mono; intros; (eapply IH; [lia|eassumption]).
  Qed.

  Lemma consumeWordLoop_mono n m : (n <= m)%nat -> forall x acc l a,
    consumeWordLoop ops U n x acc l = Ok a -> consumeWordLoop ops U m x acc l = Ok a.
  Proof.
    revert m. induction n as [|n IH]; intros m L x acc l a; [discriminate|].
    destruct m as [|m]; [lia|]. cbn [consumeWordLoop]. destruct (readRune ops x) as [x1 [r e]].
    destruct (_ || isWhitespace r || _); [auto|]. destruct e; [auto|].
    destruct (negb _); [auto|]. destruct ((l =? ch "-") && _); [auto|]. apply IH. lia.
  Qed.

  Lemma consumeNumberLoop_mono n m : (n <= m)%nat -> forall x v acc a,
    consumeNumberLoop ops U n x v acc = Ok a -> consumeNumberLoop ops U m x v acc = Ok a.
  Proof.
    revert m. induction n as [|n IH]; intros m L x v acc a; [discriminate|].
    destruct m as [|m]; [lia|]. cbn [consumeNumberLoop]. destruct (readRune ops x) as [x1 [r e]].
    destruct (_ || negb _); [auto|]. destruct e; [auto|]. apply IH. lia.
  Qed.

  Lemma lexToken_mono n m : (n <= m)%nat -> forall x v b r a,
    lexToken ops U n x v b r = Ok a -> lexToken ops U m x v b r = Ok a.
  Proof.
    intros L x v b r a. unfold lexToken.
    destruct (is_letter U r).
    { destruct (b && _); [auto|]. apply rbind_mono; [auto|]. intros x1.
      apply rbind_mono; [|auto]. intros y. unfold consumeWord. destruct (bufReadRune ops x1) as [x2 [r2 e2]].
      now apply consumeWordLoop_mono. }
    destruct (is_digit U r).
    { apply rbind_mono; [auto|]. intros x1. unfold consumeNumber.
      destruct (bufReadRune ops (with_lastWasNumber x1 true)) as [x2 [r2 e2]]. destruct e2; [auto|].
      now apply consumeNumberLoop_mono. }
    apply rbind_mono.
    { intros y. destruct (r =? ch ":"); [|auto]. apply rbind_mono; [|auto]. intros z.
      now apply peekRunesLoop_mono. }
    intros [x1 a1]. destruct a1; [auto|]. apply rbind_mono; [|auto].
    intros y. destruct (r =? ch "."); [|auto]. apply rbind_mono; [|auto]. intros z.
    now apply peekRunesLoop_mono.
  Qed.

  Lemma lexLoop_mono n m : (n <= m)%nat -> forall x v b a,
    lexLoop ops U n x v b = Ok a -> lexLoop ops U m x v b = Ok a.
  Proof.
    revert m. induction n as [|n IH]; intros m L x v b a; [discriminate|].
    destruct m as [|m]; [lia|]. cbn [lexLoop]. destruct (readRune ops x) as [x1 [r e]].
    destruct e as [[|]|]; auto. destruct (isWhitespace r); [apply IH; lia|].
    match goal with |- (let '(_, _) := ?p in _) = _ -> _ => destruct p as [x2 a2] end.
    destruct a2.
    { apply rbind_mono; [|intros; eapply IH; [lia|eassumption]]. intros y. apply skipLine_mono. lia. }
    match goal with |- (let '(_, _) := ?p in _) = _ -> _ => destruct p as [x4 a4] end.
    destruct a4.
    { apply rbind_mono; [|intros; eapply IH; [lia|eassumption]]. intros y. apply skipBlock_mono. lia. }
    apply lexToken_mono. lia.
  Qed.

  Theorem Lex_mono n m x v a : (n <= m)%nat -> Lex ops U n x v = Ok a -> Lex ops U m x v = Ok a.
  Proof. unfold Lex. intros L. now apply lexLoop_mono. Qed.
End Mono.

(** Lex reports the end of the text only if the reader did. *)
Section End_.
  Context {R : Type} (ops : reader_ops R) (U : unicode_tables).
  Context (K : R -> Prop).
  Context (K_rune : forall rd, K rd -> K (fst (rd_rune ops rd)) /\ snd (snd (rd_rune ops rd)) <> Some EOF).
  Context (K_unread : forall rd rd', K rd -> rd_unread ops rd = Some rd' -> K rd').

  Lemma buf_K x x1 r e : K (lx_rd x) -> bufReadRune ops x = (x1, (r, e)) -> K (lx_rd x1) /\ e <> Some EOF.
  Proof.
    intros H. unfold bufReadRune. pose proof (K_rune _ H) as Q. destruct (rd_rune ops (lx_rd x)) as [rd [r' e']].
    intros E. injection E as <- <- <-. exact Q.
  Qed.

  Lemma read_K x x1 r e : K (lx_rd x) -> readRune ops x = (x1, (r, e)) -> K (lx_rd x1) /\ e <> Some EOF.
  Proof.
    intros H. unfold readRune. destruct (bufReadRune ops x) as [x0 [r0 e0]] eqn:B. apply buf_K in B; [|exact H].
    intros E. injection E as <- <- <-. now destruct (isNewline r0).
  Qed.

  Lemma peek_K x x1 c : K (lx_rd x) -> peekRune ops x = (x1, c) -> K (lx_rd x1).
  Proof.
    intros H. unfold peekRune, peekRuneE. destruct (bufReadRune ops x) as [x0 [r0 e0]] eqn:B. apply buf_K in B; [|exact H].
    destruct B as [B _]. destruct e0; [intros E; now injection E as <- _|].
    destruct (rd_unread ops (lx_rd x0)) as [rd'|] eqn:UR; intros E; injection E as <- _; [|exact B].
    exact (K_unread _ _ B UR).
  Qed.

  Lemma skipLine_K fuel : forall x b x', K (lx_rd x) -> skipLineCommentLoop ops fuel x b = Ok x' -> K (lx_rd x').
  Proof.
    induction fuel as [|f IH]; intros x b x' H; cbn [skipLineCommentLoop]; [discriminate|].
    destruct (readRune ops x) as [x1 [r e]] eqn:E. apply read_K in E; [|exact H]. destruct E as [E _].
    destruct (isNewline r || _); [intros Q; now injection Q as <-|].
    destruct (r =? ch "-"); [destruct b; [intros Q; now injection Q as <-|]|]; now apply IH.
  Qed.

  Lemma skipBlock_K fuel : forall x a b x', K (lx_rd x) -> skipBlockCommentLoop ops fuel x a b = Ok x' -> K (lx_rd x').
  Proof.
    induction fuel as [|f IH]; intros x a b x' H; cbn [skipBlockCommentLoop]; [discriminate|].
    destruct (readRune ops x) as [x1 [r e]] eqn:E. apply read_K in E; [|exact H]. destruct E as [E _].
    assert (G : (if r =? ch "/" then if b then Ok x1 else skipBlockCommentLoop ops f x1 true b
             else if r =? ch "*" then
               if a then rbind (skipBlockCommentLoop ops f x1 false false) (fun x2 => skipBlockCommentLoop ops f x2 false false)
               else skipBlockCommentLoop ops f x1 a true
             else skipBlockCommentLoop ops f x1 false false) = Ok x' -> K (lx_rd x')).
    { destruct (r =? ch "/").
      { destruct b; [intros Q; now injection Q as <-|]. now apply IH. }
      destruct (r =? ch "*"); [|now apply IH]. destruct a; [|now apply IH].
      destruct (skipBlockCommentLoop ops f x1 false false) as [x2| |] eqn:Q; try discriminate. cbn [rbind].
      apply IH in Q; [|exact E]. now apply IH. }
    destruct e as [[|m]|]; [intros Q; now injection Q as <-| |]; exact G.
  Qed.

  Lemma Lex_not_end fuel x v c v' x' : K (lx_rd x) -> Lex ops U fuel x v = Ok (c, v', x') -> c <> 0.
  Proof.
    unfold Lex. generalize (lx_lastWasNumber x) as lw. intros lw H.
    assert (H' : K (lx_rd (with_lastWasNumber x false))) by exact H. revert H'.
    generalize (with_lastWasNumber x false). clear x H. revert lw.
    induction fuel as [|f IH]; intros lw x H; cbn [lexLoop]; [discriminate|].
    destruct (readRune ops x) as [x1 [r e]] eqn:E. apply read_K in E; [|exact H]. destruct E as [E N].
    destruct e as [[|m]|]; [congruence|intros Q; injection Q as <- _ _; discriminate|].
    destruct (isWhitespace r); [now apply IH|].
    match goal with |- (let '(_, _) := ?m in _) = _ -> _ => destruct m as [x2 a2] eqn:Q2 end.
    assert (E2 : K (lx_rd x2)).
    { destruct (r =? ch "-"); [|now injection Q2 as <- _].
      destruct (peekRune ops x1) as [x'' s] eqn:P. apply peek_K in P; [|exact E]. now injection Q2 as <- _. }
    destruct a2.
    { destruct (skipLineComment ops (S f) x2) as [x3| |] eqn:Q3; try discriminate. cbn [rbind].
      apply skipLine_K in Q3; [|exact E2]. now apply IH. }
    match goal with |- (let '(_, _) := ?m in _) = _ -> _ => destruct m as [x4 a4] eqn:Q4 end.
    assert (E4 : K (lx_rd x4)).
    { destruct (r =? ch "/"); [|now injection Q4 as <- _].
      destruct (peekRune ops x2) as [x'' s] eqn:P. apply peek_K in P; [|exact E2]. now injection Q4 as <- _. }
    destruct a4.
    { destruct (skipBlockComment ops (S f) x4) as [x5| |] eqn:Q5; try discriminate. cbn [rbind].
      apply skipBlock_K in Q5; [|exact E4]. now apply IH. }
    intros Q. apply lexToken_err in Q. destruct Q as [[Q _]|[Q _]]; lia.
  Qed.
End End_.
