(** The lexer over streams: it never panics, and if the stream ends it finishes
    with fuel a little above the length of the stream. *)
From Coq Require Import ZArith String Ascii Bool List Lia.
From Verif Require Import GoBase Utf8 Unicode Reader Stream Tokens Reserved Lexer LexErr.
Import ListNotations.
Local Open Scope Z_scope.

(** ** Runes and streams *)

Lemma decode_width l : l <> [] -> (1 <= snd (decode_rune l) <= length l)%nat.
Proof.
  destruct l as [|b0 r0]; [congruence|]. intros _. unfold decode_rune.
  destruct (b0 <? rune_self); [cbn; lia|]. destruct (utf8_first b0) as [[[n lo] hi]|]; [|cbn; lia].
  destruct r0 as [|b1 r1]; [cbn; lia|]. destruct (_ <? n)%nat eqn:L; [cbn; lia|].
  destruct (negb _); [cbn; lia|]. destruct (n =? 2)%nat; [cbn; lia|].
  destruct r1 as [|b2 r2]; [cbn; lia|]. destruct (negb _); [cbn; lia|]. destruct (n =? 3)%nat; [cbn; lia|].
  destruct r2 as [|b3 r3]; [cbn; lia|]. destruct (negb _); cbn; lia.
Qed.

Lemma lead_split n : forall l, l = map EvByte (lead_bytes n l) ++ skipn (length (lead_bytes n l)) l.
Proof.
  induction n as [|n IH]; intros l; [destruct l; reflexivity|].
  destruct l as [|[b|m] l]; try reflexivity. cbn. f_equal. apply IH.
Qed.

Lemma lead_length n : forall l, (length (lead_bytes n l) <= n)%nat.
Proof.
  induction n as [|n IH]; intros l; [destruct l; cbn; lia|].
  destruct l as [|[b|m] l]; cbn; try lia. specialize (IH l). lia.
Qed.

Lemma lead_full n : forall l, length (lead_bytes n l) = n \/ skipn (length (lead_bytes n l)) l = [] \/
  exists m l', skipn (length (lead_bytes n l)) l = EvFail m :: l'.
Proof.
  induction n as [|n IH]; intros l; [left; now destruct l|].
  destruct l as [|[b|m] l]; cbn; [auto| |right; right; eauto].
  destruct (IH l) as [H|[H|H]]; auto.
Qed.

Lemma drop_fail_length l : (length (drop_fail l) <= length l)%nat.
Proof. induction l as [|[b|m] l IH]; cbn; lia. Qed.

Lemma drop_fail_bytes bs m l : (drop_fail (map EvByte bs ++ EvFail m :: l) = map EvByte bs ++ l)%list.
Proof. induction bs as [|b bs IH]; cbn; [reflexivity|now rewrite IH]. Qed.

Lemma discard_length n : forall l, (length (stream_discard_ev n l) <= length l)%nat.
Proof.
  induction n as [|n IH]; intros l; [destruct l; cbn; lia|].
  destruct l as [|[b|m] l]; cbn; try lia. specialize (IH l). lia.
Qed.

Lemma stream_rune_spec s s' r e : stream_rune s = (s', (r, e)) ->
  s_term s' = s_term s /\
  ((e = None /\ exists bs, bs <> [] /\ s_last s' = Some bs /\ s_ev s = (map EvByte bs ++ s_ev s')%list) \/
   (r = 0 /\ e <> None /\ (length (s_ev s') <= length (s_ev s))%nat /\
    (s_term s = TEof -> (e = Some EOF /\ s_ev s = [] /\ s_ev s' = []) \/
                        (exists m, e = Some (IOErr m) /\ s_ev s = EvFail m :: s_ev s')))).
Proof.
  unfold stream_rune. pose proof (lead_split 4 (s_ev s)) as SP. pose proof (lead_full 4 (s_ev s)) as FL.
  destruct (lead_bytes 4 (s_ev s)) as [|b0 bs0] eqn:L.
  - unfold stream_err. clear SP. cbn [length skipn] in FL.
    destruct FL as [FL|[FL|[m [l' FL]]]]; [discriminate| |]; rewrite FL.
    + destruct (s_term s) eqn:T; intros H; injection H as <- <- <-; cbn [s_term s_ev];
        (split; [auto|]); right; repeat split; try discriminate; auto.
    + intros H. injection H as <- <- <-. cbn [s_term s_ev]. split; [auto|]. right.
      split; [reflexivity|]. split; [discriminate|]. split; [cbn; lia|]. intros _. right. exists m. auto.
  - pose proof (decode_width (b0 :: bs0) ltac:(discriminate)) as W.
    destruct (decode_rune (b0 :: bs0)) as [r0 n]. cbn [snd] in W.
    intros H. injection H as <- <- <-. cbn [s_term s_ev s_last]. split; [reflexivity|]. left.
    split; [reflexivity|]. exists (firstn n (b0 :: bs0)). split.
    { destruct n; [lia|]. cbn. discriminate. }
    split; [reflexivity|].
    rewrite SP at 1. rewrite SP at 2. rewrite skipn_app, map_length.
    replace (n - length (b0 :: bs0))%nat with 0%nat by lia. rewrite skipn_O, skipn_map, app_assoc, <- map_app, firstn_skipn.
    reflexivity.
Qed.

(** ** Outcomes *)

(** [m] has not panicked; if it is a result it satisfies [P]; it can be out of
    fuel only if [b] fails. *)
Definition run_ok {A} (b : Prop) (m : res A) (P : A -> Prop) : Prop :=
  match m with Ok a => P a | Panic _ => False | OutOfFuel => ~ b end.

Lemma run_ok_bind {A B} b (m : res A) (f : A -> res B) P Q :
  run_ok b m P -> (forall a, P a -> run_ok b (f a) Q) -> run_ok b (rbind m f) Q.
Proof. destruct m; cbn; auto. Qed.

Lemma run_ok_weak {A} (b b' : Prop) (m : res A) (P Q : A -> Prop) :
  run_ok b m P -> (b' -> b) -> (forall a, P a -> Q a) -> run_ok b' m Q.
Proof. destruct m; cbn; auto. Qed.

Section Total.
  Context (U : unicode_tables).
  Notation lexer := (lexer stream).
  Notation ops := stream_ops.

  Definition ev (x : lexer) : nat := length (s_ev (lx_rd x)).
  Definition eof (x : lexer) : Prop := s_term (lx_rd x) = TEof.

  (** [x'] comes after [x], at least [k] events later if the stream ends. *)
  Definition after (k : nat) (x x' : lexer) : Prop :=
    s_term (lx_rd x') = s_term (lx_rd x) /\ (ev x' <= ev x)%nat /\ (eof x -> ev x' + k <= ev x)%nat.

  Lemma after_refl x : after 0 x x.
  Proof. unfold after. split; [reflexivity|split; lia]. Qed.

  Lemma after_trans j k x y z : after j x y -> after k y z -> after (j + k) x z.
  Proof.
    intros (A & B & C) (A' & B' & C'). unfold after, eof in *. split; [congruence|]. split; [lia|].
    intros H. specialize (C H). rewrite A in C'. specialize (C' H). lia.
  Qed.

  Lemma after_le j k x y : after k x y -> (j <= k)%nat -> after j x y.
  Proof. intros (A & B & C) L. repeat split; auto. intros H. specialize (C H). lia. Qed.

  Lemma after_same k x y z : after k x y -> lx_rd z = lx_rd y -> after k x z.
  Proof. unfold after, ev, eof. intros H E. now rewrite E. Qed.

  Lemma after_from k x y z : after k x y -> lx_rd z = lx_rd x -> after k z y.
  Proof. unfold after, ev, eof. intros H E. now rewrite E. Qed.

  (** Reading one rune. *)
  Definition read_rel (x x1 : lexer) (r : Z) (e : option rd_err) : Prop :=
    (e = None /\ s_term (lx_rd x1) = s_term (lx_rd x) /\
       exists bs, bs <> [] /\ s_last (lx_rd x1) = Some bs /\
                  s_ev (lx_rd x) = (map EvByte bs ++ s_ev (lx_rd x1))%list) \/
    (r = 0 /\ e <> None /\ after 0 x x1 /\ (e <> Some EOF -> after 1 x x1)).

  Lemma bufReadRune_rel x x1 r e : bufReadRune ops x = (x1, (r, e)) -> read_rel x x1 r e.
  Proof.
    unfold bufReadRune. cbn [rd_rune stream_ops].
    destruct (stream_rune (lx_rd x)) as [s' [r' e']] eqn:E. intros H. injection H as <- <- <-.
    apply stream_rune_spec in E. destruct E as [T [[N (bs & B1 & B2 & B3)]|(Z0 & N & L & F)]].
    - left. split; [exact N|]. split; [exact T|]. exists bs. auto.
    - right. split; [exact Z0|]. split; [exact N|].
      assert (A : after 0 x (with_rd x s')) by (split; [exact T|]; unfold ev; cbn; split; lia).
      split; [exact A|]. intros E1. destruct A as (A1 & A2 & _). split; [exact A1|]. split; [exact A2|].
      intros EO. destruct (F EO) as [[Q _]|[m [_ Q]]]; [congruence|]. unfold ev. cbn [with_rd lx_rd].
      rewrite Q. cbn. lia.
  Qed.

  Lemma readRune_rel x x1 r e : readRune ops x = (x1, (r, e)) -> read_rel x x1 r e.
  Proof.
    unfold readRune. destruct (bufReadRune ops x) as [x0 [r0 e0]] eqn:E. apply bufReadRune_rel in E.
    intros H. injection H as <- <- <-. now destruct (isNewline r0).
  Qed.

  Lemma read_ok_after x x1 r : read_rel x x1 r None -> after 1 x x1.
  Proof.
    intros [(_ & T & bs & B1 & B2 & B3)|(_ & N & _)]; [|congruence].
    assert (L : (ev x = length bs + ev x1)%nat)
      by (unfold ev; rewrite B3, app_length, map_length; reflexivity).
    assert (0 < length bs)%nat by (destruct bs; [congruence|cbn; lia]).
    split; [exact T|]. split; lia.
  Qed.

  Lemma read_after x x1 r e : read_rel x x1 r e -> after 0 x x1.
  Proof.
    intros H. destruct e as [e|].
    - destruct H as [[N _]|(_ & _ & A & _)]; [discriminate|exact A].
    - apply read_ok_after in H. apply (after_le 0 1); [exact H|lia].
  Qed.

  Lemma read_after1 x x1 r e : read_rel x x1 r e -> e <> Some EOF -> after 1 x x1.
  Proof.
    intros H N. destruct e as [e|].
    - destruct H as [[N' _]|(_ & _ & _ & A)]; [discriminate|auto].
    - now apply read_ok_after in H.
  Qed.

  (** Pushing a rune back. *)
  Lemma unread_stream x x1 r : read_rel x x1 r None ->
    exists s, stream_unread (lx_rd x1) = Some s /\ s_term s = s_term (lx_rd x) /\ s_ev s = s_ev (lx_rd x).
  Proof.
    intros [(_ & T & bs & B1 & B2 & B3)|(_ & N & _)]; [|congruence].
    unfold stream_unread. rewrite B2. eexists. split; [reflexivity|]. cbn. split; congruence.
  Qed.

  Lemma peekRune_after x x1 c : peekRune ops x = (x1, c) -> after 0 x x1.
  Proof.
    unfold peekRune, peekRuneE. destruct (bufReadRune ops x) as [x0 [r e]] eqn:E. apply bufReadRune_rel in E.
    destruct e as [e|].
    - intros H. injection H as <- _. now apply read_after in E.
    - destruct (unread_stream _ _ _ E) as (s & S1 & S2 & S3). cbn [rd_unread stream_ops]. rewrite S1.
      intros H. injection H as <- _. unfold after, ev, eof. cbn [with_rd lx_rd]. rewrite S2, S3.
      split; [reflexivity|split; lia].
  Qed.

  Lemma unreadRune_ok x x1 r : read_rel x x1 r None ->
    exists x2, unreadRune ops x1 = Ok x2 /\ after 0 x x2.
  Proof.
    intros H. destruct (unread_stream _ _ _ H) as (s & S1 & S2 & S3). unfold unreadRune.
    cbn [rd_unread stream_ops]. rewrite S1.
    destruct (peekRune ops (with_rd x1 s)) as [x2 c] eqn:P. apply peekRune_after in P.
    assert (A : after 0 x x2).
    { destruct P as (P1 & P2 & P3). unfold after, ev, eof in *. cbn [with_rd lx_rd] in *. rewrite S2, S3 in *.
      split; [exact P1|]. split; [exact P2|exact P3]. }
    eexists. split; [reflexivity|]. now destruct (isNewline c).
  Qed.

  Lemma discard_after x n : after 0 x (discard ops x n).
  Proof.
    unfold after, ev, eof, discard. cbn. pose proof (discard_length n (s_ev (lx_rd x))).
    split; [reflexivity|split; lia].
  Qed.

  (** ** peekRunes *)

  Lemma firstn_skipn_length (l : nat) pos (buf : list Z) :
    (pos + l <= length buf)%nat -> length (firstn l (skipn pos buf)) = l.
  Proof. intros H. rewrite firstn_length, skipn_length. lia. Qed.

  Lemma full_rune_four l : (4 <= length l)%nat -> full_rune l = true.
  Proof.
    destruct l as [|b0 r0]; [cbn; lia|]. intros H. unfold full_rune. destruct (b0 <? rune_self); [reflexivity|].
    destruct (utf8_first b0) as [[[n lo] hi]|] eqn:F; [|reflexivity].
    assert (n <= 4)%nat.
    { revert F. unfold utf8_first. repeat match goal with |- context [if ?c then _ else _] => destruct c end;
        intros F; try discriminate F; injection F as <- _ _; lia. }
    replace (n <=? length (b0 :: r0))%nat with true; [reflexivity|]. symmetry. apply Nat.leb_le. lia.
  Qed.

  Lemma peek_spec n x rd buf cap e : stream_peek n (lx_rd x) = (rd, (buf, cap, e)) ->
    cap = n /\ after 0 x (with_rd x rd) /\
    (e = None -> length buf = n) /\ (e <> None -> e <> Some EOF -> after 1 x (with_rd x rd)).
  Proof.
    unfold stream_peek. pose proof (lead_split n (s_ev (lx_rd x))) as SP.
    pose proof (lead_full n (s_ev (lx_rd x))) as FL.
    destruct (length (lead_bytes n (s_ev (lx_rd x))) =? n)%nat eqn:L.
    - apply Nat.eqb_eq in L. intros H. injection H as <- <- <- <-. split; [reflexivity|].
      split; [unfold after, ev, eof; cbn; split; [reflexivity|split; lia]|]. split; [auto|congruence].
    - apply Nat.eqb_neq in L. destruct FL as [FL|FL]; [contradiction|]. unfold stream_err. cbn [s_ev s_term].
      assert (A : after 0 x (with_rd x {| s_ev := drop_fail (s_ev (lx_rd x)); s_term := s_term (lx_rd x); s_last := None |})).
      { unfold after, ev, eof. cbn. pose proof (drop_fail_length (s_ev (lx_rd x))).
        split; [reflexivity|split; lia]. }
      destruct FL as [FL|[m [l' FL]]]; rewrite FL.
      + destruct (s_term (lx_rd x)) eqn:T; intros H; injection H as <- <- <- <-;
          (split; [reflexivity|]); (split; [rewrite <- T in *; exact A|]); (split; [discriminate|]); [congruence|].
        intros _ _. unfold after, ev, eof in *. cbn [with_rd lx_rd s_ev s_term] in *. rewrite T.
        destruct A as (A1 & A2 & A3). split; [reflexivity|]. split; [exact A2|]. intros C. discriminate C.
      + intros H. injection H as <- <- <- <-. split; [reflexivity|]. split; [exact A|]. split; [discriminate|].
        intros _ _. destruct A as (A1 & A2 & A3). split; [exact A1|]. split; [exact A2|]. intros _.
        unfold ev. cbn [with_rd lx_rd s_ev]. rewrite FL in SP. rewrite SP.
        rewrite drop_fail_bytes, !app_length. cbn. lia.
  Qed.

  (** The last length tried is 4: falling out means that a failure was dropped. *)
  Lemma peekInner_ok pos : forall ls x, last ls 4%nat = 4%nat ->
    run_ok True (peekInner ops x pos ls) (fun p => after 0 x (fst p) /\ (snd p = PiFallOut -> ls <> [] -> after 1 x (fst p))).
  Proof.
    induction ls as [|l ls IH]; intros x LS; cbn [peekInner].
    { cbn. split; [apply after_refl|congruence]. }
    cbn [rd_peek stream_ops]. destruct (stream_peek (pos + l) (lx_rd x)) as [rd [[buf cap] e]] eqn:P.
    apply peek_spec in P. destruct P as (-> & A & E1 & E2). rewrite Nat.ltb_irrefl.
    destruct ((pos + l <=? length buf)%nat && full_rune (firstn l (skipn pos buf))) eqn:F.
    { destruct (decode_rune _). cbn. split; [exact A|discriminate]. }
    assert (K : run_ok True (peekInner ops (with_rd x rd) pos ls)
       (fun p => after 0 x (fst p) /\ (snd p = PiFallOut -> l :: ls <> [] -> after 1 x (fst p)))
       \/ e = Some EOF).
    { destruct e as [[|m]|]; [now right|left|left].
      - specialize (E2 ltac:(discriminate) ltac:(discriminate)).
        eapply run_ok_weak; [apply IH|auto|].
        + destruct ls; [reflexivity|exact LS].
        + intros p [B1 B2]. split; [now apply (after_trans 0 0 _ (with_rd x rd))|].
          intros _ _. now apply (after_trans 1 0 _ (with_rd x rd)).
      - specialize (E1 eq_refl). destruct ls as [|l' ls].
        + exfalso. cbn in LS. subst l. rewrite E1, Nat.leb_refl, full_rune_four in F; [discriminate F|].
          rewrite firstn_skipn_length; lia.
        + eapply run_ok_weak; [apply IH; exact LS|auto|]. intros p [B1 B2].
          split; [now apply (after_trans 0 0 _ (with_rd x rd))|].
          intros B _. apply (after_trans 0 1 _ (with_rd x rd)); [exact A|]. apply B2; [exact B|discriminate]. }
    destruct e as [[|m]|].
    - cbn. split; [exact A|discriminate].
    - destruct K as [K|K]; [exact K|discriminate].
    - destruct K as [K|K]; [exact K|discriminate].
  Qed.

  Lemma peekRunes_ok fuel : forall x n pos acc,
    run_ok (eof x /\ (ev x + n <= fuel)%nat) (peekRunesLoop ops fuel x n pos acc) (fun p => after 0 x (fst p)).
  Proof.
    induction fuel as [|f IH]; intros x [|n] pos acc; cbn [peekRunesLoop]; try (cbn; apply after_refl).
    { cbn. lia. }
    pose proof (peekInner_ok pos [1; 2; 3; 4]%nat x eq_refl) as P.
    destruct (peekInner ops x pos [1; 2; 3; 4]%nat) as [[x1 o]| |]; cbn [run_ok fst snd rbind] in *; try tauto.
    destruct P as [P1 P2]. destruct o.
    - eapply run_ok_weak; [apply IH| |]; cbv beta.
      + intros [E L]. destruct P1 as (T & L1 & L2). split; [unfold eof in *; congruence|lia].
      + intros p. apply (after_trans 0 0). exact P1.
    - exact P1.
    - specialize (P2 eq_refl ltac:(discriminate)).
      eapply run_ok_weak; [apply IH| |]; cbv beta.
      + intros [E L]. destruct P2 as (T & L1 & L2). specialize (L2 E). split; [unfold eof in *; congruence|lia].
      + intros p. apply (after_trans 0 0). exact P1.
  Qed.

  (** ** Comments *)

  Lemma after_fuel k j f (x x1 : lexer) : after k x x1 ->
    eof x /\ (ev x + j <= f + k)%nat -> eof x1 /\ (ev x1 + j <= f)%nat.
  Proof. intros (T & L1 & L2) [E L]. specialize (L2 E). split; [unfold eof in *; congruence|lia]. Qed.

  Lemma skipLine_ok fuel : forall x b,
    run_ok (eof x /\ (ev x + 1 <= fuel)%nat) (skipLineCommentLoop ops fuel x b) (after 0 x).
  Proof.
    induction fuel as [|f IH]; intros x b; cbn [skipLineCommentLoop]; [cbn; lia|].
    destruct (readRune ops x) as [x1 [r e]] eqn:E. apply readRune_rel in E.
    pose proof (read_after _ _ _ _ E) as A.
    destruct (isNewline r || _) eqn:Q; [exact A|].
    assert (N : e <> Some EOF) by (intros ->; now rewrite orb_true_r in Q).
    pose proof (read_after1 _ _ _ _ E N) as A1.
    assert (K : forall b', run_ok (eof x /\ (ev x + 1 <= S f)%nat) (skipLineCommentLoop ops f x1 b') (after 0 x)).
    { intros b'. eapply run_ok_weak; [apply IH| |].
      - intros H. apply (after_fuel 1 1 f x); [exact A1|]. replace (f + 1)%nat with (S f) by lia. exact H.
      - intros p. apply (after_trans 0 0). exact A. }
    destruct (r =? ch "-"); [destruct b; [exact A|]|]; apply K.
  Qed.

  Lemma skipBlock_ok fuel : forall x a b,
    run_ok (eof x /\ (ev x + 1 <= fuel)%nat) (skipBlockCommentLoop ops fuel x a b) (after 0 x).
  Proof.
    induction fuel as [|f IH]; intros x a b; cbn [skipBlockCommentLoop]; [cbn; lia|].
    destruct (readRune ops x) as [x1 [r e]] eqn:E. apply readRune_rel in E.
    pose proof (read_after _ _ _ _ E) as A.
    assert (N : e = Some EOF \/ e <> Some EOF) by (destruct e as [[|]|]; auto; right; discriminate).
    destruct N as [->|N]; [exact A|].
    pose proof (read_after1 _ _ _ _ E N) as A1.
    assert (K : forall x2 a' b', after 1 x x2 ->
       run_ok (eof x /\ (ev x + 1 <= S f)%nat) (skipBlockCommentLoop ops f x2 a' b') (after 1 x)).
    { intros x2 a' b' A2. eapply run_ok_weak; [apply IH| |].
      - intros H. apply (after_fuel 1 1 f x); [exact A2|]. replace (f + 1)%nat with (S f) by lia. exact H.
      - intros p. apply (after_trans 1 0). exact A2. }
    assert (K0 : forall x2 a' b', after 1 x x2 ->
       run_ok (eof x /\ (ev x + 1 <= S f)%nat) (skipBlockCommentLoop ops f x2 a' b') (after 0 x)).
    { intros x2 a' b' A2. eapply run_ok_weak; [apply K; exact A2|auto|]. intros p B. apply (after_le 0 1); [exact B|lia]. }
    enough (G : run_ok (eof x /\ (ev x + 1 <= S f)%nat)
      (if r =? ch "/" then if b then Ok x1 else skipBlockCommentLoop ops f x1 true b
       else if r =? ch "*" then
         if a then rbind (skipBlockCommentLoop ops f x1 false false) (fun x2 => skipBlockCommentLoop ops f x2 false false)
         else skipBlockCommentLoop ops f x1 a true
       else skipBlockCommentLoop ops f x1 false false) (after 0 x)).
    { destruct e as [[|m]|]; [congruence|exact G|exact G]. }
    destruct (r =? ch "/"); [destruct b; [exact A|now apply K0]|].
    destruct (r =? ch "*"); [|now apply K0]. destruct a; [|now apply K0].
    eapply run_ok_bind; [apply K; exact A1|]. intros x2 A2. now apply K0.
  Qed.

  (** ** Words and numbers *)

  Lemma consumeWordLoop_ok fuel : forall x acc l,
    run_ok (eof x /\ (ev x + 1 <= fuel)%nat) (consumeWordLoop ops U fuel x acc l) (fun p => after 0 x (fst p)).
  Proof.
    induction fuel as [|f IH]; intros x acc l; cbn [consumeWordLoop]; [cbn; lia|].
    destruct (readRune ops x) as [x1 [r e]] eqn:E. apply readRune_rel in E.
    pose proof (read_after _ _ _ _ E) as A.
    destruct (_ || isWhitespace r || _) eqn:Q.
    - destruct (ends_with_hyphen acc); [exact A|]. destruct e; [exact A|].
      destruct (unreadRune_ok _ _ _ E) as (x2 & -> & A2). exact A2.
    - destruct e; [exact A|]. destruct (negb _); [exact A|]. destruct ((l =? ch "-") && _); [exact A|].
      pose proof (read_ok_after _ _ _ E) as A1.
      eapply run_ok_weak; [apply IH| |].
      + intros H. apply (after_fuel 1 1 f x); [exact A1|]. replace (f + 1)%nat with (S f) by lia. exact H.
      + intros p. apply (after_trans 0 0). exact A.
  Qed.

  Lemma consumeNumberLoop_ok fuel : forall x v acc,
    run_ok (eof x /\ (ev x + 1 <= fuel)%nat) (consumeNumberLoop ops U fuel x v acc) (fun p => after 0 x (snd p)).
  Proof.
    induction fuel as [|f IH]; intros x v acc; cbn [consumeNumberLoop]; [cbn; lia|].
    destruct (readRune ops x) as [x1 [r e]] eqn:E. apply readRune_rel in E.
    pose proof (read_after _ _ _ _ E) as A.
    destruct (_ || negb _) eqn:Q.
    - apply run_ok_bind with (P := after 0 x).
      { destruct e; [exact A|]. destruct (negb _); [|exact A].
        destruct (unreadRune_ok _ _ _ E) as (x2 & -> & A2). exact A2. }
      intros x2 A2. destruct (atoi acc); exact A2.
    - destruct e; [exact A|]. pose proof (read_ok_after _ _ _ E) as A1.
      eapply run_ok_weak; [apply IH| |].
      + intros H. apply (after_fuel 1 1 f x); [exact A1|]. replace (f + 1)%nat with (S f) by lia. exact H.
      + intros p. apply (after_trans 0 0). exact A.
  Qed.

  (** After the rune has been pushed back there is one to read. *)
  Lemma unread_reads x x1 r x2 : read_rel x x1 r None -> unreadRune ops x1 = Ok x2 ->
    s_ev (lx_rd x2) = s_ev (lx_rd x) /\ s_term (lx_rd x2) = s_term (lx_rd x).
  Proof.
    intros H. destruct (unread_stream _ _ _ H) as (s & S1 & S2 & S3). unfold unreadRune.
    cbn [rd_unread stream_ops]. rewrite S1. unfold peekRune, peekRuneE.
    destruct (bufReadRune ops (with_rd x1 s)) as [x0 [c e]] eqn:E.
    pose proof E as E0. unfold bufReadRune in E0. cbn [rd_rune stream_ops with_rd lx_rd] in E0.
    destruct (stream_rune s) as [s' [r' e']] eqn:SR. injection E0 as E01 E02 E03. subst r' e'.
    apply bufReadRune_rel in E. destruct e as [e|].
    - exfalso. destruct H as [(_ & T & bs & B1 & B2 & B3)|(_ & N & _)]; [|congruence].
      unfold stream_rune in SR. rewrite S3, B3 in SR. destruct bs as [|b bs]; [congruence|].
      cbn [map app lead_bytes] in SR.
      match type of SR with (let '(_, _) := ?d in _) = _ => destruct d end. discriminate SR.
    - destruct (unread_stream _ _ _ E) as (s0 & S01 & S02 & S03). cbn [rd_unread stream_ops]. rewrite S01.
      intros H0. injection H0 as <-. cbn [with_rd lx_rd] in S02, S03.
      destruct (isNewline c); cbn [with_lineNo with_rd lx_rd]; split; congruence.
  Qed.


  Lemma consumeWord_ok fuel x : s_ev (lx_rd x) <> [] -> (exists b l, s_ev (lx_rd x) = EvByte b :: l) ->
    run_ok (eof x /\ (ev x <= fuel)%nat) (consumeWord ops U fuel x) (fun p => after 1 x (fst p)).
  Proof.
    intros _ (b & l & B). unfold consumeWord. destruct (bufReadRune ops x) as [x1 [r e]] eqn:E.
    pose proof E as E0. apply bufReadRune_rel in E.
    assert (e = None).
    { unfold bufReadRune in E0. cbn [rd_rune stream_ops] in E0. unfold stream_rune in E0. rewrite B in E0.
      cbn [lead_bytes] in E0. match type of E0 with context [decode_rune ?d] => destruct (decode_rune d) end. now injection E0 as _ _ <-. }
    subst e. pose proof (read_ok_after _ _ _ E) as A1.
    eapply run_ok_weak; [apply consumeWordLoop_ok| |].
    - intros H. apply (after_fuel 1 1 fuel x); [exact A1|]. replace (ev x + 1 <= fuel + 1)%nat with (ev x + 1 <= fuel + 1)%nat by reflexivity.
      destruct H. split; [assumption|lia].
    - intros p. apply (after_trans 1 0). exact A1.
  Qed.

  Lemma consumeNumber_ok fuel x v : (exists b l, s_ev (lx_rd x) = EvByte b :: l) ->
    run_ok (eof x /\ (ev x <= fuel)%nat) (consumeNumber ops U fuel x v) (fun p => after 1 x (snd p)).
  Proof.
    intros (b & l & B). unfold consumeNumber. destruct (bufReadRune ops x) as [x1 [r e]] eqn:E.
    pose proof E as E0. apply bufReadRune_rel in E.
    assert (e = None).
    { unfold bufReadRune in E0. cbn [rd_rune stream_ops] in E0. unfold stream_rune in E0. rewrite B in E0.
      cbn [lead_bytes] in E0. match type of E0 with context [decode_rune ?d] => destruct (decode_rune d) end. now injection E0 as _ _ <-. }
    subst e. pose proof (read_ok_after _ _ _ E) as A1.
    eapply run_ok_weak; [apply consumeNumberLoop_ok| |].
    - intros H. apply (after_fuel 1 1 fuel x); [exact A1|]. destruct H. split; [assumption|lia].
    - intros p. apply (after_trans 1 0). exact A1.
  Qed.

  Lemma read_byte x x1 r : read_rel x x1 r None -> exists b l, s_ev (lx_rd x) = EvByte b :: l.
  Proof.
    intros [(_ & T & bs & B1 & B2 & B3)|(_ & N & _)]; [|congruence]. destruct bs as [|b bs]; [congruence|].
    rewrite B3. cbn. eauto.
  Qed.

  (** [lexToken] follows a successful read of [r] (or, for '-' and '/', a peek
      after it). *)
  Lemma lexToken_ok fuel x x1 v lw r : after 1 x x1 ->
    (is_letter U r = true \/ is_digit U r = true -> read_rel x x1 r None) ->
    run_ok (eof x /\ (ev x + 2 <= fuel)%nat) (lexToken ops U fuel x1 v lw r) (fun p => after 1 x (snd p)).
  Proof.
    intros A RR. unfold lexToken. destruct (is_letter U r).
    { specialize (RR (or_introl eq_refl)). destruct (lw && _); [exact A|].
      destruct (unreadRune_ok _ _ _ RR) as (x2 & E2 & A2). rewrite E2. cbn [rbind].
      destruct (unread_reads _ _ _ _ RR E2) as [V1 V2]. destruct (read_byte _ _ _ RR) as (b & l & B).
      eapply run_ok_bind with (P := fun p => after 1 x (fst p)).
      - eapply run_ok_weak; [apply consumeWord_ok; [rewrite V1, B; discriminate|rewrite V1; eauto]| |].
        + intros [H1 H2]. unfold eof, ev in *. rewrite V1, V2. split; [assumption|lia].
        + intros p. apply (after_trans 0 1). exact A2.
      - intros [x3 w] A3. cbn [fst] in A3. destruct w; [|exact A3].
        destruct (is_upper U r); [destruct (assoc_word _ _)|]; exact A3. }
    destruct (is_digit U r).
    { specialize (RR (or_intror eq_refl)).
      destruct (unreadRune_ok _ _ _ RR) as (x2 & E2 & A2). rewrite E2. cbn [rbind].
      destruct (unread_reads _ _ _ _ RR E2) as [V1 V2]. destruct (read_byte _ _ _ RR) as (b & l & B).
      eapply run_ok_weak; [apply consumeNumber_ok; cbn [with_lastWasNumber lx_rd]; rewrite V1; eauto| |].
      - intros [H1 H2]. unfold eof, ev in *. cbn [with_lastWasNumber lx_rd]. rewrite V1, V2. split; [assumption|lia].
      - intros p A3. apply (after_trans 0 1 x x2); [exact A2|]. exact A3. }
    clear RR.
    assert (PK : forall x' , after 1 x x' ->
      run_ok (eof x /\ (ev x + 2 <= fuel)%nat) (peekRunes ops fuel x' 2) (fun p => after 1 x (fst p))).
    { intros x' A'. eapply run_ok_weak; [apply peekRunes_ok| |].
      - intros H. apply (after_fuel 1 2 fuel x); [exact A'|]. destruct H. split; [assumption|lia].
      - intros p. apply (after_trans 1 0). exact A'. }
    assert (PK1 : forall (b : bool) c x' x'' d, after 1 x x' ->
      (if b then let '(y, k) := peekRune ops x' in (y, k =? c) else (x', false)) = (x'', d : bool) -> after 1 x x'').
    { intros b c x' x'' d A' H. destruct b; [|injection H as <- _; exact A'].
      destruct (peekRune ops x') as [y k] eqn:P. apply peekRune_after in P. injection H as <- _.
      apply (after_trans 1 0 _ x'); assumption. }
    assert (DA : forall x' n, after 1 x x' -> after 1 x (discard ops x' n)).
    { intros x' n A'. apply (after_trans 1 0 _ x'); [exact A'|apply discard_after]. }
    eapply run_ok_bind with (P := fun p => after 1 x (fst p)).
    { destruct (r =? ch ":"); [|exact A]. eapply run_ok_bind; [apply PK; exact A|]. intros [y s] B. exact B. }
    intros [y1 a1] B1. cbn [fst] in B1. destruct a1; [apply DA; exact B1|].
    eapply run_ok_bind with (P := fun p => after 1 x (fst p)).
    { destruct (r =? ch "."); [|exact B1]. eapply run_ok_bind; [apply PK; exact B1|]. intros [y s] B. exact B. }
    intros [y2 a2] B2. cbn [fst] in B2. destruct a2; [apply DA; exact B2|].
    match goal with |- run_ok _ (let '(_, _) := ?m in _) _ => destruct m as [y3 a3] eqn:Q3 end.
    apply PK1 in Q3; [|exact B2]. destruct a3; [apply DA; exact Q3|].
    match goal with |- run_ok _ (let '(_, _) := ?m in _) _ => destruct m as [y4 a4] eqn:Q4 end.
    apply PK1 in Q4; [|exact Q3]. destruct a4; [apply DA; exact Q4|].
    match goal with |- run_ok _ (let '(_, _) := ?m in _) _ => destruct m as [y5 a5] eqn:Q5 end.
    apply PK1 in Q5; [|exact Q4]. destruct a5; [apply DA; exact Q5|].
    destruct (consumeSingleSymbol y5 r) as [code y6] eqn:C. cbn [run_ok snd].
    apply (after_same 1 x y5); [exact Q5|].
    revert C. unfold consumeSingleSymbol.
    repeat match goal with |- context [if ?b then _ else _] => destruct b end;
      intros H; injection H as _ <-; reflexivity.
  Qed.

  Lemma lexLoop_ok fuel : forall x v lw,
    run_ok (eof x /\ (ev x + 2 <= fuel)%nat) (lexLoop ops U fuel x v lw)
      (fun p => let '(c, _, x') := p in after 0 x x' /\ (0 < c -> after 1 x x')).
  Proof.
    induction fuel as [|f IH]; intros x v lw; cbn [lexLoop]; [cbn; lia|].
    destruct (readRune ops x) as [x1 [r e]] eqn:E. apply readRune_rel in E.
    pose proof (read_after _ _ _ _ E) as A.
    destruct e as [[|m]|].
    { cbn. split; [exact A|lia]. }
    { cbn. split; [exact A|lia]. }
    pose proof (read_ok_after _ _ _ E) as A1.
    assert (K : forall x2, after 1 x x2 -> run_ok (eof x /\ (ev x + 2 <= S f)%nat) (lexLoop ops U f x2 v false)
       (fun p => let '(c, _, x') := p in after 0 x x' /\ (0 < c -> after 1 x x'))).
    { intros x2 A2. eapply run_ok_weak; [apply IH| |].
      - intros H. apply (after_fuel 1 2 f x); [exact A2|]. destruct H. split; [assumption|lia].
      - intros [[c v'] x'] [B1 B2]. split.
        + apply (after_le 0 1); [|lia]. now apply (after_trans 1 0 _ x2).
        + intros C. apply (after_trans 1 0 _ x2); assumption. }
    destruct (isWhitespace r); [now apply K|].
    match goal with |- run_ok _ (let '(_, _) := ?m in _) _ => destruct m as [x2 a2] eqn:Q2 end.
    assert (A2 : after 1 x x2).
    { destruct (r =? ch "-"); [|injection Q2 as <- _; exact A1].
      destruct (peekRune ops x1) as [y k] eqn:P. apply peekRune_after in P. injection Q2 as <- _.
      now apply (after_trans 1 0 _ x1). }
    destruct a2.
    { eapply run_ok_bind with (P := after 1 x); [|exact K].
      eapply run_ok_weak; [apply skipLine_ok| |].
      - intros H. apply (after_fuel 1 1 (S f) x); [exact A2|]. destruct H. split; [assumption|lia].
      - intros p. apply (after_trans 1 0). exact A2. }
    match goal with |- run_ok _ (let '(_, _) := ?m in _) _ => destruct m as [x4 a4] eqn:Q4 end.
    assert (A4 : after 1 x x4).
    { destruct (r =? ch "/"); [|injection Q4 as <- _; exact A2].
      destruct (peekRune ops x2) as [y k] eqn:P. apply peekRune_after in P. injection Q4 as <- _.
      now apply (after_trans 1 0 _ x2). }
    destruct a4.
    { eapply run_ok_bind with (P := after 1 x); [|exact K].
      eapply run_ok_weak; [apply skipBlock_ok| |].
      - intros H. apply (after_fuel 1 1 (S f) x); [exact A4|]. destruct H. split; [assumption|lia].
      - intros p. apply (after_trans 1 0). exact A4. }
    eapply run_ok_weak; [apply (lexToken_ok (S f) x x4 v lw r); [exact A4|]|auto|].
    - intros L. assert (r =? ch "-" = false).
      { destruct (Z.eqb_spec r (ch "-")); [subst r; destruct L; discriminate|reflexivity]. }
      assert (r =? ch "/" = false).
      { destruct (Z.eqb_spec r (ch "/")); [subst r; destruct L; discriminate|reflexivity]. }
      rewrite H in Q2. rewrite H0 in Q4. injection Q2 as <-. injection Q4 as <-. exact E.
    - intros [[c v'] x'] B. cbn [snd] in B. split; [apply (after_le 0 1); [exact B|lia]|auto].
  Qed.

  Theorem Lex_ok fuel x v :
    run_ok (eof x /\ (ev x + 2 <= fuel)%nat) (Lex ops U fuel x v)
      (fun p => let '(c, _, x') := p in after 0 x x' /\ (0 < c -> after 1 x x')).
  Proof.
    unfold Lex. eapply run_ok_weak; [apply lexLoop_ok|auto|]. intros [[c v'] x']. auto.
  Qed.
End Total.
