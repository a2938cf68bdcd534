(** Facts about the lexical structure of [LexSpec.v]: comments as X.680 defines
    them, layout, locality of tokens, names, numbers. *)
From Coq Require Import ZArith String Ascii Bool List Lia.
From Verif Require Import GoBase Utf8 Unicode Tokens Reserved Lexer Grammar LexSpec LexEq.
Import ListNotations.
Local Open Scope string_scope.
Local Open Scope list_scope.
Local Open Scope Z_scope.

(** ** Comments of X.680 *)

(** Space characters of X.680 11.1.6 and newline characters of 11.1.6. *)
Definition space_char (r : Z) : bool := existsb (Z.eqb r) [9; 10; 11; 12; 13; 32].
Definition newline_char (r : Z) : bool := existsb (Z.eqb r) [10; 11; 12; 13].

(** X.680 11.6.3: the text after a comment, [rs] being the text after its two
    opening hyphens.  [None]: the comment does not end. *)
Fixpoint line_end (rs : list Z) : option (list Z) :=
  match rs with
  | [] => None
  | r :: rs' =>
      if newline_char r then Some rs'
      else if (r =? ch "-") && (hd 0 rs' =? ch "-") then Some (tl rs')
      else line_end rs'
  end.

(** X.680 11.6.4: the text after a comment, [rs] being the text after its opening
    slash and star, inside [depth] other comments. *)
Fixpoint block_end (depth : nat) (rs : list Z) : option (list Z) :=
  match rs with
  | a :: ((b :: rs2) as rs1) =>
      if (a =? ch "*") && (b =? ch "/") then
        match depth with O => Some rs2 | S d => block_end d rs2 end
      else if (a =? ch "/") && (b =? ch "*") then block_end (S depth) rs2
      else block_end depth rs1
  | _ => None
  end.

(** White space and comments.  Two restrictions against X.680, without which the
    lexer deviates: the text of a comment does not start with the character that
    would make the opening look like an end. *)
Inductive layout : list Z -> Prop :=
| layout_nil : layout []
| layout_space r g : space_char r = true -> layout g -> layout (r :: g)
| layout_line c g : line_end c = Some [] -> hd 0 c <> ch "-" -> layout g -> layout (ch "-" :: ch "-" :: c ++ g)
| layout_block c g : block_end 0 c = Some [] -> hd 0 c <> ch "/" -> layout g -> layout (ch "/" :: ch "*" :: c ++ g).

(** ** Skipping *)

Lemma newline_char_eq r : newline_char r = isNewline r.
Proof. unfold newline_char, isNewline, existsb. now rewrite orb_false_r, !orb_assoc. Qed.

Lemma space_char_eq r : space_char r = isWhitespace r.
Proof. unfold space_char, isWhitespace, existsb. now rewrite orb_false_r, !orb_assoc. Qed.

Definition rest_of (o : option (list Z)) : list Z := match o with Some r => r | None => [] end.

Lemma skip_line_true c : hd 0 c <> ch "-" -> fst (skip (Line true) c) = fst (skip (Line false) c).
Proof.
  destruct c as [|r c]; [reflexivity|]. cbn [hd]. intros H. cbn [skip]. destruct (isNewline r); [reflexivity|].
  now rewrite (proj2 (Z.eqb_neq r (ch "-")) H).
Qed.

Lemma skip_line c : fst (skip (Line false) c) = fst (skip Plain (rest_of (line_end c))).
Proof.
  induction c as [|r c IH]; [reflexivity|]. cbn [skip line_end]. rewrite newline_char_eq.
  destruct (isNewline r); [reflexivity|]. destruct (r =? ch "-") eqn:E; cbn [andb]; [|exact IH].
  destruct (hd 0 c =? ch "-") eqn:H; cbn [fst].
  - destruct c as [|r2 c]; [discriminate H|]. cbn [hd] in H. cbn [tl rest_of skip].
    apply Z.eqb_eq in H. subst r2. reflexivity.
  - rewrite skip_line_true by now apply Z.eqb_neq. exact IH.
Qed.

Lemma skip_open_line c : hd 0 c <> ch "-" ->
  skip Plain (ch "-" :: ch "-" :: c) = (fst (skip Plain (rest_of (line_end c))), true).
Proof.
  intros H. change (skip Plain (ch "-" :: ch "-" :: c)) with (fst (skip (Line true) c), true).
  now rewrite skip_line_true, skip_line.
Qed.

Lemma block_end_eq d a b c : block_end d (a :: b :: c) =
  (if (a =? ch "*") && (b =? ch "/") then match d with O => Some c | S d' => block_end d' c end
   else if (a =? ch "/") && (b =? ch "*") then block_end (S d) c
   else block_end d (b :: c)).
Proof. reflexivity. Qed.

Lemma skip_block : forall n c d, (length c <= n)%nat ->
  fst (skip (Block d false false) c) = fst (skip Plain (rest_of (block_end d c))).
Proof.
  induction n as [|n IH]; intros c d L; (destruct c as [|a c]; [reflexivity|]); [cbn in L; lia|].
  destruct c as [|b c].
  { cbn [skip block_end rest_of]. destruct (a =? ch "/"); [reflexivity|]. destruct (a =? ch "*"); reflexivity. }
  cbn [length] in L.
  assert (I1 := IH (b :: c) d ltac:(cbn [length]; lia)).
  rewrite block_end_eq. destruct (a =? ch "/") eqn:A1.
  - apply Z.eqb_eq in A1. subst a. change (ch "/" =? ch "*") with false. cbn [andb].
    change (skip (Block d false false) (ch "/" :: b :: c)) with (fst (skip (Block d true false) (b :: c)), true).
    cbn [fst]. destruct (b =? ch "*") eqn:B1.
    + apply Z.eqb_eq in B1. subst b. change (skip (Block d true false) (ch "*" :: c)) with (fst (skip (Block (S d) false false) c), true).
      cbn [fst]. apply IH. lia.
    + rewrite <- I1. cbn [skip]. rewrite B1. destruct (b =? ch "/"); reflexivity.
  - destruct (a =? ch "*") eqn:A2; cbn [andb].
    + apply Z.eqb_eq in A2. subst a.
      change (skip (Block d false false) (ch "*" :: b :: c)) with (fst (skip (Block d false true) (b :: c)), true).
      cbn [fst]. destruct (b =? ch "/") eqn:B1.
      * cbn [skip]. rewrite B1. cbn [fst]. destruct d; cbn [fst]; [reflexivity|]. apply IH. lia.
      * rewrite <- I1. cbn [skip]. rewrite B1. destruct (b =? ch "*"); reflexivity.
    + rewrite <- I1. change (skip (Block d false false) (a :: b :: c)) with
        (if a =? ch "/" then (fst (skip (Block d true false) (b :: c)), true)
         else if a =? ch "*" then (fst (skip (Block d false true) (b :: c)), true)
         else (fst (skip (Block d false false) (b :: c)), true)).
      rewrite A1, A2. reflexivity.
Qed.

Lemma skip_open_block c : hd 0 c <> ch "/" ->
  skip Plain (ch "/" :: ch "*" :: c) = (fst (skip Plain (rest_of (block_end 0 c))), true).
Proof.
  intros H. change (skip Plain (ch "/" :: ch "*" :: c)) with (fst (skip (Block 0 false true) c), true).
  f_equal. rewrite <- (skip_block (length c)) by lia. destruct c as [|r c]; [reflexivity|]. cbn [hd] in H.
  cbn [skip]. rewrite (proj2 (Z.eqb_neq r (ch "/")) H). destruct (r =? ch "*"); reflexivity.
Qed.

Lemma skip_space r g : space_char r = true -> skip Plain (r :: g) = (fst (skip Plain g), true).
Proof. rewrite space_char_eq. intros H. cbn [skip]. now rewrite H. Qed.

Lemma line_end_app c q g : line_end c = Some q -> line_end (c ++ g) = Some (q ++ g).
Proof.
  induction c as [|r c IH]; [discriminate|]. cbn [line_end app]. destruct (newline_char r).
  - intros H. injection H as <-. reflexivity.
  - destruct (r =? ch "-") eqn:E; cbn [andb]; [|exact IH]. destruct c as [|r2 c]; [discriminate|].
    cbn [hd app]. destruct (r2 =? ch "-"); [|exact IH]. cbn [tl]. intros H. injection H as <-. reflexivity.
Qed.

Lemma block_end_app : forall n c d q g, (length c <= n)%nat -> block_end d c = Some q -> block_end d (c ++ g) = Some (q ++ g).
Proof.
  induction n as [|n IH]; intros c d q g L; (destruct c as [|a c]; [discriminate|]); [cbn in L; lia|].
  destruct c as [|b c]; [discriminate|]. cbn [length] in L.
  pose proof (IH (b :: c) d q g ltac:(cbn [length]; lia)) as I1. cbn [app] in *. rewrite !block_end_eq.
  destruct ((a =? ch "*") && (b =? ch "/")).
  - destruct d; [intros H; injection H as <-; reflexivity|]. apply IH. lia.
  - destruct ((a =? ch "/") && (b =? ch "*")); [apply IH; lia|exact I1].
Qed.

Lemma layout_skip g : layout g -> forall b,
  fst (skip Plain (g ++ b)) = fst (skip Plain b) /\ (g <> [] -> snd (skip Plain (g ++ b)) = true).
Proof.
  induction 1 as [|r g W H IH|c g E N H IH|c g E N H IH]; intros b.
  - split; [reflexivity|congruence].
  - cbn [app]. rewrite skip_space by exact W. cbn [fst snd]. split; [apply IH|auto].
  - cbn [app]. rewrite <- app_assoc. rewrite skip_open_line.
    + rewrite (line_end_app _ _ (g ++ b) E). cbn [rest_of app fst snd]. split; [apply IH|auto].
    + destruct c; [discriminate E|exact N].
  - cbn [app]. rewrite <- app_assoc. rewrite skip_open_block.
    + rewrite (block_end_app _ _ _ _ (g ++ b) (le_n _) E). cbn [rest_of app fst snd]. split; [apply IH|auto].
    + destruct c; [discriminate E|exact N].
Qed.

Section Facts.
  Context (U : unicode_tables).

  Lemma next_end n rs : next U n rs = End <-> fst (skip Plain rs) = [].
  Proof.
    unfold next. destruct (skip Plain rs) as [[|r q] s]; cbn [fst]; [tauto|]. split; [|discriminate].
    unfold token_at. destruct (is_letter U r).
    - destruct (_ && _); [discriminate|]. destruct (word_scan U [r] r q) as [[m|w] z]; discriminate.
    - destruct (is_digit U r).
      + destruct (digits_scan U [r] q) as [w z]. destruct (atoi _); discriminate.
      + repeat match goal with |- context [if ?b then _ else _] => destruct b; try discriminate end.
        destruct (symbol_code r); discriminate.
  Qed.

  (** A non-empty gap before a token does not matter. *)
  Lemma next_layout g b n : layout g -> g <> [] -> next U n (g ++ b) = next U false b.
  Proof.
    intros H N. destruct (layout_skip g H b) as [E S1]. specialize (S1 N). unfold next.
    destruct (skip Plain (g ++ b)) as [q s]. cbn [fst snd] in *. subst s.
    destruct (skip Plain b) as [q' s']. cbn [fst] in E. subst q'. destruct q; [reflexivity|].
    now rewrite andb_false_r.
  Qed.

  (** ** Tokens end at separators *)

  (** White space, a block comment, or the end of the text. *)
  Definition sep (g : list Z) : Prop :=
    match g with
    | [] => True
    | r :: g' => space_char r = true \/ (r = ch "/" /\ hd 0 g' = ch "*")
    end.

  (** What a token may not look at. *)
  Definition blank (g : list Z) : Prop :=
    match g with [] => True | r :: _ => isIdentifierChar U r = false /\ is_digit U r = false /\
      ~ In r [ch "-"; ch "*"; ch ":"; ch "="; ch "."; ch "["; ch "]"] end.

  Lemma sep_blank g : sep g -> blank g.
  Proof.
    destruct g as [|r g]; [auto|]. cbn. unfold space_char, existsb. intros H.
    assert (C : r = 9 \/ r = 10 \/ r = 11 \/ r = 12 \/ r = 13 \/ r = 32 \/ r = ch "/").
    { destruct H as [H|[-> _]]; [|tauto]. repeat (apply orb_true_iff in H as [H|H]; [apply Z.eqb_eq in H; tauto|]). discriminate. }
    repeat destruct C as [->|C]; try subst r; (split; [reflexivity|]; split; [reflexivity|]; cbn; intros [X|X]; [discriminate X|]; repeat destruct X as [X|X]; try discriminate X; exact X).
  Qed.

  Lemma blank_ident r g : blank (r :: g) -> isIdentifierChar U r = false.
  Proof. intros H. apply H. Qed.

  Lemma blank_hd_not g c : blank g -> In c [ch "-"; ch "*"; ch ":"; ch "="; ch "."; ch "["; ch "]"] -> (hd 0 g =? c) = false.
  Proof.
    intros B I. apply Z.eqb_neq. destruct g as [|r g].
    - cbn [hd]. cbn in I. intros <-. repeat destruct I as [I|I]; try discriminate I; exact I.
    - cbn [hd]. destruct B as (_ & _ & B). now intros ->.
  Qed.

  Lemma hd_app (a g : list Z) c : blank g -> In c [ch "-"; ch "*"; ch ":"; ch "="; ch "."; ch "["; ch "]"] ->
    (hd 0 (a ++ g) =? c) = match a with [] => false | r :: _ => r =? c end.
  Proof. intros B I. destruct a; [now apply blank_hd_not|reflexivity]. Qed.

  Lemma skip_local : forall a m g1 g2, blank g1 -> blank g2 ->
    (exists a1 b, a1 <> [] /\ skip m (a ++ g1) = (a1 ++ g1, b)%list /\ skip m (a ++ g2) = (a1 ++ g2, b)%list)
    \/ (length (fst (skip m (a ++ g1))) <= length g1)%nat.
  Proof.
    induction a as [|r a IH]; intros m g1 g2 B1 B2.
    { right. apply skip_length. }
    assert (G : forall m', (exists a1 b, a1 <> [] /\ (fst (skip m' (a ++ g1)), true) = (a1 ++ g1, b)%list /\ (fst (skip m' (a ++ g2)), true) = (a1 ++ g2, b)%list)
      \/ (length (fst (skip m' (a ++ g1))) <= length g1)%nat).
    { intros m'. destruct (IH m' g1 g2 B1 B2) as [(a1 & b & N & E1 & E2)|H]; [left|right; exact H].
      exists a1, true. rewrite E1, E2. auto. }
    cbn [app]. destruct m as [|hy|d sl sr]; cbn [skip].
    - destruct (isWhitespace r); [apply G|]. rewrite !hd_app by (auto; cbn; tauto).
      destruct ((r =? ch "-") && _); [apply G|]. destruct ((r =? ch "/") && _); [apply G|].
      left. exists (r :: a), false. split; [discriminate|auto].
    - destruct (isNewline r); [apply G|]. destruct (r =? ch "-"); [destruct hy; apply G|apply G].
    - destruct (r =? ch "/").
      + destruct sr; [destruct d; apply G|apply G].
      + destruct (r =? ch "*"); [destruct sl; apply G|apply G].
  Qed.

  Lemma word_local : forall a w l g1 w' q, blank g1 -> word_scan U w l (a ++ g1) = (inr w', q) ->
    exists a', q = (a' ++ g1)%list /\ forall g2, blank g2 -> word_scan U w l (a ++ g2) = (inr w', a' ++ g2)%list.
  Proof.
    assert (Z0 : forall w l g, blank g -> l =? ch "-" = false -> word_scan U w l g = (inr w, g)).
    { intros w l g B E. destruct g as [|r g]; cbn [word_scan]; [now rewrite E|].
      rewrite (blank_ident _ _ B), E. reflexivity. }
    induction a as [|r a IH]; intros w l g1 w' q B1; cbn [app].
    - intros H. destruct (l =? ch "-") eqn:E.
      + exfalso. destruct g1 as [|r g]; cbn [word_scan] in H; [rewrite E in H; discriminate H|].
        rewrite (blank_ident _ _ B1), E in H. discriminate H.
      + rewrite Z0 in H by assumption. injection H as <- <-. exists []. split; [reflexivity|].
        intros g2 B2. now rewrite Z0.
    - cbn [word_scan]. destruct (isIdentifierChar U r).
      + destruct ((l =? ch "-") && (r =? ch "-")); [discriminate|]. intros H.
        destruct (IH _ _ _ _ _ B1 H) as (a' & E & F). exists a'. auto.
      + destruct (l =? ch "-"); [discriminate|]. intros H. injection H as <- <-. exists (r :: a). auto.
  Qed.

  Lemma digits_local : forall a w g1, blank g1 -> exists w' a',
    forall g2, blank g2 -> digits_scan U w (a ++ g2) = (w', a' ++ g2)%list.
  Proof.
    induction a as [|r a IH]; intros w g1 B1; cbn [app].
    - exists w, []. intros g2 B2. destruct g2 as [|r g]; [reflexivity|]. cbn [digits_scan app].
      destruct B2 as (_ & -> & _). reflexivity.
    - cbn [digits_scan]. destruct (is_digit U r).
      + destruct (IH (w ++ [r])%list g1 B1) as (w' & a' & H). eauto.
      + exists w, (r :: a). auto.
  Qed.

  Lemma starts_local p a g1 g2 : blank g1 -> blank g2 ->
    Forall (fun c => In c [ch "-"; ch "*"; ch ":"; ch "="; ch "."; ch "["; ch "]"]) p ->
    starts p (a ++ g1) = starts p (a ++ g2) /\
    (starts p (a ++ g1) = true -> exists a', forall g, skipn (length p) (a ++ g) = (a' ++ g)%list).
  Proof.
    intros B1 B2 F. revert a. induction F as [|c p Hc F IH]; intros a.
    - split; [reflexivity|]. exists a. reflexivity.
    - destruct a as [|r a].
      + cbn [app]. assert (Q : forall g, blank g -> starts (c :: p) g = false).
        { intros g B. destruct g as [|r g]; [reflexivity|]. cbn [starts].
          pose proof (blank_hd_not (r :: g) c B Hc) as E. cbn [hd] in E. rewrite Z.eqb_sym, E. reflexivity. }
        rewrite !Q by assumption. split; [reflexivity|discriminate].
      + cbn [app starts]. destruct (c =? r); cbn [andb]; [|split; [reflexivity|discriminate]].
        cbn [length skipn]. apply IH.
  Qed.

  Lemma token_local f r a g1 g2 t n' q : blank g1 -> blank g2 ->
    token_at U f r (a ++ g1) = Tok t n' q ->
    exists a', q = (a' ++ g1)%list /\ token_at U f r (a ++ g2) = Tok t n' (a' ++ g2).
  Proof.
    intros B1 B2. unfold token_at. destruct (is_letter U r).
    { destruct (f && _); [intros H; injection H as <- <- <-; eauto|].
      destruct (word_scan U [r] r (a ++ g1)) as [[m|w] z] eqn:W; [discriminate|].
      destruct (word_local _ _ _ _ _ _ B1 W) as (a' & -> & F). rewrite (F g2 B2).
      intros H. injection H as <- <- <-. eauto. }
    destruct (is_digit U r).
    { destruct (digits_local a [r] g1 B1) as (w' & a' & F). rewrite (F g1 B1), (F g2 B2).
      destruct (atoi (text w')); try discriminate. intros H. injection H as <- <- <-. eauto. }
    assert (S2 : forall p, Forall (fun c => In c [ch "-"; ch "*"; ch ":"; ch "="; ch "."; ch "["; ch "]"]) p ->
      starts p (a ++ g2) = starts p (a ++ g1) /\
      (starts p (a ++ g1) = true -> exists a', forall g, skipn (length p) (a ++ g) = (a' ++ g)%list)).
    { intros p P. destruct (starts_local p a g1 g2 B1 B2 P). auto. }
    pose proof (S2 [ch ":"; ch "="] ltac:(repeat constructor; cbn; tauto)) as [A1 A2].
    pose proof (S2 [ch "."; ch "."] ltac:(repeat constructor; cbn; tauto)) as [A3 A4].
    pose proof (S2 [ch "."] ltac:(repeat constructor; cbn; tauto)) as [A5 A6].
    pose proof (S2 [ch "["] ltac:(repeat constructor; cbn; tauto)) as [A7 A8].
    pose proof (S2 [ch "]"] ltac:(repeat constructor; cbn; tauto)) as [A9 A10].
    rewrite A1, A3, A5, A7, A9. clear S2 A1 A3 A5 A7 A9.
    assert (K : forall b (T : bool) (X : item) j tk,
      (b && T = true -> exists a', forall g, skipn j (a ++ g) = (a' ++ g)%list) ->
      b && T = true -> X = Tok tk false (skipn j (a ++ g1)) -> X = Tok t n' q ->
      exists a', q = (a' ++ g1)%list /\ Tok tk false (skipn j (a ++ g2)) = Tok t n' (a' ++ g2)).
    { intros b T X j tk H Q E1 E2. destruct (H Q) as (a' & S1). rewrite E1, S1 in E2.
      injection E2 as <- <- <-. exists a'. rewrite S1. auto. }
    destruct ((r =? ch ":") && starts [ch ":"; ch "="] (a ++ g1)) eqn:E1.
    { intros H. eapply K; [|exact E1|reflexivity|exact H]. intros Q. apply andb_true_iff in Q as [_ Q]. exact (A2 Q). }
    destruct ((r =? ch ".") && starts [ch "."; ch "."] (a ++ g1)) eqn:E2.
    { intros H. eapply K; [|exact E2|reflexivity|exact H]. intros Q. apply andb_true_iff in Q as [_ Q]. exact (A4 Q). }
    destruct ((r =? ch ".") && starts [ch "."] (a ++ g1)) eqn:E3.
    { intros H. eapply K; [|exact E3|reflexivity|exact H]. intros Q. apply andb_true_iff in Q as [_ Q]. exact (A6 Q). }
    destruct ((r =? ch "[") && starts [ch "["] (a ++ g1)) eqn:E4.
    { intros H. eapply K; [|exact E4|reflexivity|exact H]. intros Q. apply andb_true_iff in Q as [_ Q]. exact (A8 Q). }
    destruct ((r =? ch "]") && starts [ch "]"] (a ++ g1)) eqn:E5.
    { intros H. eapply K; [|exact E5|reflexivity|exact H]. intros Q. apply andb_true_iff in Q as [_ Q]. exact (A10 Q). }
    destruct (symbol_code r); [|discriminate]. intros H. injection H as <- <- <-. eauto.
  Qed.

  Lemma next_local n a g1 g2 t n' q : blank g1 -> blank g2 ->
    next U n (a ++ g1) = Tok t n' q -> (length g1 <= length q)%nat ->
    exists a', q = (a' ++ g1)%list /\ next U n (a ++ g2) = Tok t n' (a' ++ g2).
  Proof.
    intros B1 B2 H L. unfold next in *. destruct (skip_local a Plain g1 g2 B1 B2) as [(a1 & b & N & E1 & E2)|Q].
    - rewrite E1 in H. rewrite E2. destruct a1 as [|r a1]; [congruence|]. cbn [app] in *.
      exact (token_local _ _ _ _ _ _ _ _ B1 B2 H).
    - exfalso. pose proof (next_length U n (a ++ g1) t n' q) as NL. unfold next in NL.
      destruct (skip Plain (a ++ g1)) as [[|r z] s] eqn:E; [discriminate H|]. cbn [fst length] in Q.
      assert (LZ : (length q < length (r :: z))%nat).
      { pose proof (next_length U s (r :: z) t n' q) as M. unfold next in M.
        (* the token starts with r *)
        clear NL M. unfold token_at in H. destruct (is_letter U r).
        - destruct (_ && _); [injection H as _ _ <-; cbn; lia|].
          pose proof (word_scan_length U z [r] r) as W. destruct (word_scan U [r] r z) as [[m|w] y]; [discriminate|].
          injection H as _ _ <-. cbn [snd length] in *. lia.
        - destruct (is_digit U r).
          + pose proof (digits_scan_length U z [r]) as W. destruct (digits_scan U [r] z) as [w y]. cbn [snd] in W.
            destruct (atoi _); try discriminate. injection H as _ _ <-. cbn [length]. lia.
          + revert H. repeat match goal with |- context [if ?b then _ else _] => destruct b end;
              try match goal with |- Tok _ _ (skipn ?j _) = _ -> _ =>
                intros H; assert (EE : q = skipn j z) by congruence; rewrite EE, skipn_length; cbn [length]; lia end.
            destruct (symbol_code r); [|discriminate]. intros H; injection H as _ _ <-; cbn [length]; lia. }
      cbn [length] in LZ. lia.
  Qed.

  Lemma lexes_length n rs ts n' rest : lexes U n rs ts n' rest -> (length rest <= length rs)%nat.
  Proof. induction 1 as [|n rs t n1 r1 ts n2 rest E H IH]; [lia|]. apply next_length in E. lia. Qed.

  (** Tokens do not depend on what follows the separator after them. *)
  Lemma lexes_local n rs ts n' g1 : lexes U n rs ts n' g1 -> blank g1 ->
    forall a g2, rs = (a ++ g1)%list -> blank g2 -> lexes U n (a ++ g2) ts n' g2.
  Proof.
    induction 1 as [n rs|n rs t n1 r1 ts n2 rest E H IH]; intros B1 a g2 EQ B2.
    - assert (a = []) by (apply (f_equal (@length Z)) in EQ; rewrite app_length in EQ; destruct a; [reflexivity|cbn in EQ; lia]).
      subst a. constructor.
    - subst rs. pose proof (lexes_length _ _ _ _ _ H) as L.
      destruct (next_local _ _ _ _ _ _ _ B1 B2 E L) as (a' & -> & E2).
      econstructor; [exact E2|]. now apply IH.
  Qed.
End Facts.
