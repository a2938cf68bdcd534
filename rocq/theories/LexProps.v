(** Lemmas for the properties of the lexer: what Lex returns on a word, a number,
    a comment, an invalid byte. *)
From Coq Require Import ZArith String Ascii Bool List Lia.
From Verif Require Import GoBase Utf8 Unicode Reader Stream Tokens Reserved Lexer Grammar
  LexErr LexSpec LexEq LexRuns LexFacts LexWords DriverSound.
Import ListNotations.
Local Open Scope string_scope.
Local Open Scope list_scope.
Local Open Scope Z_scope.

(** ** Vocabulary of the properties *)

(** The last token read is a number. *)
Definition after_number (ts : list token) : Prop :=
  exists us t, ts = us ++ [t] /\ tk_kind t = T_NUMBER.

(** What the lexer skips between tokens: white space and comments, where a comment
    is delimited as X.680 says except that the second character of the opening also
    counts as a character of the comment. *)
Inductive gap : list Z -> Prop :=
| gap_nil : gap []
| gap_space r g : space_char r = true -> gap g -> gap (r :: g)
| gap_line c g : hd 0 c = ch "-" -> line_end c = Some [] -> gap g -> gap (ch "-" :: c ++ g)
| gap_block c g : hd 0 c = ch "*" -> block_end 0 c = Some [] -> gap g -> gap (ch "/" :: c ++ g).

(** The same at the end of the text, where a comment may be open. *)
Inductive last_gap : list Z -> Prop :=
| last_gap_closed g : gap g -> last_gap g
| last_gap_line g c : gap g -> hd 0 c = ch "-" -> line_end c = None -> last_gap (g ++ ch "-" :: c)
| last_gap_block g c : gap g -> hd 0 c = ch "*" -> block_end 0 c = None -> last_gap (g ++ ch "/" :: c).

(** [pieces U rs l last]: the text is a sequence of gaps and tokens, and a gap at the end. *)
Definition pieces (U : unicode_tables) (rs : list Z) (l : list (list Z * list Z * token)) (last : list Z) : Prop :=
  rs = flat_map (fun '(g, w, t) => g ++ w) l ++ last /\
  Forall (fun '(g, w, t) => gap g /\ lexeme U w t) l /\ last_gap last.

(** ** Facts *)

Lemma line_end_split c q : line_end c = Some q -> exists p, c = p ++ q /\ line_end p = Some [].
Proof.
  revert q. induction c as [|r c IH]; intros q; [discriminate|]. cbn [line_end].
  destruct (newline_char r) eqn:N.
  - intros H. injection H as ->. exists [r]. cbn [app line_end]. now rewrite N.
  - destruct ((r =? ch "-") && (hd 0 c =? ch "-")) eqn:E.
    + intros H. injection H as <-. apply andb_true_iff in E as [E1 E2]. destruct c as [|r2 c]; [discriminate E2|].
      exists [r; r2]. cbn [hd tl app line_end] in *. now rewrite N, E1, E2.
    + intros H. destruct (IH q H) as (p & -> & P). exists (r :: p). split; [reflexivity|]. cbn [line_end]. rewrite N, P.
      destruct p as [|r2 p]; [discriminate P|]. cbn [hd app] in E |- *. now rewrite E.
Qed.

Lemma block_end_split : forall n c d q, (length c <= n)%nat -> block_end d c = Some q -> exists p, c = p ++ q /\ block_end d p = Some [].
Proof.
  induction n as [|n IH]; intros c d q L H; (destruct c as [|a c]; [discriminate H|]); [cbn in L; lia|].
  destruct c as [|b c]; [discriminate H|]. cbn [length] in L. rewrite block_end_eq in H.
  destruct ((a =? ch "*") && (b =? ch "/")) eqn:E1.
  - destruct d as [|d].
    + injection H as <-. exists [a; b]. split; [reflexivity|]. now rewrite block_end_eq, E1.
    + destruct (IH c d q ltac:(lia) H) as (p & -> & P). exists (a :: b :: p). split; [reflexivity|]. now rewrite block_end_eq, E1.
  - destruct ((a =? ch "/") && (b =? ch "*")) eqn:E2.
    + destruct (IH c (S d) q ltac:(lia) H) as (p & -> & P). exists (a :: b :: p). split; [reflexivity|]. now rewrite block_end_eq, E1, E2.
    + destruct (IH (b :: c) d q ltac:(cbn [length]; lia) H) as (p & E & P). destruct p as [|b' p]; [discriminate P|].
      injection E as <- ->. exists (a :: b :: p). split; [reflexivity|]. now rewrite block_end_eq, E1, E2.
Qed.

Lemma skip_gap : forall n rs, (length rs <= n)%nat ->
  (exists g, gap g /\ rs = g ++ fst (skip Plain rs)) \/ (fst (skip Plain rs) = [] /\ last_gap rs).
Proof.
  induction n as [|n IH]; intros rs L; (destruct rs as [|r rs]; [left; exists []; split; [constructor|reflexivity]|]); [cbn in L; lia|].
  cbn [length] in L. cbn [skip]. destruct (isWhitespace r) eqn:W; [|destruct ((r =? ch "-") && (hd 0 rs =? ch "-")) eqn:E1;
    [|destruct ((r =? ch "/") && (hd 0 rs =? ch "*")) eqn:E2]]; cbn [fst].
  - destruct (IH rs ltac:(lia)) as [(g & G & E)|(E & G)].
    + left. exists (r :: g). split; [constructor; [now rewrite space_char_eq|exact G]|]. cbn [app]. now rewrite <- E.
    + right. split; [exact E|]. rewrite <- space_char_eq in W.
      inversion G as [g G1|g c G1 H1 H2|g c G1 H1 H2]; subst.
      * apply last_gap_closed. now constructor.
      * apply (last_gap_line (r :: g)); [now constructor|exact H1|exact H2].
      * apply (last_gap_block (r :: g)); [now constructor|exact H1|exact H2].
  - apply andb_true_iff in E1 as [E1 E2]. apply Z.eqb_eq in E1, E2. subst r. rewrite skip_line.
    destruct (line_end rs) as [q|] eqn:LE; cbn [rest_of].
    + destruct (line_end_split _ _ LE) as (p & -> & P). rewrite app_length in L.
      assert (HP : hd 0 p = ch "-") by (destruct p; [discriminate P|exact E2]).
      destruct (IH q ltac:(lia)) as [(g & G & E)|(E & G)].
      * left. exists (ch "-" :: p ++ g). split; [now constructor|]. cbn [app]. rewrite <- app_assoc. now rewrite <- E.
      * right. split; [exact E|]. inversion G as [g G1|g c G1 H1 H2|g c G1 H1 H2]; subst.
        -- apply last_gap_closed. now constructor.
        -- rewrite app_assoc. apply (last_gap_line (ch "-" :: p ++ g)); [now constructor|exact H1|exact H2].
        -- rewrite app_assoc. apply (last_gap_block (ch "-" :: p ++ g)); [now constructor|exact H1|exact H2].
    + right. split; [reflexivity|]. apply (last_gap_line []); [constructor|exact E2|exact LE].
  - apply andb_true_iff in E2 as [E2 E3]. apply Z.eqb_eq in E2, E3. subst r. rewrite (skip_block (length rs)) by lia.
    destruct (block_end 0 rs) as [q|] eqn:LE; cbn [rest_of].
    + destruct (block_end_split _ _ _ _ (le_n _) LE) as (p & -> & P). rewrite app_length in L.
      assert (HP : hd 0 p = ch "*") by (destruct p; [discriminate P|exact E3]).
      destruct (IH q ltac:(lia)) as [(g & G & E)|(E & G)].
      * left. exists (ch "/" :: p ++ g). split; [now constructor|]. cbn [app]. rewrite <- app_assoc. now rewrite <- E.
      * right. split; [exact E|]. inversion G as [g G1|g c G1 H1 H2|g c G1 H1 H2]; subst.
        -- apply last_gap_closed. now constructor.
        -- rewrite app_assoc. apply (last_gap_line (ch "/" :: p ++ g)); [now constructor|exact H1|exact H2].
        -- rewrite app_assoc. apply (last_gap_block (ch "/" :: p ++ g)); [now constructor|exact H1|exact H2].
    + right. split; [reflexivity|]. apply (last_gap_block []); [constructor|exact E3|exact LE].
  - left. exists []. split; [constructor|reflexivity].
Qed.

Section Props.
  Context (U : unicode_tables).

  Lemma lexes_number n rs ts n' rest : lexes U n rs ts n' rest -> n = false -> n' = true -> after_number ts.
  Proof.
    intros H. assert (G : (ts = [] /\ n = n') \/ (exists us t, ts = us ++ [t] /\ (n' = true <-> tk_kind t = T_NUMBER))).
    { induction H as [n rs|n rs t n1 r1 ts n2 rest E H IH]; [auto|]. right. destruct IH as [[-> ->]|(us & t' & -> & Q)].
      - destruct (next_lexeme U _ _ _ _ _ E) as (g & w & _ & _ & _ & _ & Q). exists [], t. auto.
      - exists (t :: us), t'. auto. }
    intros -> ->. destruct G as [[_ G]|(us & t & -> & Q)]; [discriminate|]. exists us, t. split; [reflexivity|]. now apply Q.
  Qed.

  Lemma number_lexes n rs ts n' rest : lexes U n rs ts n' rest -> after_number ts -> n' = true.
  Proof.
    intros H (us & t & E & K). revert us E. induction H as [n rs|n rs t0 n1 r1 ts n2 rest E H IH]; intros us EQ.
    - destruct us; discriminate.
    - destruct us as [|u us].
      + injection EQ as -> ->. inversion H; subst. destruct (next_lexeme U _ _ _ _ _ E) as (g & w & _ & _ & _ & _ & Q). now apply Q.
      + injection EQ as -> ->. now apply (IH us).
  Qed.

  Lemma next_skip g b n : layout g ->
    next U n (g ++ b) = match fst (skip Plain b) with
      | [] => End
      | r :: q => token_at U (n && negb (match g with [] => snd (skip Plain b) | _ => true end)) r q
      end.
  Proof.
    intros H. destruct g as [|a g].
    - cbn [app]. unfold next. now destruct (skip Plain b) as [[|r q] s].
    - rewrite (next_layout U (a :: g) b n H) by discriminate. unfold next. rewrite andb_false_r.
      destruct (skip Plain b) as [[|r q] s]; reflexivity.
  Qed.

  Lemma letter_plain r q : is_letter U r = true -> skip Plain (r :: q) = (r :: q, false).
  Proof.
    intros H. cbn [skip].
    assert (A : isWhitespace r = false).
    { apply not_true_iff_false. intros W. unfold isWhitespace in W.
      repeat (apply orb_true_iff in W as [W|W]); apply Z.eqb_eq in W; subst r; discriminate H. }
    rewrite A. replace (r =? ch "-") with false by (symmetry; apply Z.eqb_neq; intros ->; discriminate H).
    replace (r =? ch "/") with false by (symmetry; apply Z.eqb_neq; intros ->; discriminate H). reflexivity.
  Qed.

  Lemma digit_plain r q : is_digit U r = true -> skip Plain (r :: q) = (r :: q, false).
  Proof.
    intros H. cbn [skip].
    assert (A : isWhitespace r = false).
    { apply not_true_iff_false. intros W. unfold isWhitespace in W.
      repeat (apply orb_true_iff in W as [W|W]); apply Z.eqb_eq in W; subst r; discriminate H. }
    rewrite A. replace (r =? ch "-") with false by (symmetry; apply Z.eqb_neq; intros ->; discriminate H).
    replace (r =? ch "/") with false by (symmetry; apply Z.eqb_neq; intros ->; discriminate H). reflexivity.
  Qed.

  (** A word after white space and comments. *)
  Lemma next_word g w q n : layout g -> word U w = true -> word_stops U q = true ->
    (g = [] -> n = true -> hd 0 w <> ch "e" /\ hd 0 w <> ch "E") ->
    next U n (g ++ w ++ q) = Tok (word_token U (hd 0 w) (text w)) false q.
  Proof.
    intros H W S1 E. rewrite next_skip by exact H. destruct w as [|r p]; [discriminate W|]. cbn [hd app] in *.
    cbn [word] in W. apply andb_true_iff in W as [W HO]. apply andb_true_iff in W as [L P].
    rewrite letter_plain by exact L. cbn [fst snd]. unfold token_at. rewrite L.
    rewrite word_scan_ok by assumption.
    set (f := n && _). replace (f && ((r =? ch "e") || (r =? ch "E"))) with false; [reflexivity|].
    symmetry. apply not_true_iff_false. intros T. apply andb_true_iff in T as [T1 T2]. unfold f in T1.
    apply andb_true_iff in T1 as [T1 T3]. destruct g; [|discriminate T3]. destruct (E eq_refl T1) as [E1 E2].
    apply orb_true_iff in T2 as [T2|T2]; apply Z.eqb_eq in T2; congruence.
  Qed.

  (** Digits after white space and comments. *)
  Lemma next_digits g w q n : layout g -> digits U w = true -> is_letter U (hd 0 w) = false -> digits_stop U q = true ->
    (Forall (fun d => 48 <= d <= 57) w /\ decimal w < 2 ^ 63 /\
       next U n (g ++ w ++ q) = Tok {| tk_kind := T_NUMBER; tk_name := text w; tk_number := decimal w |} true q) \/
    ((Exists (fun d => 128 <= d) w \/ 2 ^ 63 <= decimal w) /\
       exists msg, next U n (g ++ w ++ q) = Bad ("Failed to parse number: " ++ msg) q).
  Proof.
    intros H W NL S1. rewrite next_skip by exact H. destruct w as [|r p]; [discriminate W|]. cbn [hd app] in *.
    change (digits U (r :: p)) with (is_digit U r && forallb (is_digit U) p) in W.
    pose proof W as W0. apply andb_true_iff in W as [D P].
    rewrite digit_plain by exact D. cbn [fst snd]. unfold token_at. rewrite NL, D.
    rewrite digits_scan_ok by assumption. change ([r] ++ p) with (r :: p).
    destruct (digits_split U (r :: p) W0) as [F|F].
    - rewrite atoi_digits by exact F. destruct (decimal (r :: p) <? 2 ^ 63) eqn:E.
      + left. split; [exact F|]. split; [now apply Z.ltb_lt|reflexivity].
      + right. split; [right; now apply Z.ltb_ge|]. eauto.
    - right. split; [now left|]. rewrite atoi_high by exact F. eauto.
  Qed.

  (** An invalid byte, or U+FFFD, after white space and comments. *)
  Lemma next_invalid g q n : layout g -> next U n (g ++ 65533 :: q) = Bad ("Unexpected character: " ++ text [65533]) q.
  Proof. intros H. rewrite next_skip by exact H. reflexivity. Qed.

  (** From a state of the lexer. *)
  Lemma call_token x v rs e n k t n' rest : st x rs e n k -> next U n rs = Tok t n' rest ->
    exists c v' x', call U x v c v' x' /\ 0 < c /\ token_of c v' = t /\ unread x' = rest /\ lx_lastWasNumber x' = n' /\
      lx_err x' = e.
  Proof.
    intros H E. destruct (call_next U x v _ _ _ _ H) as (c & v' & x' & C & Q). rewrite E in Q. cbn [lexed] in Q.
    destruct Q as (-> & (Q1 & _) & Q2 & Q3). exists (tk_kind t), v', x'. split; [exact C|]. split; [lia|]. split; [exact Q2|].
    split; [exact (st_unread _ _ _ _ _ Q3)|]. split; [exact (st_flag _ _ _ _ _ Q3)|exact (st_err _ _ _ _ _ Q3)].
  Qed.

  Lemma call_bad x v rs e n k msg rest : st x rs e n k -> next U n rs = Bad msg rest ->
    exists x', call U x v (-1) v x' /\ unread x' = rest /\ lx_err x' = located k rest msg.
  Proof.
    intros H E. destruct (call_next U x v _ _ _ _ H) as (c & v' & x' & C & Q). rewrite E in Q. cbn [lexed] in Q.
    destruct Q as (-> & -> & num & Q3). exists x'. split; [exact C|].
    split; [exact (st_unread _ _ _ _ _ Q3)|exact (st_err _ _ _ _ _ Q3)].
  Qed.

  (** Two states with the same next item. *)
  Lemma call_same x y v r1 e1 n1 k1 r2 e2 n2 k2 : st x r1 e1 n1 k1 -> st y r2 e2 n2 k2 ->
    next U n1 r1 = next U n2 r2 ->
    forall c v' x', call U x v c v' x' ->
    exists y', call U y v c v' y' /\ unread y' = unread x' /\ (0 <= c -> lx_lastWasNumber y' = lx_lastWasNumber x').
  Proof.
    intros S1 S2 E c v' x' C. destruct (call_next U x v _ _ _ _ S1) as (c1 & v1 & x1 & C1 & Q1).
    destruct (call_det U _ _ _ _ _ _ _ _ C C1) as (<- & <- & <-).
    destruct (call_next U y v _ _ _ _ S2) as (c2 & v2 & y' & C2 & Q2). rewrite <- E in Q2.
    destruct (next U n1 r1) as [|t n' rest|m rest]; cbn [lexed] in Q1, Q2.
    - destruct Q1 as (-> & -> & Q1), Q2 as (-> & -> & Q2). exists y'. split; [exact C2|].
      rewrite (st_unread _ _ _ _ _ Q1), (st_unread _ _ _ _ _ Q2), (st_flag _ _ _ _ _ Q1), (st_flag _ _ _ _ _ Q2). auto.
    - destruct Q1 as (-> & (_ & ->) & _ & Q1), Q2 as (-> & (_ & ->) & _ & Q2). exists y'. split; [exact C2|].
      rewrite (st_unread _ _ _ _ _ Q1), (st_unread _ _ _ _ _ Q2), (st_flag _ _ _ _ _ Q1), (st_flag _ _ _ _ _ Q2). auto.
    - destruct Q1 as (-> & -> & a & Q1), Q2 as (-> & -> & b & Q2). exists y'. split; [exact C2|].
      rewrite (st_unread _ _ _ _ _ Q1), (st_unread _ _ _ _ _ Q2). split; [reflexivity|lia].
  Qed.

  Lemma lexes_lexeme n rs ts n' rest t : lexes U n rs ts n' rest -> In t ts -> exists w, lexeme U w t.
  Proof.
    induction 1 as [n rs|n rs t0 n1 r1 ts n2 rest E H IH]; [intros []|]. intros [<-|I]; [|auto].
    destruct (next_lexeme U _ _ _ _ _ E) as (g & w & _ & _ & _ & Q & _). eauto.
  Qed.

  Lemma reads_lexeme s ts v x t : reads U s ts v x -> In t ts -> exists w, lexeme U w t.
  Proof. intros R. destruct (reads_st U _ _ _ _ R) as (n & Lx & _). exact (lexes_lexeme _ _ _ _ _ _ Lx). Qed.

  (** Everything the lexer reads is a gap or a token. *)
  Lemma tokens_pieces n rs ts : tokens U n rs ts -> exists l last, pieces U rs l last /\ map snd l = ts.
  Proof.
    unfold pieces. induction 1 as [n rs E|n rs t n' rest ts E T (l & last & (E1 & F & Lg) & M)].
    - exists [], rs. split; [|reflexivity]. split; [reflexivity|]. split; [constructor|]. apply next_end in E.
      destruct (skip_gap _ rs (le_n _)) as [(g & G & Q)|(_ & G)]; [|exact G]. rewrite E, app_nil_r in Q. subst g. now constructor.
    - destruct (next_lexeme U _ _ _ _ _ E) as (g0 & w & _ & SK & NE & Lx & _).
      destruct (skip_gap _ rs (le_n _)) as [(g & G & Q)|(Q & _)].
      + rewrite SK in Q. exists ((g, w, t) :: l), last. split; [|cbn [map snd]; now rewrite M].
        split; [|split; [constructor; auto|exact Lg]]. cbn [flat_map]. rewrite <- !app_assoc. rewrite Q. f_equal. f_equal. exact E1.
      + rewrite SK in Q. destruct w; [now destruct NE|discriminate Q].
  Qed.

  Lemma lexeme_valid w t : lexeme U w t -> ~ In 65533 w.
  Proof.
    assert (WD : forall w, word U w = true -> ~ In 65533 w).
    { clear. intros w W I. destruct w as [|r w]; [destruct I|]. cbn [word] in W. apply andb_true_iff in W as [W _].
      apply andb_true_iff in W as [L F]. destruct I as [->|I]; [discriminate L|]. rewrite forallb_forall in F. specialize (F _ I). discriminate F. }
    intros H I. destruct H as [w code W UP I2|w W UP NI|w W UP|w W F D|r E|z code I2]; try (now apply (WD _ W)).
    - rewrite Forall_forall in F. specialize (F _ I). lia.
    - destruct I as [->|[]]. destruct E as [E|E]; discriminate E.
    - assert (C : forallb (fun p => forallb (fun r => negb (r =? 65533)) (bytes_of_string (fst p))) symbols = true) by (vm_compute; reflexivity).
      rewrite forallb_forall in C. specialize (C _ I2). cbn [fst] in C. rewrite forallb_forall in C. specialize (C _ I). discriminate C.
  Qed.
End Props.
