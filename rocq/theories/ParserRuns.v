(** Facts about whole parses used by the properties. *)
From Coq Require Import ZArith String Ascii Bool List Lia.
From Verif Require Import GoBase Utf8 Unicode Reader Stream Tokens Reserved Ast Lexer Grammar Driver Parser
  LexErr LexTotal LexSpec LexEq LexRuns LexFacts LexWords Automaton DriverTables GrammarFacts DriverSound DriverSim AstFacts ParserFacts.
Import ListNotations.
Local Open Scope string_scope.
Local Open Scope Z_scope.

(** ** Vocabulary of the properties *)

(** ParseString returns [r]. *)
Definition parses (U : unicode_tables) (s : string) (r : parse_result) : Prop :=
  exists n, forall fuel, (n <= fuel)%nat -> ParseString U fuel s = Ok r.

(** Equal modules, or errors that differ at most in the line number. *)
Definition same_result (a b : parse_result) : Prop :=
  match a, b with
  | ParseOk m, ParseOk m' => m = m'
  | ParseErr e, ParseErr e' => exists l l' msg, e = "line " ++ l ++ ": " ++ msg /\ e' = "line " ++ l' ++ ": " ++ msg
  | _, _ => False
  end.

(** The states of the lexer of the text [s] while the parser runs. *)
Inductive visited (U : unicode_tables) (s : string) : lexer stream -> Prop :=
| visited_start : visited U s (lexer_of s)
| visited_call x v c v' x' : visited U s x -> call U x v c v' x' -> visited U s x'
| visited_Error x msg : visited U s x -> visited U s (Error x msg).

(** ** Facts *)

Section Runs.
  Context (U : unicode_tables).

  Lemma ParseString_parses fuel s r : ParseString U fuel s = Ok r -> parses U s r.
  Proof.
    intros H. exists fuel. intros f F. unfold ParseString, ParseStream in *.
    exact (ParseReader_mono stream_ops U fuel f _ r F H).
  Qed.

  Lemma parses_det s r r' : parses U s r -> parses U s r' -> r = r'.
  Proof.
    intros [n H] [n' H']. specialize (H (n + n')%nat ltac:(lia)). specialize (H' (n + n')%nat ltac:(lia)). congruence.
  Qed.

  Lemma parses_total s : exists r, parses U s r.
  Proof. destruct (string_total U s) as (r & n & H). exists r, n. exact H. Qed.

  Lemma parses_outcome s r : parses U s r ->
    (exists e, r = ParseErr e) \/
    exists m ts m', r = ParseOk (Some m) /\ reads_all U s ts /\
      derives N_ModuleDefinition ts (S_module m') /\ shape m = shape m'.
  Proof.
    intros [n H]. specialize (H n (le_n _)). destruct r as [o|e]; [right|left; eauto].
    destruct (string_accepted U n s o H) as (m & ts & m' & -> & T & D & S1).
    exists m, ts, m'. split; [reflexivity|]. split; [now apply reads_all_tokens|]. auto.
  Qed.

  Lemma error_rejected s ts v x c v' x' r : reads U s ts v x -> call U x v c v' x' -> c < 0 -> parses U s r -> exists e, r = ParseErr e.
  Proof.
    intros R C N P. destruct (parses_outcome s r P) as [E|(m & us & m' & _ & A & _)]; [exact E|exfalso].
    destruct (reads_error U _ _ _ _ _ _ _ R C N) as (n & msg & rest & Lx & B & _). apply reads_all_tokens in A.
    apply (tokens_no_error U _ _ _ A msg rest). apply lex_error_lexes. eauto.
  Qed.

  (** ** Equal tokens, equal results *)

  Definition errs (e1 e2 : option string) : Prop :=
    match e1, e2 with
    | None, None => True
    | Some a, Some b => same_result (ParseErr a) (ParseErr b)
    | _, _ => False
    end.

  Definition alike (fuel : nat) (x y : lexer stream) : Prop :=
    exists r1 e1 n1 k1 r2 e2 n2 k2 ts, st x r1 e1 n1 k1 /\ st y r2 e2 n2 k2 /\ errs e1 e2 /\
      tokens U n1 r1 ts /\ tokens U n2 r2 ts /\ (length r1 + 2 <= fuel)%nat /\ (length r2 + 2 <= fuel)%nat.

  Lemma alike_lex fuel x y v c v' x' : alike fuel x y -> Lex stream_ops U fuel x v = Ok (c, v', x') ->
    exists y', Lex stream_ops U fuel y v = Ok (c, v', y') /\ alike fuel x' y'.
  Proof.
    intros (r1 & e1 & n1 & k1 & r2 & e2 & n2 & k2 & ts & S1 & S2 & Er & T1 & T2 & L1 & L2) E.
    destruct (Lex_eq U fuel x v r1 e1 n1 k1 S1 L1) as (c1 & v1 & x1 & E1 & Q1). rewrite E in E1. injection E1 as <- <- <-.
    destruct (Lex_eq U fuel y v r2 e2 n2 k2 S2 L2) as (c2 & v2 & y' & E2 & Q2).
    inversion T1 as [n a N1|n a t n' rest us N1 T1']; subst.
    - inversion T2 as [n b N2|]; subst. rewrite N1 in Q1. rewrite N2 in Q2. cbn [lexed] in Q1, Q2.
      destruct Q1 as (-> & -> & Q1), Q2 as (-> & -> & Q2). exists y'. split; [exact E2|].
      exists [], e1, false, k1, [], e2, false, k2, []. repeat (split; [first [assumption|constructor; reflexivity]|]).
      cbn [length]. lia.
    - inversion T2 as [|n b t2 n2' rest2 us2 N2 T2']; subst. pose proof (next_length U _ _ _ _ _ N1). pose proof (next_length U _ _ _ _ _ N2).
      rewrite N1 in Q1. rewrite N2 in Q2. cbn [lexed] in Q1, Q2.
      destruct Q1 as (-> & (_ & ->) & _ & Q1), Q2 as (-> & (_ & ->) & _ & Q2). exists y'. split; [exact E2|].
      exists rest, e1, n', k1, rest2, e2, n2', k2, us. repeat (split; [assumption|]). lia.
  Qed.

  Lemma Error_errs k r1 k' r2 m : errs (located k r1 m) (located k' r2 m).
  Proof. unfold located, errs, same_result. eauto. Qed.

  Lemma alike_Error fuel x y m : alike fuel x y -> alike fuel (Error x m) (Error y m).
  Proof.
    intros (r1 & e1 & n1 & k1 & r2 & e2 & n2 & k2 & ts & S1 & S2 & Er & R).
    exists r1, (located k1 r1 m), n1, k1, r2, (located k2 r2 m), n2, k2, ts.
    split; [eapply st_Error; exact S1|]. split; [eapply st_Error; exact S2|]. split; [apply Error_errs|exact R].
  Qed.

  Theorem same_tokens s s' ts r : reads_all U s ts -> reads_all U s' ts -> parses U s r ->
    exists r', parses U s' r' /\ same_result r r'.
  Proof.
    intros R1 R2 [n H]. apply reads_all_tokens in R1, R2.
    set (f := (n + (length (runes (bytes_of_string s)) + length (runes (bytes_of_string s')) + 2))%nat).
    specialize (H f ltac:(lia)). unfold ParseString, ParseStream, ParseReader in H.
    destruct (yyParse (Lex stream_ops U f) Error f (new_lexer (stream_of_bytes (bytes_of_string s)))) as [[c ps]| |] eqn:P; try discriminate H.
    cbn [rbind] in H.
    destruct (yyParse_sim (Lex stream_ops U f) Error (Lex stream_ops U f) Error (alike f) (alike_lex f) (alike_Error f)
      f (new_lexer (stream_of_bytes (bytes_of_string s))) (new_lexer (stream_of_bytes (bytes_of_string s'))) c ps) as (y & P' & A); [|exact P|].
    { exists (runes (bytes_of_string s)), None, false, (breaks (runes (bytes_of_string s))),
        (runes (bytes_of_string s')), None, false, (breaks (runes (bytes_of_string s'))), ts.
      split; [apply st_init|]. split; [apply st_init|]. split; [exact I|]. split; [exact R1|]. split; [exact R2|]. lia. }
    destruct A as (r1 & e1 & n1 & k1 & r2 & e2 & n2 & k2 & us & S1 & S2 & Er & _).
    assert (Q : ParseString U f s' = match e2 with Some e => Ok (ParseErr e)
        | None => Ok (ParseOk (option_map (resolve (arrays ps)) (ps_result ps))) end).
    { unfold ParseString, ParseStream, ParseReader. rewrite P'. cbn [rbind relx ps_lx]. rewrite (st_err _ _ _ _ _ S2).
      destruct e2; reflexivity. }
    rewrite (st_err _ _ _ _ _ S1) in H.
    destruct e1 as [e1|], e2 as [e2|]; cbn [errs] in Er; try contradiction; injection H as <-;
      (eexists; split; [exact (ParseString_parses _ _ _ Q)|]).
    - exact Er.
    - reflexivity.
  Qed.

  (** ** Line numbers *)

  Lemma next_suffix n rs : match next U n rs with
    | End => True | Tok _ _ rest => exists p, rs = (p ++ rest)%list | Bad _ rest => exists p, rs = (p ++ rest)%list end.
  Proof.
    destruct (next U n rs) as [|t n' rest|m rest] eqn:E; [exact I| |].
    - apply next_lexeme in E as (g & w & E & _). exists (g ++ w)%list. now rewrite <- app_assoc.
    - unfold next in E. destruct (skip_suffix Plain rs) as (g & G). destruct (skip Plain rs) as [[|r q] s]; [discriminate E|].
      cbn [fst] in G. enough (exists p, r :: q = (p ++ rest)%list) as (p & P).
      { exists (g ++ p)%list. rewrite <- app_assoc. congruence. }
      unfold token_at in E. destruct (is_letter U r).
      + destruct (_ && _) in E; [discriminate E|].
        assert (G1 : forall q w l m rest, word_scan U w l q = (inl m, rest) -> exists p, q = (p ++ rest)%list).
        { clear. induction q as [|a q IH]; intros w l m rest; cbn [word_scan].
          - destruct (l =? ch "-"); [intros H; injection H as _ <-; exists []; reflexivity|discriminate].
          - destruct (isIdentifierChar U a).
            + destruct (_ && _); [intros H; injection H as _ <-; exists [a]; reflexivity|].
              intros H. destruct (IH _ _ _ _ H) as (p & ->). exists (a :: p). reflexivity.
            + destruct (l =? ch "-"); [intros H; injection H as _ <-; exists [a]; reflexivity|discriminate]. }
        destruct (word_scan U [r] r q) as [[m'|w] z] eqn:W; [|discriminate E]. injection E as _ <-.
        destruct (G1 _ _ _ _ _ W) as (p & ->). exists (r :: p). reflexivity.
      + destruct (is_digit U r).
        * destruct (digits_scan U [r] q) as [w z] eqn:W. destruct (digits_scan_inv _ _ _ _ _ W) as (p & _ & -> & _).
          destruct (atoi (text w)); [discriminate E| |]; injection E as _ <-; exists (r :: p); reflexivity.
        * revert E. repeat match goal with |- context [if ?b then _ else _] => destruct b; [discriminate|] end.
          destruct (symbol_code r); [discriminate|]. intros E. injection E as _ <-. exists [r]. reflexivity.
  Qed.

  Lemma breaks_app a b : breaks (a ++ b)%list = breaks a + breaks b.
  Proof. induction a as [|r a IH]; cbn [breaks app]; [lia|]. destruct (isNewline r); lia. Qed.

  Lemma visited_st s x : visited U s x ->
    exists e n consumed, st x (unread x) e n (breaks (runes (bytes_of_string s))) /\
      runes (bytes_of_string s) = (consumed ++ unread x)%list /\
      (e = None \/ exists x0 msg before, visited U s x0 /\ lx_err x0 = e /\
         runes (bytes_of_string s) = (before ++ unread x0)%list /\
         e = Some ("line " ++ sprint_int (1 + breaks before) ++ ": " ++ msg)).
  Proof.
    assert (LOC : forall before rest msg, runes (bytes_of_string s) = (before ++ rest)%list ->
      located (breaks (runes (bytes_of_string s))) rest msg = Some ("line " ++ sprint_int (1 + breaks before) ++ ": " ++ msg)).
    { intros before rest msg E. unfold located. rewrite E, breaks_app.
      replace (breaks before + breaks rest - breaks rest + 1) with (1 + breaks before) by lia. reflexivity. }
    induction 1 as [|x v c v' x' H (e & n & co & S1 & E1 & Q) C|x msg H (e & n & co & S1 & E1 & Q)].
    - exists None, false, []. pose proof (st_init s) as S0. fold (lexer_of s) in S0. rewrite (st_unread _ _ _ _ _ S0). auto.
    - destruct (call_next U x v _ _ _ _ S1) as (c1 & v1 & x1 & C1 & L1).
      destruct (call_det U _ _ _ _ _ _ _ _ C C1) as (<- & <- & <-). clear C1.
      pose proof (next_suffix n (unread x)) as SF.
      destruct (next U n (unread x)) as [|t n' rest|m rest]; cbn [lexed] in L1.
      + destruct L1 as (_ & _ & L1). exists e, false, (co ++ unread x)%list. rewrite (st_unread _ _ _ _ _ L1), app_nil_r. auto.
      + destruct L1 as (_ & _ & _ & L1). destruct SF as (p & SF). exists e, n', (co ++ p)%list.
        rewrite (st_unread _ _ _ _ _ L1). split; [exact L1|]. split; [|exact Q]. rewrite <- app_assoc, <- SF. exact E1.
      + destruct L1 as (_ & _ & num & L1). destruct SF as (p & SF). exists (located (breaks (runes (bytes_of_string s))) rest m), num, (co ++ p)%list.
        rewrite (st_unread _ _ _ _ _ L1). split; [exact L1|].
        assert (E2 : runes (bytes_of_string s) = ((co ++ p) ++ rest)%list) by (rewrite <- app_assoc, <- SF; exact E1).
        split; [exact E2|]. right. exists x', m, (co ++ p)%list. split; [econstructor; eassumption|].
        rewrite (st_unread _ _ _ _ _ L1). split; [exact (st_err _ _ _ _ _ L1)|]. split; [exact E2|]. now apply LOC.
    - exists (located (breaks (runes (bytes_of_string s))) (unread x) msg), n, co.
      change (unread (Error x msg)) with (unread x). split; [eapply st_Error; exact S1|]. split; [exact E1|].
      right. exists (Error x msg), msg, co. split; [now constructor|].
      split; [exact (st_err _ _ _ _ _ (st_Error _ _ _ _ _ msg S1))|]. split; [exact E1|]. now apply LOC.
  Qed.

  Theorem parse_error_line s e : parses U s (ParseErr e) ->
    exists x msg before, visited U s x /\ lx_err x = Some e /\
      runes (bytes_of_string s) = (before ++ unread x)%list /\
      e = "line " ++ sprint_int (1 + breaks before) ++ ": " ++ msg.
  Proof.
    intros [n H]. specialize (H n (le_n _)). unfold ParseString, ParseStream, ParseReader in H.
    destruct (yyParse (Lex stream_ops U n) Error n (new_lexer (stream_of_bytes (bytes_of_string s)))) as [[c ps]| |] eqn:P; try discriminate H.
    cbn [rbind] in H. apply (yyParse_keeps (Lex stream_ops U n) Error (visited U s)) in P.
    - destruct (visited_st _ _ P) as (e0 & n0 & co & S1 & E1 & Q). rewrite (st_err _ _ _ _ _ S1) in H.
      destruct e0 as [e0|]; [|discriminate H]. injection H as ->. destruct Q as [Q|(x0 & msg & be & V & EE & E & Q)]; [discriminate Q|].
      exists x0, msg, be. split; [exact V|]. split; [exact EE|]. split; [exact E|]. congruence.
    - intros x v c' v' x' V E. econstructor; [exact V|]. exact (Lex_call U _ _ _ _ _ _ E).
    - intros x m V. now constructor.
    - constructor.
  Qed.
End Runs.

(** ** Readers that keep failing *)

Lemma feed_term U fuel x0 v0 ts x v : feed (Lex stream_ops U fuel) x0 v0 ts x v -> s_term (lx_rd x) = s_term (lx_rd x0).
Proof.
  induction 1 as [|x0 v0 ts x v c v'' x'' F IH E C]; [reflexivity|].
  pose proof (Lex_ok U fuel x v) as H. rewrite E in H. destruct H as [(H & _) _]. congruence.
Qed.

Lemma rune_term s s' r e : stream_rune s = (s', (r, e)) -> s_term s' = s_term s.
Proof.
  unfold stream_rune. destruct (lead_bytes 4 (s_ev s)) as [|b bs].
  - destruct (stream_err s). intros H. injection H as <- _ _. reflexivity.
  - intros H. assert (E : s' = fst (let '(r, n) := decode_rune (b :: bs) in
      ({| s_ev := skipn n (s_ev s); s_term := s_term s; s_last := Some (firstn n (b :: bs)) |}, (r, None : option rd_err))))
      by (rewrite H; reflexivity). subst s'. destruct (decode_rune (b :: bs)). reflexivity.
Qed.

Theorem stream_fail_rejected U fuel s msg r : s_term s = TFail msg -> ParseStream U fuel s = Ok r -> exists e, r = ParseErr e.
Proof.
  intros T H. unfold ParseStream in H. pose proof (reader_outcome stream_ops U fuel s r H) as O.
  destruct O as [O|(c & ps & m & w & x & v & v' & _ & _ & F & Lx & _)]; [exact O|exfalso].
  apply feed_term in F. cbn [new_lexer lx_rd] in F.
  refine (Lex_not_end stream_ops U (fun rd => s_term rd = TFail msg) _ _ fuel x v 0 v' (ps_lx ps) _ Lx eq_refl).
  - intros rd K. cbn [stream_ops rd_rune]. destruct (stream_rune rd) as [rd' [q e]] eqn:E. cbn [fst snd].
    pose proof (rune_term _ _ _ _ E) as TT. split; [congruence|]. intros ->. revert E. unfold stream_rune.
    destruct (lead_bytes 4 (s_ev rd)) as [|b bs].
    + unfold stream_err. rewrite K. destruct (s_ev rd) as [|[|] ?]; discriminate.
    + destruct (decode_rune (b :: bs)). discriminate.
  - intros rd rd' K E. cbn [stream_ops rd_unread] in E. unfold stream_unread in E. destruct (s_last rd); [|discriminate E].
    injection E as <-. exact K.
  - congruence.
Qed.

(** ** END *)

Lemma rhs_no_end_check : forallb (fun n => (n =? 1) || forallb (fun X => negb (X + 57342 =? T_END)) (rhs n)) rules = true.
Proof. vm_compute. reflexivity. Qed.

Lemma yields_no_end T i : yields T i ->
  match i with
  | Tk t => tk_kind t <> T_END
  | Nt N _ => N <> N_ModuleDefinition
  end -> Forall (fun t => tk_kind t <> T_END) (leaves T).
Proof.
  revert T i. refine (yields_rect _ _ _).
  - intros t K. cbn [leaves]. now repeat constructor.
  - intros n N its v l R _ IH K.
    destruct (rule_shape _ _ _ _ R) as (Sy & Nn & Hn).
    assert (N1 : n <> 1).
    { intros ->. rewrite (proj1 module_index) in Nn. now injection Nn as <-. }
    pose proof rhs_no_end_check as C. rewrite forallb_forall in C.
    specialize (C n (proj2 (in_rules n) Hn)). cbv beta in C. apply Z.eqb_neq in N1. rewrite N1 in C.
    cbn [orb] in C. rewrite forallb_forall in C.
    assert (M : forall X, In X (rhs n) -> X <> - lhs 1) by (intros X; now apply rhs_no_module).
    cbn [leaves]. clear R Nn Hn N1 K. revert its IH Sy C M. generalize (rhs n) as r.
    induction l as [|T l IHl]; intros r its IH Sy C M; [constructor|].
    inversion IH as [|? i ? its' P1 P2]; subst. inversion Sy as [|X ? r' ? S1 S2]; subst.
    cbn [flat_map]. apply Forall_app. split.
    + apply P1. destruct i as [t|N' v']; cbn [is_sym] in S1; destruct S1 as [S0 S1].
      * specialize (C X (or_introl eq_refl)). apply negb_true_iff, Z.eqb_neq in C. congruence.
      * intros ->. apply (M X (or_introl eq_refl)).
        destruct module_index as [_ D]. rewrite forallb_forall in D.
        destruct (le_lt_dec (length nonterms) (Z.to_nat (- X))) as [G|G].
        { rewrite nth_overflow in S1 by assumption. discriminate. }
        specialize (D (Z.to_nat (- X))). rewrite S1, Z.eqb_eq, Z2Nat.id in D by lia.
        rewrite <- D; [lia|]. apply in_seq. split; [lia|exact G].
    + eapply IHl; try eassumption; intros Y Hy; [apply C|apply M]; now right.
Qed.

Lemma derives_no_end N w v : derives N w v -> N <> N_ModuleDefinition -> Forall (fun t => tk_kind t <> T_END) w.
Proof. intros (T & Y & <-). exact (yields_no_end T _ Y). Qed.
