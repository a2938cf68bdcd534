(** A syntax error depends only on the text up to the offending token.

    First the driver: two lexers that answer alike until the first reaches its end
    make it do the same, unless it complains about the end.  Then the lexical items of
    a text and of a continuation of it. *)
From Coq Require Import ZArith String Ascii Bool List Lia.
From Verif Require Import GoBase Utf8 Unicode Reader Stream Tokens Tables Reserved Ast Actions Lexer Grammar Driver Parser
  LexErr LexTotal LexSpec LexEq LexRuns LexFacts DriverSim ParserFacts ParserRuns.
Import ListNotations.
Local Open Scope string_scope.
Local Open Scope list_scope.
Local Open Scope Z_scope.

(** ** The driver *)

Lemma chk_check : forallb (fun c => negb (c =? 1) && negb (c =? yyErrCode)) yyChk = true.
Proof. vm_compute. reflexivity. Qed.

Lemma tab_in t i c : tab t i = Some c -> In c t.
Proof. unfold tab. destruct (i <? 0); [discriminate|]. apply nth_error_In. Qed.

Lemma chk_not a c : rtab (tab yyChk a) = Ok c -> c <> 1 /\ c <> yyErrCode.
Proof.
  destruct (tab yyChk a) as [x|] eqn:E; [|discriminate]. cbn [rtab]. intros H. injection H as <-. apply tab_in in E.
  pose proof chk_check as C. rewrite forallb_forall in C. specialize (C x E). cbv beta in C. clear E.
  apply andb_true_iff in C as [C1 C2]. apply negb_true_iff, Z.eqb_neq in C1. apply negb_true_iff, Z.eqb_neq in C2. auto.
Qed.

Lemma error_pop_never k : forall yyS o, error_pop k yyS = Ok o -> o = None.
Proof.
  induction k as [|k IH]; intros yyS o; cbn [error_pop]; [intros H; now injection H|].
  destruct (rtab (nth_error yyS k)) as [sl| |]; try discriminate. cbn [rbind].
  destruct (rtab (tab yyPact (sl_yys sl))) as [n0| |]; try discriminate. cbn [rbind].
  destruct (_ && _); [|apply IH].
  destruct (rtab (tab yyAct _)) as [a| |]; try discriminate. cbn [rbind].
  destruct (rtab (tab yyChk a)) as [c| |] eqn:E; try discriminate. cbn [rbind].
  apply chk_not in E as [_ E]. apply Z.eqb_neq in E. rewrite E. apply IH.
Qed.

Lemma translate_end c : c <= 0 -> yytranslate c = Ok 1.
Proof.
  intros H. unfold yytranslate. apply Z.leb_le in H. rewrite H. vm_compute. reflexivity.
Qed.

Section Ended.
  Context {L1 L2 : Type}.
  Context (lex1 : L1 -> lexval -> res (Z * lexval * L1)) (err1 : L1 -> string -> L1).
  Context (lex2 : L2 -> lexval -> res (Z * lexval * L2)) (err2 : L2 -> string -> L2).
  Context (Q : L1 -> L2 -> Prop) (En : L1 -> Prop).
  Context (Q_lex : forall x y v c v' x', Q x y -> lex1 x v = Ok (c, v', x') ->
             (exists y', lex2 y v = Ok (c, v', y') /\ Q x' y') \/ (c <= 0 /\ En x')).
  Context (En_lex : forall x v c v' x', En x -> lex1 x v = Ok (c, v', x') -> c <= 0 /\ En x').

  (** The end has been seen. *)
  Definition ended (ps : pstate L1) : Prop := En (ps_lx ps) /\ ps_token ps = 1 /\ ps_Errflag ps = 0.

  (** A final lexer after the end: no error was reported by the parser, or one about the
      end. *)
  Definition end_lx (z : L1) : Prop :=
    exists x, En x /\ (z = x \/ exists s m, yyErrorMessage s 1 = Ok m /\ z = err1 x m).

  Definition ended_out (o : outcome L1) : Prop :=
    match o with Goto _ ps => ended ps | Return _ ps => end_lx (ps_lx ps) end.

  Lemma need_ended ps ps1 : ended ps -> need_token lex1 ps = Ok ps1 -> ended ps1.
  Proof.
    intros (H1 & H2 & H3). unfold need_token, yylex1. destruct (ps_char ps <? 0); [|intros E; injection E as <-; now split].
    destruct (lex1 (ps_lx ps) (ps_lval ps)) as [[[c v] x]| |] eqn:E; try discriminate. cbn [rbind].
    destruct (En_lex _ _ _ _ _ H1 E) as (C & N). rewrite (translate_end c C). cbn [rbind]. intros F. injection F as <-.
    split; [exact N|]. split; [reflexivity|exact H3].
  Qed.

  Lemma error_ended ps o : ended ps -> step_error err1 ps = Ok o -> ended_out o.
  Proof.
    intros (H1 & H2 & H3). unfold step_error. rewrite H3. cbn [Z.eqb]. rewrite H2.
    destruct (yyErrorMessage (ps_state ps) 1) as [m| |] eqn:M; try discriminate. cbn [rbind].
    destruct (error_pop _ _) as [o'| |] eqn:P; try discriminate. cbn [rbind]. rewrite (error_pop_never _ _ _ P).
    intros E. injection E as <-. cbn. exists (ps_lx ps). split; [exact H1|]. right. eauto.
  Qed.

  Lemma reduce_ended (ps : pstate L1) n o : ended ps -> step_reduce ps n = Ok o -> ended_out o.
  Proof.
    intros H. unfold step_reduce.
    destruct (rtab (tab yyR2 n)) as [r| |]; try discriminate. cbn [rbind].
    destruct (grow _ _ _) as [old yyS]. destruct (_ || _); [discriminate|].
    destruct (rtab (tab yyR1 n)) as [lh| |]; try discriminate. cbn [rbind].
    destruct (rtab (tab yyPgo lh)) as [g| |]; try discriminate. cbn [rbind].
    match goal with |- rbind ?e _ = _ -> _ => destruct e as [st| |]; try discriminate end. cbn [rbind].
    destruct (rtab (nth_error _ _)) as [act| |]; try discriminate. cbn [rbind].
    destruct (act _ _) as [v res]. intros E. injection E as <-. exact H.
  Qed.

  Lemma newstate_ended ps ps1 o : need_token lex1 ps = Ok ps1 -> ended ps1 ->
    (exists n, rtab (tab yyPact (ps_state ps)) = Ok n /\ (n <=? yyFlag) = false) -> step_newstate lex1 ps = Ok o -> ended_out o.
  Proof.
    intros N H (n & E1 & E2). unfold step_newstate. rewrite E1. cbn [rbind]. rewrite E2, N. cbn [rbind].
    destruct (_ || _); [intros E; injection E as <-; exact H|].
    destruct (rtab (tab yyAct _)) as [a| |]; try discriminate. cbn [rbind].
    destruct (rtab (tab yyChk a)) as [c| |] eqn:C; try discriminate. cbn [rbind].
    apply chk_not in C as [C _]. destruct H as (H1 & H2 & H3). rewrite H2. apply Z.eqb_neq in C. rewrite C.
    intros E. injection E as <-. now split.
  Qed.

  Lemma default_ended ps ps1 o : need_token lex1 ps = Ok ps1 -> ended ps1 ->
    rtab (tab yyDef (ps_state ps)) = Ok (-2) -> step_default lex1 err1 ps = Ok o -> ended_out o.
  Proof.
    intros N H E1. unfold step_default. rewrite E1. cbn [rbind]. change (-2 =? -2) with true. cbv iota. rewrite N. cbn [rbind].
    destruct (exca_find _ _ _) as [i| |]; try discriminate. cbn [rbind].
    destruct (exca_lookup _ _ _) as [n1| |]; try discriminate. cbn [rbind].
    destruct (n1 <? 0); [intros E; injection E as <-; exists (ps_lx ps1); split; [apply H|now left]|].
    destruct (n1 =? 0); [now apply error_ended|now apply reduce_ended].
  Qed.

  Lemma step_ended l ps o : ended ps -> step lex1 err1 l ps = Ok o -> ended_out o.
  Proof.
    intros H. destruct l; cbn [step].
    - unfold step_stack. destruct (grow _ _ _) as [old yyS]. destruct (_ <? 0); [discriminate|]. intros E. injection E as <-. exact H.
    - intros E. pose proof E as E0. unfold step_newstate in E.
      destruct (rtab (tab yyPact (ps_state ps))) as [n| |] eqn:P; try discriminate E. cbn [rbind] in E.
      destruct (n <=? yyFlag) eqn:F; [injection E as <-; exact H|].
      destruct (need_token lex1 ps) as [ps1| |] eqn:N; try discriminate E.
      apply (newstate_ended ps ps1 o N (need_ended _ _ H N)); [eauto|exact E0].
    - intros E. pose proof E as E0. unfold step_default in E.
      destruct (rtab (tab yyDef (ps_state ps))) as [n| |] eqn:P; try discriminate E. cbn [rbind] in E.
      destruct (Z.eqb_spec n (-2)) as [->|_].
      + destruct (need_token lex1 ps) as [ps1| |] eqn:N; try discriminate E.
        exact (default_ended ps ps1 o N (need_ended _ _ H N) P E0).
      + destruct (n =? 0); [now apply (error_ended ps)|now apply (reduce_ended ps n)].
  Qed.

  Lemma run_ended fuel : forall l ps c ps', ended ps -> run lex1 err1 fuel l ps = Ok (c, ps') -> end_lx (ps_lx ps').
  Proof.
    induction fuel as [|f IH]; intros l ps c ps' H; cbn [run]; [discriminate|].
    destruct (step lex1 err1 l ps) as [o| |] eqn:E; try discriminate. cbn [rbind]. apply (step_ended _ _ _ H) in E.
    destruct o as [l' ps1|c1 ps1]; cbn [ended_out] in E; [now apply IH|]. intros F. injection F as <- <-. exact E.
  Qed.

  (** ** Until then *)

  Notation relx := (@relx L1 L2).
  Notation relo := (@relo L1 L2).

  (** How the lexers end up. *)
  Definition both_out (o : outcome L1) (y : L2) : Prop :=
    match o with
    | Goto _ ps => Q (ps_lx ps) y /\ ps_Errflag ps = 0
    | Return _ ps => Q (ps_lx ps) y \/ exists x y0 m, Q x y0 /\ ps_lx ps = err1 x m /\ y = err2 y0 m
    end.

  Lemma need_both ps y ps1 : Q (ps_lx ps) y -> ps_Errflag ps = 0 -> need_token lex1 ps = Ok ps1 ->
    (exists y', need_token lex2 (relx ps y) = Ok (relx ps1 y') /\ Q (ps_lx ps1) y' /\ ps_Errflag ps1 = 0) \/ ended ps1.
  Proof.
    intros H F0. unfold need_token, yylex1. cbn [DriverSim.relx ps_char ps_lx ps_lval].
    destruct (ps_char ps <? 0); [|intros E; injection E as <-; left; exists y; auto].
    destruct (lex1 (ps_lx ps) (ps_lval ps)) as [[[c v] x]| |] eqn:E; try discriminate. cbn [rbind].
    destruct (Q_lex _ _ _ _ _ _ H E) as [(y' & -> & H')|(C & N)]; cbn [rbind].
    - destruct (yytranslate c); try discriminate. cbn [rbind]. intros F. injection F as <-. left. exists y'. auto.
    - rewrite (translate_end c C). cbn [rbind]. intros F. injection F as <-. right. split; [exact N|]. split; [reflexivity|exact F0].
  Qed.

  Lemma error_both ps y o : Q (ps_lx ps) y -> ps_Errflag ps = 0 -> step_error err1 ps = Ok o ->
    exists y', step_error err2 (relx ps y) = Ok (relo o y') /\ both_out o y'.
  Proof.
    intros H F0. unfold step_error. cbn [DriverSim.relx ps_Errflag ps_state ps_token]. rewrite F0. cbn [Z.eqb].
    destruct (yyErrorMessage _ _) as [m| |]; try discriminate. cbn [rbind with_look ps_p ps_S].
    destruct (error_pop _ _) as [o'| |] eqn:P; try discriminate. cbn [rbind]. rewrite (error_pop_never _ _ _ P).
    intros E. injection E as <-. exists (err2 y m). split; [reflexivity|]. right. exists (ps_lx ps), y, m. auto.
  Qed.

  Lemma reduce_flag (ps : pstate L1) n o : step_reduce ps n = Ok o -> match o with Goto _ ps' => ps_Errflag ps' = ps_Errflag ps | _ => False end.
  Proof.
    unfold step_reduce.
    destruct (rtab (tab yyR2 n)) as [r| |]; try discriminate. cbn [rbind].
    destruct (grow _ _ _) as [old yyS]. destruct (_ || _); [discriminate|].
    destruct (rtab (tab yyR1 n)) as [lh| |]; try discriminate. cbn [rbind].
    destruct (rtab (tab yyPgo lh)) as [g| |]; try discriminate. cbn [rbind].
    match goal with |- rbind ?e _ = _ -> _ => destruct e as [st| |]; try discriminate end. cbn [rbind].
    destruct (rtab (nth_error _ _)) as [act| |]; try discriminate. cbn [rbind].
    destruct (act _ _) as [v res]. intros E. injection E as <-. reflexivity.
  Qed.

  Lemma reduce_both ps n y o : Q (ps_lx ps) y -> ps_Errflag ps = 0 -> step_reduce ps n = Ok o ->
    step_reduce (relx ps y) n = Ok (relo o y) /\ both_out o y.
  Proof.
    intros H F0 E. pose proof (reduce_flag _ _ _ E) as F. destruct (reduce_sim ps y n o E) as (E1 & E2). split; [exact E1|].
    destruct o as [l ps'|c ps']; [|contradiction]. cbn [lx_of] in E2. cbn [both_out]. rewrite E2, F. auto.
  Qed.

  Lemma step_both l ps y o : Q (ps_lx ps) y -> ps_Errflag ps = 0 -> step lex1 err1 l ps = Ok o ->
    (exists y', step lex2 err2 l (relx ps y) = Ok (relo o y') /\ both_out o y') \/ ended_out o.
  Proof.
    intros H F0. destruct l; cbn [step].
    - unfold step_stack. cbn [DriverSim.relx ps_p ps_old ps_S]. destruct (grow _ _ _) as [old yyS].
      destruct (_ <? 0); [discriminate|]. intros E. injection E as <-. left. exists y. split; [reflexivity|]. now split.
    - intros E. pose proof E as E0. unfold step_newstate in *. cbn [DriverSim.relx ps_state].
      destruct (rtab (tab yyPact (ps_state ps))) as [n| |] eqn:P; try discriminate E. cbn [rbind] in *.
      destruct (n <=? yyFlag) eqn:F; [injection E as <-; left; exists y; split; [reflexivity|now split]|].
      destruct (need_token lex1 ps) as [ps1| |] eqn:N; try discriminate E. cbn [rbind] in E.
      destruct (need_both _ _ _ H F0 N) as [(y' & -> & H' & F1)|K].
      2: { right. apply (newstate_ended ps ps1 o N K); [eauto|]. unfold step_newstate. rewrite P. cbn [rbind]. now rewrite F, N. }
      cbn [rbind DriverSim.relx ps_token]. revert E.
      destruct (_ || _); [intros E; injection E as <-; left; exists y'; split; [reflexivity|now split]|].
      destruct (rtab (tab yyAct _)) as [a| |]; try discriminate. cbn [rbind].
      destruct (rtab (tab yyChk a)) as [c| |]; try discriminate. cbn [rbind].
      destruct (c =? ps_token ps1); intros E; injection E as <-; left; exists y'; (split; [reflexivity|split; [exact H'|]]); [|exact F1].
      cbn. rewrite F1. reflexivity.
    - intros E. pose proof E as E0. unfold step_default in *. cbn [DriverSim.relx ps_state].
      destruct (rtab (tab yyDef (ps_state ps))) as [n| |] eqn:P; try discriminate E. cbn [rbind] in *.
      destruct (Z.eqb_spec n (-2)) as [->|_].
      + destruct (need_token lex1 ps) as [ps1| |] eqn:N; try discriminate E. cbn [rbind] in E.
        destruct (need_both _ _ _ H F0 N) as [(y' & -> & H' & F1)|K].
        2: { right. apply (default_ended ps ps1 o N K P). unfold step_default. rewrite P. cbn [rbind]. change (-2 =? -2) with true. cbv iota. rewrite N. exact E. }
        cbn [rbind DriverSim.relx ps_token ps_state]. revert E.
        destruct (exca_find _ _ _) as [i| |]; try discriminate. cbn [rbind].
        destruct (exca_lookup _ _ _) as [n1| |]; try discriminate. cbn [rbind].
        destruct (n1 <? 0); [intros E; injection E as <-; left; exists y'; split; [reflexivity|now left]|].
        destruct (n1 =? 0); intros E; left; [now apply error_both|exists y'; now apply reduce_both].
      + left. destruct (n =? 0); [now apply error_both|exists y; now apply reduce_both].
  Qed.

  Lemma run_both fuel : forall l ps y c ps', Q (ps_lx ps) y -> ps_Errflag ps = 0 -> run lex1 err1 fuel l ps = Ok (c, ps') ->
    (exists y', run lex2 err2 fuel l (relx ps y) = Ok (c, relx ps' y') /\ both_out (Return c ps') y') \/ end_lx (ps_lx ps').
  Proof.
    induction fuel as [|f IH]; intros l ps y c ps' H F0; cbn [run]; [discriminate|].
    destruct (step lex1 err1 l ps) as [o| |] eqn:E; try discriminate. cbn [rbind].
    destruct (step_both _ _ _ _ H F0 E) as [(y' & -> & H')|K]; cbn [rbind].
    - destruct o as [l' ps1|c1 ps1]; cbn [DriverSim.relo both_out] in *.
      + destruct H' as [H' F1]. now apply IH.
      + intros F. injection F as <- <-. left. exists y'. split; [reflexivity|exact H'].
    - destruct o as [l' ps1|c1 ps1]; cbn [ended_out] in K.
      + intros R. right. exact (run_ended _ _ _ _ _ K R).
      + intros F. injection F as <- <-. right. exact K.
  Qed.
End Ended.

(** ** Runes of a continued text *)

Lemma first_low b n lo hi : utf8_first b = Some (n, lo, hi) -> 128 <= lo.
Proof.
  unfold utf8_first. repeat match goal with |- context [if ?c then _ else _] => destruct c end;
    intros F; try discriminate F; injection F as _ <- _; lia.
Qed.

Lemma low_range lo w hi : 128 <= lo -> w < 128 -> in_range lo w hi = false.
Proof. intros A B. unfold in_range. replace (lo <=? w) with false by (symmetry; apply Z.leb_gt; lia). reflexivity. Qed.

Ltac nat_tests :=
  repeat match goal with
  | |- context [(?a <? ?b)%nat] => destruct (Nat.ltb_spec a b)
  | |- context [(?a =? ?b)%nat] => destruct (Nat.eqb_spec a b)
  end; cbn [app length] in *; try reflexivity; try lia.

Lemma decode_app_low l w z : l <> [] -> w < 128 -> decode_rune (l ++ w :: z) = decode_rune l.
Proof.
  intros N W. destruct l as [|b0 l]; [congruence|]. clear N. unfold decode_rune. cbn [app].
  destruct (b0 <? rune_self); [reflexivity|]. destruct (utf8_first b0) as [[[n lo] hi]|] eqn:F; [|reflexivity].
  pose proof (first_low _ _ _ _ F) as LO. apply first_length in F.
  destruct l as [|b1 l]; cbn [app].
  { rewrite (low_range _ _ _ LO W). cbn [negb]. nat_tests. }
  cbn [length]. rewrite app_length. cbn [length].
  destruct (in_range lo b1 hi) eqn:R1; cbn [negb]; [|nat_tests].
  destruct l as [|b2 l]; cbn [app].
  { rewrite (low_range 128 w 191) by lia. cbn [negb]. nat_tests. }
  destruct (in_range 128 b2 191) eqn:R2; cbn [negb]; [|nat_tests].
  destruct l as [|b3 l]; cbn [app].
  { rewrite (low_range 128 w 191) by lia. cbn [negb]. nat_tests. }
  nat_tests.
Qed.

Lemma runes_app_low w z : w < 128 -> forall bs, runes (bs ++ w :: z) = runes bs ++ w :: runes z.
Proof.
  intros W bs. remember (length bs) as n eqn:Hn. revert bs Hn. induction n as [n IH] using lt_wf_ind. intros bs ->.
  destruct bs as [|b bs]; [exact (runes_low w z W)|].
  rewrite (runes_cons ((b :: bs) ++ w :: z)) by discriminate. rewrite (runes_cons (b :: bs)) by discriminate.
  rewrite decode_app_low by (discriminate || exact W).
  pose proof (decode_width (b :: bs) ltac:(discriminate)) as K. destruct (decode_rune (b :: bs)) as [r k]. cbn [fst snd] in *.
  cbn [app]. f_equal. change (b :: bs ++ w :: z) with ((b :: bs) ++ w :: z). rewrite skipn_app.
  replace (k - length (b :: bs))%nat with 0%nat by lia. cbn [skipn].
  apply (IH (length (skipn k (b :: bs)))); [|reflexivity]. rewrite skipn_length. cbn [length] in *. lia.
Qed.

(** ** Lexical items of a continued text *)

Section Items.
  Context (U : unicode_tables) (w : Z) (q : list Z).
  Context (W : isWhitespace w = true).

  Lemma white_cases : w = 9 \/ w = 10 \/ w = 11 \/ w = 12 \/ w = 13 \/ w = 32.
  Proof. unfold isWhitespace in W. repeat (apply orb_true_iff in W as [W|W]); apply Z.eqb_eq in W; auto 10. Qed.

  Lemma white_ident : isIdentifierChar U w = false.
  Proof. destruct white_cases as [-> |[-> |[-> |[-> |[-> | -> ]]]]]; reflexivity. Qed.

  Lemma white_digit : is_digit U w = false.
  Proof. destruct white_cases as [-> |[-> |[-> |[-> |[-> | -> ]]]]]; reflexivity. Qed.

  Lemma white_not c : 33 <= c -> (w =? c) = false.
  Proof. intros H. apply Z.eqb_neq. destruct white_cases as [-> |[-> |[-> |[-> |[-> | -> ]]]]]; lia. Qed.

  Lemma hd_app rs c : 33 <= c -> (hd 0 (rs ++ w :: q) =? c) = (hd 0 rs =? c).
  Proof.
    intros H. destruct rs as [|r rs]; [|reflexivity]. cbn [app hd]. rewrite (white_not c H). symmetry. apply Z.eqb_neq. lia.
  Qed.

  Lemma skip_app : forall rs m, fst (skip m rs) <> [] ->
    skip m (rs ++ w :: q) = (fst (skip m rs) ++ w :: q, snd (skip m rs)).
  Proof.
    induction rs as [|r rs IH]; intros m; [destruct m; cbn; congruence|]. cbn [app].
    destruct m as [|hy|d sl st0]; cbn [skip].
    - destruct (isWhitespace r); [cbn [fst snd]; intros H; rewrite IH by exact H; reflexivity|].
      rewrite !hd_app by (cbn; lia).
      destruct ((r =? ch "-") && _); [cbn [fst snd]; intros H; rewrite IH by exact H; reflexivity|].
      destruct ((r =? ch "/") && _); [cbn [fst snd]; intros H; rewrite IH by exact H; reflexivity|]. reflexivity.
    - destruct (isNewline r); [cbn [fst snd]; intros H; rewrite IH by exact H; reflexivity|].
      destruct (r =? ch "-"); [destruct hy|]; cbn [fst snd]; intros H; rewrite IH by exact H; reflexivity.
    - destruct (r =? ch "/"); [destruct st0; [destruct d|]|destruct (r =? ch "*"); [destruct sl|]]; cbn [fst snd]; intros H; rewrite IH by exact H; reflexivity.
  Qed.

  Lemma word_scan_app : forall rs ws l, (forall m, word_scan U ws l rs = (inl m, []) -> False) ->
    word_scan U ws l (rs ++ w :: q) = (fst (word_scan U ws l rs), snd (word_scan U ws l rs) ++ w :: q).
  Proof.
    induction rs as [|r rs IH]; intros ws l; cbn [word_scan app].
    - rewrite white_ident. destruct (l =? ch "-"); [intros H; exfalso; eapply H; reflexivity|reflexivity].
    - destruct (isIdentifierChar U r).
      + destruct (_ && _); [reflexivity|]. apply IH.
      + destruct (l =? ch "-"); reflexivity.
  Qed.

  Lemma digits_scan_app : forall rs ws, digits_scan U ws (rs ++ w :: q) = (fst (digits_scan U ws rs), snd (digits_scan U ws rs) ++ w :: q).
  Proof.
    induction rs as [|r rs IH]; intros ws; cbn [digits_scan app]; [now rewrite white_digit|]. destruct (is_digit U r); [apply IH|reflexivity].
  Qed.

  Lemma starts_app p : Forall (fun c => 33 <= c) p -> forall rs, starts p (rs ++ w :: q) = starts p rs.
  Proof.
    induction 1 as [|c p C _ IH]; intros rs; [reflexivity|]. destruct rs as [|r rs]; cbn [app starts]; [|now rewrite IH].
    rewrite Z.eqb_sym, (white_not c C). reflexivity.
  Qed.

  Lemma starts_skip p rs : starts p rs = true -> skipn (length p) (rs ++ w :: q) = skipn (length p) rs ++ w :: q.
  Proof.
    intros H. rewrite skipn_app. enough (length p <= length rs)%nat as E by (replace (length p - length rs)%nat with 0%nat by lia; reflexivity).
    revert rs H. induction p as [|c p IH]; intros rs H; [cbn; lia|]. destruct rs as [|r rs]; [discriminate H|].
    cbn [starts] in H. apply andb_true_iff in H as [_ H]. apply IH in H. cbn [length]. lia.
  Qed.

  (** The item of the continued text, unless the item reaches the end with an error. *)
  Definition more (i : item) : item :=
    match i with
    | End => End
    | Tok t n rest => Tok t n (rest ++ w :: q)
    | Bad m rest => Bad m (rest ++ w :: q)
    end.

  Lemma token_at_app a r rs : (forall m, token_at U a r rs = Bad m [] -> False) -> token_at U a r (rs ++ w :: q) = more (token_at U a r rs).
  Proof.
    unfold token_at. destruct (is_letter U r).
    { destruct (_ && _); [reflexivity|]. intros H. rewrite word_scan_app.
      - destruct (word_scan U [r] r rs) as [[m|ws] rest]; reflexivity.
      - intros m E. rewrite E in H. now apply (H m). }
    destruct (is_digit U r).
    { intros _. rewrite digits_scan_app. destruct (digits_scan U [r] rs) as [ws rest]. cbn [fst snd]. now destruct (atoi (text ws)). }
    intros _. rewrite !starts_app by (repeat constructor; cbn; lia).
    destruct ((r =? ch ":") && starts [ch ":"; ch "="] rs) eqn:E1.
    { apply andb_true_iff in E1 as [_ E1]. cbn [more]. f_equal. exact (starts_skip _ _ E1). }
    destruct ((r =? ch ".") && starts [ch "."; ch "."] rs) eqn:E2.
    { apply andb_true_iff in E2 as [_ E2]. cbn [more]. f_equal. exact (starts_skip _ _ E2). }
    destruct ((r =? ch ".") && starts [ch "."] rs) eqn:E3.
    { apply andb_true_iff in E3 as [_ E3]. cbn [more]. f_equal. exact (starts_skip _ _ E3). }
    destruct ((r =? ch "[") && starts [ch "["] rs) eqn:E4.
    { apply andb_true_iff in E4 as [_ E4]. cbn [more]. f_equal. exact (starts_skip _ _ E4). }
    destruct ((r =? ch "]") && starts [ch "]"] rs) eqn:E5.
    { apply andb_true_iff in E5 as [_ E5]. cbn [more]. f_equal. exact (starts_skip _ _ E5). }
    destruct (symbol_code r); reflexivity.
  Qed.

  Lemma next_app n rs : next U n rs <> End -> (forall m, next U n rs = Bad m [] -> False) -> next U n (rs ++ w :: q) = more (next U n rs).
  Proof.
    unfold next. intros E B. pose proof (skip_app rs Plain) as S. destruct (skip Plain rs) as [[|r rs'] s]; [congruence|].
    cbn [fst snd] in S. rewrite S by discriminate. cbn [app]. now apply token_at_app.
  Qed.
End Items.

(** ** Messages *)

Fixpoint no_colon (s : string) : bool :=
  match s with
  | EmptyString => true
  | String c s' => negb (Ascii.eqb c ":") && no_colon s'
  end.

Lemma digit_no_colon d : 0 <= d < 10 -> Ascii.eqb (ascii_of_byte (48 + d)) ":" = false.
Proof.
  intros H. assert (C : d = 0 \/ d = 1 \/ d = 2 \/ d = 3 \/ d = 4 \/ d = 5 \/ d = 6 \/ d = 7 \/ d = 8 \/ d = 9) by lia.
  repeat destruct C as [-> |C]; try reflexivity. subst d. reflexivity.
Qed.

Lemma dec_digits_no_colon fuel : forall z acc, no_colon acc = true -> no_colon (dec_digits fuel z acc) = true.
Proof.
  induction fuel as [|f IH]; intros z acc H; cbn [dec_digits]; [exact H|].
  assert (G : no_colon (String (ascii_of_byte (48 + z mod 10)) acc) = true).
  { cbn [no_colon]. rewrite digit_no_colon by (apply Z.mod_pos_bound; lia). exact H. }
  destruct (z <? 10); [exact G|]. now apply IH.
Qed.

Lemma sprint_no_colon z : no_colon (sprint_int z) = true.
Proof.
  unfold sprint_int. destruct (z <? 0).
  - cbn [no_colon]. rewrite (dec_digits_no_colon _ _ ""); reflexivity.
  - rewrite (dec_digits_no_colon _ _ ""); reflexivity.
Qed.

Lemma colon_split : forall a b x y, no_colon a = true -> no_colon b = true ->
  (a ++ String ":" x = b ++ String ":" y)%string -> x = y.
Proof.
  induction a as [|c a IH]; intros [|d b] x y A B E; cbn [append no_colon] in *.
  - now injection E.
  - injection E as <- _. discriminate B.
  - injection E as -> _. discriminate A.
  - injection E as _ E. apply andb_true_iff in A as [_ A]. apply andb_true_iff in B as [_ B]. exact (IH b x y A B E).
Qed.

Lemma line_split a b x y :
  ("line " ++ sprint_int a ++ ": " ++ x = "line " ++ sprint_int b ++ ": " ++ y)%string -> x = y.
Proof.
  intros E. apply (f_equal (fun s => match s with String _ (String _ (String _ (String _ (String _ s')))) => s' | _ => s end)) in E.
  change (sprint_int a ++ String ":" (String " " x) = sprint_int b ++ String ":" (String " " y))%string in E.
  apply colon_split in E; [|apply sprint_no_colon|apply sprint_no_colon]. now injection E.
Qed.

(** The error recorded by the lexer itself, if any. *)
Definition own (e : option string) : Prop :=
  match e with
  | None => True
  | Some s => exists k m, s = ("line " ++ sprint_int k ++ ": " ++ m)%string /\ String.prefix "syntax" m = false
  end.

Lemma own_located k r m : String.prefix "syntax" m = false -> own (located k r m).
Proof. intros H. exists (k - breaks r + 1), m. auto. Qed.

Lemma prefix_app a b : String.prefix "syntax" a = false -> (6 <= String.length a)%nat -> String.prefix "syntax" (a ++ b) = false.
Proof.
  destruct a as [|c1 [|c2 [|c3 [|c4 [|c5 [|c6 a]]]]]]; cbn [String.length]; try lia. intros H _. revert H.
  cbn [append String.prefix].
  repeat match goal with |- context [match ascii_dec ?a ?b with _ => _ end] => destruct (ascii_dec a b); [|reflexivity] end.
  destruct a; discriminate.
Qed.

Section Continue.
  Context (U : unicode_tables).

  Lemma bad_message n r m rest : next U n r = Bad m rest -> String.prefix "syntax" m = false.
  Proof.
    unfold next. destruct (skip Plain r) as [[|c r'] s]; [discriminate|]. unfold token_at. destruct (is_letter U c).
    { destruct (_ && _); [discriminate|]. destruct (word_scan U [c] c r') as [[m0|ws] q] eqn:E; [|discriminate].
      intros H. injection H as -> _. assert (G : forall rs w l, match fst (word_scan U w l rs) with inl m0 => String.prefix "syntax" m0 = false | _ => True end).
      { clear. induction rs as [|x rs IH]; intros w l; cbn [word_scan].
        - destruct (_ =? _); reflexivity || exact I.
        - destruct (isIdentifierChar U x); [|destruct (_ =? _); reflexivity || exact I].
          destruct (_ && _); [reflexivity|apply IH]. }
      specialize (G r' [c] c). rewrite E in G. exact G. }
    destruct (is_digit U c).
    { destruct (digits_scan U [c] r') as [w q]. destruct (atoi _); try discriminate; intros H; injection H as <- _; reflexivity. }
    repeat match goal with |- context [if ?b then _ else _] => destruct b; [discriminate|] end.
    destruct (symbol_code c); [discriminate|]. intros H. injection H as <- _. reflexivity.
  Qed.

  Lemma bad_length n r m rest : next U n r = Bad m rest -> (length rest <= length r)%nat.
  Proof.
    intros H. pose proof (next_suffix U n r) as P. rewrite H in P. destruct P as (p & ->). rewrite app_length. lia.
  Qed.

  Context (w : Z) (q : list Z) (W : isWhitespace w = true) (fuel : nat).

  Definition near (x y : lexer stream) : Prop :=
    exists r e n k, st x r e n k /\ st y (r ++ w :: q) e n (k + breaks (w :: q)) /\ own e /\
      (length (r ++ w :: q) + 2 <= fuel)%nat.

  Definition at_end (x : lexer stream) : Prop := exists e n k, st x [] e n k /\ own e.

  Lemma located_app k r m : located (k + breaks (w :: q)) (r ++ w :: q) m = located k r m.
  Proof. unfold located. rewrite breaks_app. do 3 f_equal. f_equal. lia. Qed.

  Lemma near_lex x y v c v' x' : near x y -> Lex stream_ops U fuel x v = Ok (c, v', x') ->
    (exists y', Lex stream_ops U fuel y v = Ok (c, v', y') /\ near x' y') \/ (c <= 0 /\ at_end x').
  Proof.
    intros (r & e & n & k & S1 & S2 & O & F) E. assert (F1 : (length r + 2 <= fuel)%nat) by (rewrite app_length in F; lia).
    destruct (Lex_eqf U fuel x v r e n k S1 F1) as (c1 & v1 & x1 & E1 & L1). rewrite E in E1. injection E1 as <- <- <-.
    destruct (Lex_eqf U fuel y v _ e n _ S2 F) as (c2 & v2 & y' & E2 & L2).
    destruct (next U n r) as [|t n' rest|m rest] eqn:N; cbn [lexedf] in L1.
    - right. destruct L1 as (-> & _ & S3). split; [lia|]. exists e, false, k. auto.
    - left. rewrite (next_app U w q W n r) in L2 by (rewrite N; discriminate). rewrite N in L2. cbn [more lexedf] in L2.
      destruct L1 as (-> & (_ & ->) & _ & S3), L2 as (-> & (_ & ->) & _ & S4). exists y'. split; [exact E2|].
      exists rest, e, n', k. split; [exact S3|]. split; [exact S4|]. split; [exact O|]. apply next_length in N. rewrite app_length in *. lia.
    - destruct rest as [|z rest].
      + right. destruct L1 as (-> & _ & S3). split; [lia|]. eexists (located k [] m), _, k. split; [exact S3|].
        apply own_located. exact (bad_message _ _ _ _ N).
      + left. rewrite (next_app U w q W n r) in L2 by (rewrite N; discriminate). rewrite N in L2. cbn [more lexedf] in L2.
        destruct L1 as (-> & -> & S3), L2 as (-> & -> & S4). rewrite located_app in S4. exists y'. split; [exact E2|].
        exists (z :: rest), (located k (z :: rest) m), (String.prefix "Failed" m), k.
        split; [exact S3|]. split; [exact S4|]. split; [apply own_located; exact (bad_message _ _ _ _ N)|].
        apply bad_length in N. rewrite app_length in *. lia.
  Qed.

  Context (F2 : (2 <= fuel)%nat).

  Lemma at_end_lex x v c v' x' : at_end x -> Lex stream_ops U fuel x v = Ok (c, v', x') -> c <= 0 /\ at_end x'.
  Proof.
    intros (e & n & k & S1 & O) E. destruct (Lex_eqf U fuel x v [] e n k S1 F2) as (c1 & v1 & x1 & E1 & L1).
    rewrite E in E1. injection E1 as <- <- <-. cbn [next skip lexedf] in L1. destruct L1 as (-> & _ & S3). split; [lia|]. exists e, false, k. auto.
  Qed.
End Continue.

Lemma end_message s m : yyErrorMessage s 1 = Ok m -> exists t, m = ("syntax error: unexpected $end" ++ t)%string.
Proof.
  unfold yyErrorMessage. change (yyTokname 1) with "$end"%string.
  destruct (rtab (tab yyPact s)) as [b| |]; try discriminate. cbn [rbind].
  destruct (expected_shifts _ _ _) as [[x|]| |]; try discriminate; cbn [rbind].
  2: { intros H. injection H as <-. now exists ""%string. }
  destruct (rtab (tab yyDef s)) as [d| |]; try discriminate. cbn [rbind].
  destruct (d =? -2).
  - destruct (exca_find _ _ _) as [i| |]; try discriminate. cbn [rbind].
    destruct (expected_exca _ _ _) as [[[j x']|]| |]; try discriminate; cbn [rbind].
    2: { intros H. injection H as <-. now exists ""%string. }
    destruct (rtab (tab yyExca _)) as [d'| |]; try discriminate. cbn [rbind].
    destruct (d' =? 0); intros H; injection H as <-; [now eexists|now exists ""%string].
  - intros H. injection H as <-. now eexists.
Qed.

Lemma own_not_syntax k t : own (Some ("line " ++ sprint_int k ++ ": syntax error: unexpected " ++ t)%string) -> False.
Proof.
  intros (k' & m & E & P). apply (line_split k k' ("syntax error: unexpected " ++ t)%string m) in E. subst m. discriminate P.
Qed.

Lemma bytes_app a b : bytes_of_string (a ++ b) = bytes_of_string a ++ bytes_of_string b.
Proof. induction a as [|c a IH]; cbn; [reflexivity|]. now rewrite IH. Qed.

Theorem error_continued U p k t w x :
  parses U p (ParseErr ("line " ++ sprint_int k ++ ": syntax error: unexpected " ++ t)) ->
  String.prefix "$end" t = false -> isWhitespace (byte_of_ascii w) = true ->
  parses U (p ++ String w x) (ParseErr ("line " ++ sprint_int k ++ ": syntax error: unexpected " ++ t)).
Proof.
  intros [n H] T W. set (z := byte_of_ascii w). set (q := runes (bytes_of_string x)).
  assert (R : runes (bytes_of_string (p ++ String w x)) = runes (bytes_of_string p) ++ z :: q).
  { rewrite bytes_app. cbn [bytes_of_string]. apply runes_app_low. destruct (white_cases z W) as [-> |[-> |[-> |[-> |[-> | -> ]]]]]; lia. }
  set (f := (n + (length (runes (bytes_of_string (p ++ String w x))) + 2))%nat).
  specialize (H f ltac:(lia)). unfold ParseString, ParseStream, ParseReader in H.
  destruct (yyParse (Lex stream_ops U f) Error f (new_lexer (stream_of_bytes (bytes_of_string p)))) as [[c ps]| |] eqn:P; try discriminate H.
  cbn [rbind] in H. destruct (lx_err (ps_lx ps)) as [e|] eqn:LE; [|discriminate H]. injection H as E. rewrite E in LE. clear E e.
  unfold yyParse in P.
  destruct (run_both (Lex stream_ops U f) Error (Lex stream_ops U f) Error (near z q f) at_end (near_lex U z q W f) (at_end_lex U f ltac:(lia))
     f Lyystack (init (new_lexer (stream_of_bytes (bytes_of_string p)))) (new_lexer (stream_of_bytes (bytes_of_string (p ++ String w x)))) c ps)
    as [(y & P' & O)|O]; [| |exact P| |].
  - cbn [init ps_lx]. exists (runes (bytes_of_string p)), None, false, (breaks (runes (bytes_of_string p))).
    split; [apply st_init|]. split; [|split; [exact I|]].
    + rewrite <- R, <- breaks_app, <- R. apply st_init.
    + rewrite <- R. lia.
  - reflexivity.
  - assert (LY : lx_err y = lx_err (ps_lx ps)).
    { cbn [both_out] in O. destruct O as [(r & e & n1 & k1 & S1 & S2 & _)|(x0 & y0 & m & (r & e & n1 & k1 & S1 & S2 & _) & -> & ->)].
      - now rewrite (st_err _ _ _ _ _ S1), (st_err _ _ _ _ _ S2).
      - rewrite (st_err _ _ _ _ _ (st_Error _ _ _ _ _ m S1)), (st_err _ _ _ _ _ (st_Error _ _ _ _ _ m S2)). apply located_app. }
    apply (ParseString_parses U f). unfold ParseString, ParseStream, ParseReader, yyParse.
    change (relx (init (new_lexer (stream_of_bytes (bytes_of_string p)))) (new_lexer (stream_of_bytes (bytes_of_string (p ++ String w x)))))
      with (init (new_lexer (stream_of_bytes (bytes_of_string (p ++ String w x))))) in P'.
    rewrite P'. cbn [rbind relx ps_lx]. now rewrite LY, LE.
  - exfalso. destruct O as (x0 & (e & n1 & k1 & S1 & O) & [E|(s & m & M & E)]); rewrite E in LE.
    + rewrite (st_err _ _ _ _ _ S1) in LE. subst e. exact (own_not_syntax k t O).
    + rewrite (st_err _ _ _ _ _ (st_Error _ _ _ _ _ m S1)) in LE. unfold located in LE.
      assert (LE' : ("line " ++ sprint_int (k1 - breaks [] + 1) ++ ": " ++ m = "line " ++ sprint_int k ++ ": " ++ "syntax error: unexpected " ++ t)%string)
        by exact (f_equal (fun o => match o with Some a => a | None => ""%string end) LE).
      apply line_split in LE'. subst m. apply end_message in M as (t' & M).
      enough (t = "$end" ++ t')%string by (subst t; cbn in T; destruct t'; discriminate T). now injection M.
Qed.
