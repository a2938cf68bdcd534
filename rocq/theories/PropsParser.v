(** Properties C01-C09, C19, C21, C46 and C51: the parser.  The vocabulary
    ([parses], [visited]; [call], [reads], [reads_all], [unread]; [gap],
    [last_gap], [pieces]; [derives]; [float_Q]) is in the first sections of
    [ParserRuns.v], [LexRuns.v] and [LexProps.v], in [Grammar.v] and in
    [RealFacts.v]. *)
From Coq Require Import ZArith QArith String Ascii Bool List Lia SpecFloat.
From Verif Require Import GoBase Utf8 Unicode Reader Stream Tokens Tables Reserved Ast Lexer RealNum Actions Grammar Driver Parser
  LexErr LexTotal LexSpec LexEq LexRuns LexFacts LexWords LexProps Automaton DriverTables GrammarFacts DriverSound DriverSim AstFacts ParserFacts ParserRuns RealFacts Conflicts ParserComplete LexFail Pointers PointerFacts.
Import ListNotations.
Local Open Scope string_scope.
Local Open Scope list_scope.
Local Open Scope Z_scope.

(** * C01: a module or an error *)

(** For every implementation of the reader: if ParseStream returns, it returns a
    module without error or an error.  [ParseOk None] is a nil module and a nil
    error. *)
Theorem C01_module_or_error : forall R (ops : reader_ops R) U fuel rd r,
  ParseReader ops U fuel rd = Ok r -> (exists m, r = ParseOk (Some m)) \/ (exists e, r = ParseErr e).
Proof.
  intros R ops U fuel rd r H. destruct (reader_outcome ops U fuel rd r H) as [E|(c & ps & m & w & x & v & v' & _ & -> & _)];
    [right; exact E|left; eauto].
Qed.
Print Assumptions C01_module_or_error.

Example C01_example :
  (exists m, ParseReader stream_ops ascii_tables 1000 (stream_of_bytes (bytes_of_string "M DEFINITIONS ::= BEGIN END")) = Ok (ParseOk (Some m))) /\
  (exists e, ParseReader stream_ops ascii_tables 1000
     {| s_ev := [EvByte 77; EvFail "reset"; EvByte 32]; s_term := TEof; s_last := None |} = Ok (ParseErr e)).
Proof. split; eexists; vm_compute; reflexivity. Qed.

(** * C02: termination *)

(** Every loop of lexer and parser ends within 120 iterations per event of the
    stream (a byte or a transient read error) and 122 more. *)
Theorem C02_terminates : forall U s, s_term s = TEof ->
  exists r, forall fuel, 120 * Z.of_nat (length (s_ev s)) + 122 <= Z.of_nat fuel -> ParseStream U fuel s = Ok r.
Proof.
  intros U s T. set (n := Z.to_nat (120 * Z.of_nat (length (s_ev s)) + 122)).
  destruct (stream_total U n s T) as (r & H); [unfold n; lia|]. exists r. intros fuel F. unfold ParseStream in *.
  refine (ParseReader_mono stream_ops U n fuel _ r _ H). unfold n. lia.
Qed.
Print Assumptions C02_terminates.

(** In particular on every string. *)
Theorem C02_string_terminates : forall U s, exists r, parses U s r /\ forall r', parses U s r' -> r' = r.
Proof.
  intros U s. destruct (parses_total U s) as (r & H). exists r. split; [exact H|]. intros r' H'. exact (parses_det U s r' r H' H).
Qed.
Print Assumptions C02_string_terminates.

Example C02_example : exists r, ParseStream ascii_tables 482 {| s_ev := [EvByte 77; EvFail "reset"; EvByte 32]; s_term := TEof; s_last := None |} = Ok r.
Proof. eexists. vm_compute. reflexivity. Qed.

(** * C03: a reader that keeps failing *)

Lemma line_comment_diverges fuel : forall (x : lexer stream) m b, s_ev (lx_rd x) = [] -> s_term (lx_rd x) = TFail m ->
  skipLineCommentLoop stream_ops fuel x b = OutOfFuel.
Proof.
  induction fuel as [|fuel IH]; intros x m b E T; [reflexivity|]. cbn [skipLineCommentLoop].
  unfold readRune, bufReadRune, stream_ops, rd_rune, stream_rune, stream_err. rewrite E, T. cbn [lead_bytes].
  change (isNewline 0) with false. cbn [orb]. change (0 =? ch "-") with false. cbv iota.
  apply (IH _ m); reflexivity.
Qed.

Lemma first_call_diverges {L} (lex : L -> lexval -> res (Z * lexval * L)) err fuel x :
  lex x lexval0 = OutOfFuel -> yyParse lex err fuel x = OutOfFuel.
Proof.
  intros H. unfold yyParse. destruct fuel as [|[|fuel]]; [reflexivity|reflexivity|]. cbn [run].
  assert (E : exists ps, step lex err Lyystack (init x) = Ok (Goto Lyynewstate ps) /\ step lex err Lyynewstate ps = OutOfFuel).
  { eexists. split; [vm_compute; reflexivity|]. unfold lexval0 in H. vm_compute. rewrite H. reflexivity. }
  destruct E as (ps & -> & E2). cbn [rbind]. rewrite E2. reflexivity.
Qed.

(** False: inside a comment the lexer ignores the error and reads for ever: no
    number of iterations is enough, ... *)
Theorem C03_comment_refuted : exists s msg, s_term s = TFail msg /\
  forall U fuel, ParseStream U fuel s = OutOfFuel.
Proof.
  exists {| s_ev := map EvByte (bytes_of_string "--"); s_term := TFail "disk"; s_last := None |}, "disk".
  split; [reflexivity|]. intros U fuel. unfold ParseStream, ParseReader. rewrite first_call_diverges; [reflexivity|].
  destruct fuel as [|fuel]; [reflexivity|]. unfold Lex. cbn [lexLoop].
  match goal with |- context [readRune stream_ops ?x] => set (rr := readRune stream_ops x); vm_compute in rr; subst rr end.
  cbv beta iota. change (isWhitespace 45) with false. cbv iota. change (45 =? ch "-") with true. cbv iota.
  match goal with |- context [peekRune stream_ops ?x] => set (rr := peekRune stream_ops x); vm_compute in rr; subst rr end.
  cbv beta iota. change (45 =? ch "-") with true. cbv iota. unfold skipLineComment. cbn [skipLineCommentLoop].
  match goal with |- context [readRune stream_ops ?x] => set (rr := readRune stream_ops x); vm_compute in rr; subst rr end.
  cbv beta iota. change (isNewline 45) with false. cbn [orb]. change (45 =? ch "-") with true. cbv iota.
  rewrite (line_comment_diverges fuel _ "disk") by reflexivity. reflexivity.
Qed.
Print Assumptions C03_comment_refuted.

Lemma peek_diverges fuel : forall (x : lexer stream) m n pos acc, s_ev (lx_rd x) = [] -> s_term (lx_rd x) = TFail m ->
  peekRunesLoop stream_ops fuel x (S n) pos acc = OutOfFuel.
Proof.
  induction fuel as [|fuel IH]; intros x m n pos acc E T; [reflexivity|]. cbn [peekRunesLoop].
  assert (P : forall (y : lexer stream) l, s_ev (lx_rd y) = [] -> s_term (lx_rd y) = TFail m -> (0 < l)%nat ->
    rd_peek stream_ops (pos + l) (lx_rd y) = ({| s_ev := []; s_term := TFail m; s_last := None |}, ([], (pos + l)%nat, Some (IOErr m)))).
  { intros y l E' T' L. unfold stream_ops, rd_peek, stream_peek. rewrite E', T'.
    destruct (pos + l)%nat as [|k] eqn:K; [lia|]. cbn [lead_bytes length]. reflexivity. }
  assert (I : forall ls (y : lexer stream), s_ev (lx_rd y) = [] -> s_term (lx_rd y) = TFail m -> Forall (fun l => (0 < l)%nat) ls ->
    exists y', peekInner stream_ops y pos ls = Ok (y', PiFallOut) /\ s_ev (lx_rd y') = [] /\ s_term (lx_rd y') = TFail m).
  { induction ls as [|l ls IHl]; intros y E' T' F; [exists y; auto|]. inversion_clear F as [|? ? L F']. cbn [peekInner].
    rewrite (P y l E' T' L). cbv beta iota. rewrite Nat.ltb_irrefl. cbn [length].
    replace (pos + l <=? 0)%nat with false by (symmetry; apply Nat.leb_gt; lia). cbn [andb].
    apply IHl; [reflexivity|reflexivity|exact F']. }
  destruct (I [1; 2; 3; 4]%nat x E T) as (y & -> & E' & T'); [repeat constructor|]. cbn [rbind].
  exact (IH y m n pos acc E' T').
Qed.

(** ... and so it does when it looks for [:=] after a colon. *)
Theorem C03_colon_refuted : exists s msg, s_term s = TFail msg /\
  forall U fuel, is_letter U 58 = false -> is_digit U 58 = false -> ParseStream U fuel s = OutOfFuel.
Proof.
  exists {| s_ev := map EvByte (bytes_of_string ":"); s_term := TFail "disk"; s_last := None |}, "disk".
  split; [reflexivity|]. intros U fuel NL ND. unfold ParseStream, ParseReader. rewrite first_call_diverges; [reflexivity|].
  destruct fuel as [|fuel]; [reflexivity|]. unfold Lex. cbn [lexLoop].
  match goal with |- context [readRune stream_ops ?x] => set (rr := readRune stream_ops x); vm_compute in rr; subst rr end.
  cbv beta iota. change (isWhitespace 58) with false. cbv iota. change (58 =? ch "-") with false. cbv beta iota.
  change (58 =? ch "/") with false. cbv beta iota. unfold lexToken. rewrite NL, ND. change (58 =? ch ":") with true. cbv iota.
  unfold peekRunes. rewrite (peek_diverges (S fuel) _ "disk" 1) by reflexivity. reflexivity.
Qed.
Print Assumptions C03_colon_refuted.

(** True of all readers that fail where the lexer is not within a comment or right
    behind a colon or a full stop ([finished], LexFail.v): ParseStream returns an error.
    Missing: other readers, and that the error is the one of the reader. *)
Theorem C03_returns_partial : forall U msg bs, finished bs ->
  exists e n, forall fuel, (n <= fuel)%nat ->
    ParseStream U fuel {| s_ev := map EvByte bs; s_term := TFail msg; s_last := None |} = Ok (ParseErr e).
Proof.
  intros U msg bs F. set (n := Z.to_nat (120 * Z.of_nat (length bs) + 122)).
  destruct (fail_total U msg n bs F ltac:(lia)) as (r & E).
  destruct (stream_fail_rejected U n {| s_ev := map EvByte bs; s_term := TFail msg; s_last := None |} msg r eq_refl E) as (e & ->).
  exists e, n. intros fuel L. exact (ParseReader_mono stream_ops U n fuel _ _ L E).
Qed.
Print Assumptions C03_returns_partial.

Example C03_returns_example :
  finished (bytes_of_string "-- a comment
M DEFINITIONS ::= BEGIN T ::= SEQUENCE { a INTEGER (0..5), ... , b Re") /\
  ~ finished (bytes_of_string "M DEFINITIONS ::= BEGIN T ::") /\ ~ finished (bytes_of_string "M -- a comment").
Proof.
  split; [apply finishedb_sound; reflexivity|]. split; intros F.
  - destruct (F (bytes_of_string "M DEFINITIONS ::= BEGIN T ") (bytes_of_string "::") eq_refl) as (_ & _ & C).
    destruct (C _ _ eq_refl (or_introl eq_refl)) as [(a & b & q & E & _)|L]; [discriminate E|cbn in L; lia].
  - destruct (F (bytes_of_string "M ") (bytes_of_string "-- a comment") eq_refl) as (C & _).
    destruct (C _ eq_refl) as (b & B1 & B2). revert B1 B2. cbn. lia.
Qed.

(** Whenever ParseStream returns, on every reader that keeps failing, it returns an
    error. *)
Theorem C03_fails_partial : forall U fuel s msg r, s_term s = TFail msg -> ParseStream U fuel s = Ok r ->
  exists e, r = ParseErr e.
Proof. exact stream_fail_rejected. Qed.
Print Assumptions C03_fails_partial.

Example C03_example : exists e, ParseStream ascii_tables 1000
  {| s_ev := map EvByte (bytes_of_string "M DEFINITIONS ::= BEGIN END"); s_term := TFail "disk"; s_last := None |} = Ok (ParseErr e).
Proof. eexists. vm_compute. reflexivity. Qed.

(** * C04: lexical errors *)

Theorem C04_lexical_error : forall U s ts v x c v' x' r,
  reads U s ts v x -> call U x v c v' x' -> c < 0 -> parses U s r -> exists e, r = ParseErr e.
Proof. exact error_rejected. Qed.
Print Assumptions C04_lexical_error.

(** The parser calls Lex again after the error and could accept the text below if
    the error were not kept. *)
Example C04_example : exists c v' x' e,
  call ascii_tables (lexer_of "$ M DEFINITIONS ::= BEGIN END") lexval0 c v' x' /\ c < 0 /\
  parses ascii_tables "$ M DEFINITIONS ::= BEGIN END" (ParseErr e) /\
  exists e', parses ascii_tables "M DEFINITIONS ::= BEGIN a INTEGER ::= 5 $ END" (ParseErr e').
Proof.
  eexists _, _, _, _. split; [apply (Lex_call _ 100); vm_compute; reflexivity|]. split; [reflexivity|].
  split; [apply (ParseString_parses _ 1000); vm_compute; reflexivity|].
  eexists. apply (ParseString_parses _ 1000). vm_compute. reflexivity.
Qed.

(** * C05: accepted texts are in the grammar *)

(** [reads_all U s ts]: the text is the tokens [ts]; [derives]: the grammar of
    asn1.y with the values of its actions.  [shape] forgets what the pointers for
    DEFAULT values and for references in object identifiers point to. *)
Theorem C05_grammar : forall U s m, parses U s (ParseOk (Some m)) ->
  exists ts m', reads_all U s ts /\ derives N_ModuleDefinition ts (S_module m') /\ shape m = shape m'.
Proof.
  intros U s m H. destruct (parses_outcome U s _ H) as [(e & E)|(m1 & ts & m' & E & R & D & Sh)]; [discriminate E|].
  assert (m1 = m) as -> by congruence. eauto.
Qed.
Print Assumptions C05_grammar.

Example C05_example : exists m, parses ascii_tables "M DEFINITIONS ::= BEGIN T ::= SEQUENCE { a INTEGER DEFAULT 1, b BOOLEAN } END" (ParseOk (Some m)) /\
  map (fun a => match a with AType n _ => n | _ => "" end) (mb_AssignmentList (md_ModuleBody m)) = ["T"].
Proof. eexists. split; [apply (ParseString_parses _ 1000); vm_compute; reflexivity|]. reflexivity. Qed.

(** * C06: DEFAULT values *)

(** False: the value of a DEFAULT that is followed by another component is lost.
    Whatever is written, the tree has a nil value. *)
Theorem C06_default_refuted : exists m, forall n, In n ["1"; "2"; "a"; "TRUE"] ->
  parses ascii_tables ("M DEFINITIONS ::= BEGIN T ::= SEQUENCE { a INTEGER DEFAULT " ++ n ++ ", b INTEGER } END")%string
    (ParseOk (Some m)) /\
  mb_AssignmentList (md_ModuleBody m) =
    [AType "T" (TSequence [CNamed (Named "a" (TInteger [])) false (Some VNil); CNamed (Named "b" (TInteger [])) false None] [])].
Proof.
  eexists. intros n [<-|[<-|[<-|[<-|[]]]]];
    (split; [apply (ParseString_parses _ 1000); vm_compute; reflexivity|reflexivity]).
Qed.
Print Assumptions C06_default_refuted.

(** The value of a DEFAULT with nothing behind it is kept. *)
Example C06_example : exists m,
  parses ascii_tables "M DEFINITIONS ::= BEGIN T ::= SEQUENCE { a INTEGER DEFAULT 1 } END" (ParseOk (Some m)) /\
  mb_AssignmentList (md_ModuleBody m) =
    [AType "T" (TSequence [CNamed (Named "a" (TInteger [])) false (Some (VNumber 1))] [])].
Proof. eexists. split; [apply (ParseString_parses _ 1000); vm_compute; reflexivity|reflexivity]. Qed.

(** Worse: it can be a value that is written elsewhere, here the 7 of the next assignment. *)
Theorem C06_foreign_value_refuted : exists m, forall n, In n ["1"; "2"; "a"; "TRUE"] ->
  parses ascii_tables ("M DEFINITIONS ::= BEGIN T ::= SEQUENCE { a INTEGER DEFAULT " ++ n ++ " } U ::= SEQUENCE SIZE (7) OF INTEGER END")%string
    (ParseOk (Some m)) /\
  default_values m = [VNumber 7].
Proof.
  eexists. intros n [<-|[<-|[<-|[<-|[]]]]];
    (split; [apply (ParseString_parses _ 1000); vm_compute; reflexivity|reflexivity]).
Qed.
Print Assumptions C06_foreign_value_refuted.

(** What holds of every text: a DEFAULT value of the tree is nil or some value that is
    written in the text, up to what its references name.  Missing: that it is the one
    written behind DEFAULT, which is false. *)
Theorem C06_from_text_partial : forall U s m ts v,
  parses U s (ParseOk (Some m)) -> reads_all U s ts -> In v (default_values m) ->
  v = VNil \/ exists v', value_in_text ts v' /\ same_but_references v v'.
Proof. exact text_defaults. Qed.
Print Assumptions C06_from_text_partial.

Example C06_from_text_example : exists m ts,
  parses ascii_tables "M DEFINITIONS ::= BEGIN T ::= SEQUENCE { a INTEGER DEFAULT 1, b INTEGER DEFAULT 2 } END" (ParseOk (Some m)) /\
  reads_all ascii_tables "M DEFINITIONS ::= BEGIN T ::= SEQUENCE { a INTEGER DEFAULT 1, b INTEGER DEFAULT 2 } END" ts /\
  default_values m = [VNil; VNumber 2].
Proof.
  destruct (parses_outcome ascii_tables "M DEFINITIONS ::= BEGIN T ::= SEQUENCE { a INTEGER DEFAULT 1, b INTEGER DEFAULT 2 } END"
    (match ParseString ascii_tables 1000 "M DEFINITIONS ::= BEGIN T ::= SEQUENCE { a INTEGER DEFAULT 1, b INTEGER DEFAULT 2 } END"
     with Ok r => r | _ => ParseErr "" end)) as [(e & E)|(m & ts & m' & E & R & _)];
    [apply (ParseString_parses _ 1000); vm_compute; reflexivity|vm_compute in E; discriminate E|].
  exists m, ts. split; [rewrite <- E; apply (ParseString_parses _ 1000); vm_compute; reflexivity|]. split; [exact R|].
  vm_compute in E. injection E as <-. reflexivity.
Qed.

(** * C07: references in object identifiers *)

(** False: when another assignment follows, the name of the reference is lost. *)
Theorem C07_reference_refuted : exists m, forall n, In n ["b"; "d"; "someOtherObject"] ->
  parses ascii_tables ("M DEFINITIONS ::= BEGIN a OBJECT IDENTIFIER ::= { " ++ n ++ " 1 } c INTEGER ::= 1 END")%string
    (ParseOk (Some m)) /\
  mb_AssignmentList (md_ModuleBody m) =
    [AValue "a" TObjectIdentifier (VObjectIdentifier
      [{| oe_Name := ""; oe_ID := 0; oe_Reference := Some {| dv_ModuleName := ""; dv_ValueName := "" |} |};
       {| oe_Name := ""; oe_ID := 1; oe_Reference := None |}]);
     AValue "c" (TInteger []) (VNumber 1)].
Proof.
  eexists. intros n [<-|[<-|[<-|[]]]];
    (split; [apply (ParseString_parses _ 1000); vm_compute; reflexivity|reflexivity]).
Qed.
Print Assumptions C07_reference_refuted.

Example C07_example : exists m,
  parses ascii_tables "M DEFINITIONS ::= BEGIN a OBJECT IDENTIFIER ::= { b 1 } END" (ParseOk (Some m)) /\
  mb_AssignmentList (md_ModuleBody m) =
    [AValue "a" TObjectIdentifier (VObjectIdentifier
      [{| oe_Name := ""; oe_ID := 0; oe_Reference := Some {| dv_ModuleName := ""; dv_ValueName := "b" |} |};
       {| oe_Name := ""; oe_ID := 1; oe_Reference := None |}])].
Proof. eexists. split; [apply (ParseString_parses _ 1000); vm_compute; reflexivity|reflexivity]. Qed.

(** Worse: it can be a name that is written elsewhere, here that of the next assignment. *)
Theorem C07_foreign_reference_refuted : exists m, forall n, In n ["b"; "d"; "someOtherObject"] ->
  parses ascii_tables ("M DEFINITIONS ::= BEGIN U ::= OBJECT IDENTIFIER ({ " ++ n ++ " 1 }) V ::= [y] INTEGER END")%string
    (ParseOk (Some m)) /\
  references m = [{| dv_ModuleName := ""; dv_ValueName := "y" |}].
Proof.
  eexists. intros n [<-|[<-|[<-|[]]]];
    (split; [apply (ParseString_parses _ 1000); vm_compute; reflexivity|reflexivity]).
Qed.
Print Assumptions C07_foreign_reference_refuted.

(** What holds of every text: a reference of the tree, in DEFAULT values too, is blank or
    some reference that is written in the text.  Missing: that it is the one written at
    that place, which is false. *)
Theorem C07_from_text_partial : forall U s m ts d,
  parses U s (ParseOk (Some m)) -> reads_all U s ts -> In d (references m) ->
  d = {| dv_ModuleName := ""; dv_ValueName := "" |} \/ reference_in_text ts d.
Proof. exact text_references. Qed.
Print Assumptions C07_from_text_partial.

Example C07_from_text_example : exists m ts,
  parses ascii_tables "M DEFINITIONS ::= BEGIN a OBJECT IDENTIFIER ::= { x 1 } b OBJECT IDENTIFIER ::= { N.y 1 } END" (ParseOk (Some m)) /\
  reads_all ascii_tables "M DEFINITIONS ::= BEGIN a OBJECT IDENTIFIER ::= { x 1 } b OBJECT IDENTIFIER ::= { N.y 1 } END" ts /\
  references m = [{| dv_ModuleName := ""; dv_ValueName := "" |}; {| dv_ModuleName := "N"; dv_ValueName := "y" |}].
Proof.
  destruct (parses_outcome ascii_tables "M DEFINITIONS ::= BEGIN a OBJECT IDENTIFIER ::= { x 1 } b OBJECT IDENTIFIER ::= { N.y 1 } END"
    (match ParseString ascii_tables 1000 "M DEFINITIONS ::= BEGIN a OBJECT IDENTIFIER ::= { x 1 } b OBJECT IDENTIFIER ::= { N.y 1 } END"
     with Ok r => r | _ => ParseErr "" end)) as [(e & E)|(m & ts & m' & E & R & _)];
    [apply (ParseString_parses _ 1000); vm_compute; reflexivity|vm_compute in E; discriminate E|].
  exists m, ts. split; [rewrite <- E; apply (ParseString_parses _ 1000); vm_compute; reflexivity|]. split; [exact R|].
  vm_compute in E. injection E as <-. reflexivity.
Qed.

(** * C08: nothing follows END *)

Ltac unfold_phrases :=
  repeat match goal with
    | F : Forall2 phrase (_ :: _) _ |- _ => inversion F; clear F; subst
    | F : Forall2 phrase [] _ |- _ => inversion F; clear F; subst
    end; cbn [phrase] in *; subst; cbn [concat app] in *; rewrite ?app_nil_r in *.

(** An accepted text is a sequence of tokens with gaps between them, a last token
    END, and a last gap; no other token is END. *)
Theorem C08_end_last : forall U s m, parses U s (ParseOk m) ->
  exists l g w t last, pieces U (runes (bytes_of_string s)) (l ++ [(g, w, t)]) last /\
    tk_kind t = T_END /\ Forall (fun p => tk_kind (snd p) <> T_END) l.
Proof.
  intros U s m H. destruct (parses_outcome U s _ H) as [(e & E)|(m1 & ts & m' & E & R & D & Sh)]; [discriminate E|].
  apply reads_all_tokens in R. destruct (tokens_pieces U _ _ _ R) as (l & last & P & M).
  destruct (derives_inv _ _ _ D) as (n & its & ws & Rn & F & Ew).
  assert (n = 1) by (destruct (rules_of (fun N => match N with N_ModuleDefinition => true | _ => false end)
    [1] ltac:(vm_compute; reflexivity) n _ _ _ Rn eq_refl) as [|[]]; congruence). subst n.
  change (rule 1) with rule_1 in Rn. inversion Rn; subst.
  unfold_phrases.
  assert (Q : exists us t, map snd l = us ++ [t] /\ tk_kind t = T_END /\ Forall (fun t => tk_kind t <> T_END) us).
  { exists (y ++ [t2] ++ y1 ++ y2 ++ [t5] ++ [t6] ++ y5), t8. split; [rewrite <- ?app_assoc; cbn [app]; rewrite <- ?app_assoc; assumption|]. split; [assumption|].
    repeat first [apply Forall_app; split | apply Forall_cons | apply Forall_nil];
      try (eapply derives_no_end; [eassumption|discriminate]);
      match goal with H : tk_kind ?t = _ |- tk_kind ?t <> _ => rewrite H; discriminate end. }
  destruct Q as (us & t & E1 & K & F).
  apply map_eq_app in E1 as (l1 & l2 & -> & E2 & E3). destruct l2 as [|[[g w] t'] [|]]; try discriminate E3.
  cbn in E3. injection E3 as ->. exists l1, g, w, t, last. split; [exact P|]. split; [exact K|].
  rewrite <- E2 in F. clear -F. induction l1 as [|p l1 IH]; constructor; cbn in F; inversion F; auto.
Qed.
Print Assumptions C08_end_last.

Example C08_example :
  (exists m, parses ascii_tables "M DEFINITIONS ::= BEGIN T ::= NULL END -- done" (ParseOk (Some m))) /\
  (exists e, parses ascii_tables "M DEFINITIONS ::= BEGIN T ::= NULL END END" (ParseErr e)).
Proof. split; eexists; apply (ParseString_parses _ 1000); vm_compute; reflexivity. Qed.

(** * C09: no panic *)

(** [Panic] is an index out of range, a stack underflow, an invalid UnreadRune, or a
    failed slice expression, at any place of lexer, parser and actions.  For every
    stream, with transient and with persistent read errors. *)
Theorem C09_no_panic : forall U fuel s why, ParseStream U fuel s <> Panic why.
Proof. exact stream_no_panic. Qed.
Print Assumptions C09_no_panic.

Theorem C09_string_no_panic : forall U fuel s why, ParseString U fuel s <> Panic why.
Proof. intros. apply stream_no_panic. Qed.
Print Assumptions C09_string_no_panic.

(** A text that makes the parser stack grow. *)
Example C09_example : exists m, parses ascii_tables
  ("M DEFINITIONS ::= BEGIN T ::= " ++ "SEQUENCE OF SEQUENCE OF SEQUENCE OF SEQUENCE OF SEQUENCE OF SEQUENCE OF SEQUENCE OF SEQUENCE OF " ++ "NULL END")%string
  (ParseOk (Some m)).
Proof. eexists. apply (ParseString_parses _ 1000). vm_compute. reflexivity. Qed.

(** * C19: REAL literals *)

(** False: 1.1 is read as 2, ... *)
Theorem C19_real_refuted : exists m f,
  parses ascii_tables "M DEFINITIONS ::= BEGIN a REAL ::= 1.1 END" (ParseOk (Some m)) /\
  mb_AssignmentList (md_ModuleBody m) = [AValue "a" TReal (VReal f)] /\ (float_Q f == 2)%Q.
Proof.
  eexists _, _. split; [apply (ParseString_parses _ 1000); vm_compute; reflexivity|].
  split; [reflexivity|]. vm_compute. reflexivity.
Qed.
Print Assumptions C19_real_refuted.

(** ... and zeros at the start of a fraction do not count: 1.05 is 1.5. *)
Theorem C19_zeros_refuted : exists m f,
  parses ascii_tables "M DEFINITIONS ::= BEGIN a REAL ::= 1.05 END" (ParseOk (Some m)) /\
  mb_AssignmentList (md_ModuleBody m) = [AValue "a" TReal (VReal f)] /\ (float_Q f == 3 # 2)%Q.
Proof.
  eexists _, _. split; [apply (ParseString_parses _ 1000); vm_compute; reflexivity|].
  split; [reflexivity|]. vm_compute. reflexivity.
Qed.
Print Assumptions C19_zeros_refuted.

(** True for literals without fraction, or with fraction zero, with a whole
    exponent, as long as the value is below 2^53: then the value is exact.
    Missing: other fractions (see above) and larger or negative exponents. *)
Theorem C19_whole_partial : forall i dot fr e x f,
  0 <= tk_number i -> 0 <= tk_number x <= 15 -> tk_number i * 10 ^ tk_number x < 2 ^ 53 -> tk_number fr = 0 ->
  tk_kind dot = T_DOT -> tk_kind fr = T_NUMBER -> tk_kind e = T_EXPONENT -> tk_kind x = T_NUMBER ->
  (derives N_realnumber [i] (S_Real f) \/ derives N_realnumber [i; dot; fr] (S_Real f) ->
     (float_Q f == inject_Z (tk_number i))%Q) /\
  (derives N_realnumber [i; e; x] (S_Real f) \/ derives N_realnumber [i; dot; fr; e; x] (S_Real f) ->
     (float_Q f == inject_Z (tk_number i * 10 ^ tk_number x))%Q).
Proof.
  intros i dot fr e x f I X B F0 Kd Kf Ke Kx.
  assert (P : 0 < 10 ^ tk_number x) by (apply Z.pow_pos_nonneg; lia).
  assert (E0 : forall w v, derives N_SignedExponent w (S_Number v) -> w <> [] /\ (w = [x] -> v = tk_number x)).
  { intros w v D. destruct (derives_inv _ _ _ D) as (n & its & ws & Rn & F & ->).
    pose proof (rules_of (fun N => match N with N_SignedExponent => true | _ => false end)
      [117; 118] ltac:(vm_compute; reflexivity) n _ _ _ Rn eq_refl) as I0.
    destruct I0 as [<-|[<-|[]]]; [change (rule 117) with rule_117 in Rn|change (rule 118) with rule_118 in Rn];
      inversion Rn; subst; unfold_phrases; (split; [discriminate|]); [congruence|discriminate]. }
  assert (V : forall z, z = 0 \/ z = tk_number x -> (float_Q (parseRealNumber (tk_number i) 0 z) == inject_Z (tk_number i * 10 ^ z))%Q).
  { intros z [-> | ->].
    - rewrite whole_real; [apply f_of_Z_value; rewrite Z.mul_1_r; nia|lia|lia|rewrite Z.mul_1_r; nia|right; lia].
    - rewrite whole_real by lia. apply f_of_Z_value. nia. }
  assert (V0 : (float_Q (parseRealNumber (tk_number i) 0 0) == inject_Z (tk_number i))%Q).
  { pose proof (V 0 (or_introl eq_refl)) as V1. rewrite Z.mul_1_r in V1. exact V1. }
  split; intros [D|D]; destruct (derives_inv _ _ _ D) as (n & its & ws & Rn & F & Ew);
    destruct (rules_of (fun N => match N with N_realnumber => true | _ => false end)
      [113; 114; 115; 116] ltac:(vm_compute; reflexivity) n _ _ _ Rn eq_refl) as [<-|[<-|[<-|[<-|[]]]]];
    hnf in Rn; inversion Rn; subst; unfold_phrases; cbn [app] in *;
    repeat match goal with
    | H : [] = _ |- _ => discriminate H
    | H : _ = [] |- _ => discriminate H
    | H : _ :: _ = _ :: _ |- _ => injection H as ? ?; subst
    | H : derives N_SignedExponent _ _ |- _ => apply E0 in H as (? & ?)
    end; try congruence.
  all: rewrite ?F0.
  all: try exact V0.
  all: try (exfalso; match goal with H : ?a = T_EXPONENT, H' : ?a = _ |- _ => rewrite H in H'; discriminate H' end).
  all: match goal with H : [?y] = [?y] -> _ = _ |- _ => rewrite (H eq_refl); apply V; right; reflexivity end.
Qed.
Print Assumptions C19_whole_partial.

(** True for fractions that have a finite binary expansion (halves, quarters, ...
    of up to six digits) and neither begin with 0 nor are 1, 10, 100, ...: the
    value is exact as long as it fits in 53 bits. Missing: other fractions, which
    at best can be rounded, and negative exponents. *)
Theorem C19_binary_partial : forall i dot fr e x k f,
  0 <= tk_number i -> 1 <= k <= 6 -> 10 ^ (k - 1) < tk_number fr < 10 ^ k ->
  (10 ^ k | tk_number fr * 2 ^ k) -> 0 <= tk_number x ->
  (tk_number i * 10 ^ k + tk_number fr) * 2 ^ k * 10 ^ tk_number x < 2 ^ 53 * 10 ^ k ->
  tk_kind dot = T_DOT -> tk_kind fr = T_NUMBER -> tk_kind e = T_EXPONENT -> tk_kind x = T_NUMBER ->
  let value := (inject_Z (tk_number i) + inject_Z (tk_number fr) / inject_Z (10 ^ k))%Q in
  (derives N_realnumber [i; dot; fr] (S_Real f) -> (float_Q f == value)%Q) /\
  (derives N_realnumber [i; dot; fr; e; x] (S_Real f) ->
     (float_Q f == value * inject_Z (10 ^ tk_number x))%Q).
Proof.
  intros i dot fr e x k f I K R Dv X B Kd Kf Ke Kx value.
  assert (P : 0 < 10 ^ tk_number x) by (apply Z.pow_pos_nonneg; lia).
  assert (V : forall z, z = 0 \/ z = tk_number x ->
    (float_Q (parseRealNumber (tk_number i) (tk_number fr) z) == value * inject_Z (10 ^ z))%Q).
  { intros z Hz. apply binary_value; try assumption; destruct Hz as [-> | ->]; try lia; try assumption.
    rewrite Z.mul_1_r. assert (0 < 2 ^ k) by (apply Z.pow_pos_nonneg; lia).
    assert (0 < 10 ^ (k - 1)) by (apply Z.pow_pos_nonneg; lia).
    assert (0 <= (tk_number i * 10 ^ k + tk_number fr) * 2 ^ k) by (apply Z.mul_nonneg_nonneg; [|lia]; apply Z.add_nonneg_nonneg; [apply Z.mul_nonneg_nonneg|]; lia).
    nia. }
  assert (V0 : (float_Q (parseRealNumber (tk_number i) (tk_number fr) 0) == value)%Q).
  { rewrite (V 0 (or_introl eq_refl)). apply Qmult_1_r. }
  assert (E0 : forall w v, derives N_SignedExponent w (S_Number v) -> w <> [] /\ (w = [x] -> v = tk_number x)).
  { intros w v D. destruct (derives_inv _ _ _ D) as (n & its & ws & Rn & F & ->).
    pose proof (rules_of (fun N => match N with N_SignedExponent => true | _ => false end)
      [117; 118] ltac:(vm_compute; reflexivity) n _ _ _ Rn eq_refl) as I0.
    destruct I0 as [<-|[<-|[]]]; [change (rule 117) with rule_117 in Rn|change (rule 118) with rule_118 in Rn];
      inversion Rn; subst; unfold_phrases; (split; [discriminate|]); [congruence|discriminate]. }
  clearbody value.
  split; intros D; destruct (derives_inv _ _ _ D) as (n & its & ws & Rn & F & Ew);
    destruct (rules_of (fun N => match N with N_realnumber => true | _ => false end)
      [113; 114; 115; 116] ltac:(vm_compute; reflexivity) n _ _ _ Rn eq_refl) as [<-|[<-|[<-|[<-|[]]]]];
    hnf in Rn; inversion Rn; subst; unfold_phrases; cbn [app] in *;
    repeat match goal with
    | H : [] = _ |- _ => discriminate H
    | H : _ = [] |- _ => discriminate H
    | H : _ :: _ = _ :: _ |- _ => injection H as ? ?; subst
    | H : derives N_SignedExponent _ _ |- _ => apply E0 in H as (? & ?)
    end; try congruence.
  all: try exact V0.
  all: try (exfalso; match goal with H : ?a = T_EXPONENT, H' : ?a = _ |- _ => rewrite H in H'; discriminate H' end).
  all: match goal with H : [?y] = [?y] -> _ = _ |- _ => rewrite (H eq_refl); apply V; right; reflexivity end.
Qed.
Print Assumptions C19_binary_partial.

(** Three literals the theorem covers: 25 is between 10 and 100, 25 * 4 is a
    multiple of 100, and so on. *)
Example C19_binary_example : exists m f g h,
  parses ascii_tables "M DEFINITIONS ::= BEGIN a REAL ::= 1.25 b REAL ::= 0.5 c REAL ::= 12.375E3 END" (ParseOk (Some m)) /\
  mb_AssignmentList (md_ModuleBody m) = [AValue "a" TReal (VReal f); AValue "b" TReal (VReal g); AValue "c" TReal (VReal h)] /\
  (float_Q f == 5 # 4)%Q /\ (float_Q g == 1 # 2)%Q /\ (float_Q h == 12375)%Q.
Proof.
  eexists _, _, _, _. split; [apply (ParseString_parses _ 1000); vm_compute; reflexivity|].
  split; [reflexivity|]. repeat split; vm_compute; reflexivity.
Qed.

Example C19_example : exists m f,
  parses ascii_tables "M DEFINITIONS ::= BEGIN a REAL ::= 12.0e3 END" (ParseOk (Some m)) /\
  mb_AssignmentList (md_ModuleBody m) = [AValue "a" TReal (VReal f)] /\ (float_Q f == 12000)%Q.
Proof.
  eexists _, _. split; [apply (ParseString_parses _ 1000); vm_compute; reflexivity|].
  split; [reflexivity|]. vm_compute. reflexivity.
Qed.

(** * C21: which error is reported *)

(** False: the parser takes the error of the lexer for the end of the text, and its
    own message replaces the one of the lexer. *)
Theorem C21_first_error_refuted : exists s ts v x v' x' e e',
  reads ascii_tables s ts v x /\ call ascii_tables x v (-1) v' x' /\ lx_err x' = Some e /\
  parses ascii_tables s (ParseErr e') /\ e' <> e /\
  e = "line 1: Unexpected character: $" /\
  e' = "line 1: syntax error: unexpected $end, expecting DEFINITIONS".
Proof.
  eexists "M $", _, _, _, _, _, _, _.
  split.
  { eapply reads_token; [apply reads_none|apply (Lex_call _ 100); vm_compute; reflexivity|reflexivity]. }
  split; [apply (Lex_call _ 100); vm_compute; reflexivity|]. split; [reflexivity|].
  split; [apply (ParseString_parses _ 1000); vm_compute; reflexivity|]. split; [discriminate|]. split; reflexivity.
Qed.
Print Assumptions C21_first_error_refuted.

(** * C46: components in the tree *)

(** False: an extension group [[[ b INTEGER ]]] is read and forgotten.  The two texts
    give the same module, although one of them has a component named b. *)
Theorem C46_group_refuted : exists s s' ts ts' m,
  reads_all ascii_tables s ts /\ In {| tk_kind := T_VALUEIDENTIFIER; tk_name := "b"; tk_number := 0 |} ts /\
  reads_all ascii_tables s' ts' /\ Forall (fun t => tk_name t <> "b") ts' /\
  parses ascii_tables s (ParseOk (Some m)) /\ parses ascii_tables s' (ParseOk (Some m)).
Proof.
  eexists "M DEFINITIONS ::= BEGIN T ::= SEQUENCE { a INTEGER, ..., [[ b INTEGER ]] } END",
    "M DEFINITIONS ::= BEGIN T ::= SEQUENCE { a INTEGER, ... } END", _, _, _.
  split; [apply reads_all_tokens; repeat (eapply tokens_cons; [vm_compute; reflexivity|]); apply tokens_nil; vm_compute; reflexivity|].
  split; [cbn; tauto|].
  split; [apply reads_all_tokens; repeat (eapply tokens_cons; [vm_compute; reflexivity|]); apply tokens_nil; vm_compute; reflexivity|].
  split; [repeat constructor; discriminate|].
  split; apply (ParseString_parses _ 1000); vm_compute; reflexivity.
Qed.
Print Assumptions C46_group_refuted.

(** * C51: completeness *)

Lemma two_markers t0 t1 t2 t3 t4 t5 t6 t7 t8 t9 t10 t11 t12 t13 t14 t15 :
  tk_kind t0 = T_TYPEORMODULEREFERENCE ->
  tk_kind t1 = T_DEFINITIONS ->
  tk_kind t2 = T_ASSIGNMENT ->
  tk_kind t3 = T_BEGIN ->
  tk_kind t4 = T_TYPEORMODULEREFERENCE ->
  tk_kind t5 = T_ASSIGNMENT ->
  tk_kind t6 = T_SEQUENCE ->
  tk_kind t7 = T_OPEN_CURLY ->
  tk_kind t8 = T_VALUEIDENTIFIER ->
  tk_kind t9 = T_BOOLEAN ->
  tk_kind t10 = T_COMMA ->
  tk_kind t11 = T_ELLIPSIS ->
  tk_kind t12 = T_COMMA ->
  tk_kind t13 = T_ELLIPSIS ->
  tk_kind t14 = T_CLOSE_CURLY ->
  tk_kind t15 = T_END ->
  exists m, derives N_ModuleDefinition [t0; t1; t2; t3; t4; t5; t6; t7; t8; t9; t10; t11; t12; t13; t14; t15] (S_module m).
Proof.
  intros k0 k1 k2 k3 k4 k5 k6 k7 k8 k9 k10 k11 k12 k13 k14 k15. eexists. exists (Node 1 [Node 7 [Node 3 [Leaf t0]; Node 9 []]; Leaf t1; Node 20 []; Node 22 []; Leaf t2; Leaf t3; Node 23 [Node 27 []; Node 31 []; Node 47 [Node 49 [Node 54 [Node 2 [Leaf t4]; Leaf t5; Node 56 [Node 69 [Node 129 [Leaf t6; Leaf t7; Node 135 [Node 148 [Node 150 [Node 77 [Node 6 [Leaf t8]; Node 56 [Node 60 [Node 83 [Leaf t9]]]]]]; Leaf t10; Node 130 [Leaf t11]; Node 140 []; Node 132 [Leaf t12; Leaf t13]]; Leaf t14]]]]]]]; Leaf t15]).
  split; [|reflexivity]. tree_yields.
Qed.

(** False: after an extension marker the tables expect an addition, so that the
    second marker of [SEQUENCE { a BOOLEAN, ..., ... }] is a syntax error. *)
Theorem C51_complete_refuted : exists s ts m e,
  reads_all ascii_tables s ts /\ derives N_ModuleDefinition ts (S_module m) /\ parses ascii_tables s (ParseErr e).
Proof.
  assert (R : exists ts, reads_all ascii_tables "M DEFINITIONS ::= BEGIN T ::= SEQUENCE { a BOOLEAN, ..., ... } END" ts /\
    exists m, derives N_ModuleDefinition ts (S_module m)).
  { eexists. split; [apply reads_all_tokens; repeat (eapply tokens_cons; [vm_compute; reflexivity|]); apply tokens_nil; vm_compute; reflexivity|].
    apply two_markers; reflexivity. }
  destruct R as (ts & R & m & D). eexists _, ts, m, _. split; [exact R|]. split; [exact D|].
  apply (ParseString_parses _ 1000). vm_compute. reflexivity.
Qed.
Print Assumptions C51_complete_refuted.

(** What is accepted: exactly the texts whose tokens have a derivation tree that
    [kept] (Conflicts.v) holds of, that is, without the nodes which the tables of y.go
    give up for another rule; and the module returned is that of the tree, up to
    pointers. *)
Theorem C51_accepts_exactly : forall U s sh,
  (exists m, parses U s (ParseOk (Some m)) /\ shape m = sh) <->
  exists T m, yields T (Nt N_ModuleDefinition (S_module m)) /\ kept 0 0 T = true /\ reads_all U s (leaves T)
    /\ shape m = sh.
Proof. exact accepts_exactly. Qed.
Print Assumptions C51_accepts_exactly.

(** The part of C51 that holds.  Missing: derivable texts all of whose trees lose a
    conflict. *)
Theorem C51_complete_partial : forall U s T m,
  yields T (Nt N_ModuleDefinition (S_module m)) -> kept 0 0 T = true -> reads_all U s (leaves T) ->
  exists m', parses U s (ParseOk (Some m')) /\ shape m' = shape m.
Proof. intros U s T m Y K R. apply (accepts_exactly U s (shape m)). exists T, m. auto. Qed.
Print Assumptions C51_complete_partial.

Example C51_example : exists T m,
  yields T (Nt N_ModuleDefinition (S_module m)) /\ kept 0 0 T = true /\
  reads_all ascii_tables "M DEFINITIONS ::= BEGIN T ::= SEQUENCE { a BOOLEAN, ... } END" (leaves T).
Proof.
  assert (R : exists ts, reads_all ascii_tables "M DEFINITIONS ::= BEGIN T ::= SEQUENCE { a BOOLEAN, ... } END" ts /\
    exists T m, yields T (Nt N_ModuleDefinition (S_module m)) /\ kept 0 0 T = true /\ leaves T = ts).
  { eexists. split; [apply reads_all_tokens; repeat (eapply tokens_cons; [vm_compute; reflexivity|]); apply tokens_nil; vm_compute; reflexivity|].
    match goal with |- context [leaves _ = [?t0; ?t1; ?t2; ?t3; ?t4; ?t5; ?t6; ?t7; ?t8; ?t9; ?t10; ?t11; ?t12; ?t13]] =>
      exists (Node 1 [Node 7 [Node 3 [Leaf t0]; Node 9 []]; Leaf t1; Node 20 []; Node 22 []; Leaf t2; Leaf t3; Node 23 [Node 27 []; Node 31 []; Node 47 [Node 49 [Node 54 [Node 2 [Leaf t4]; Leaf t5; Node 56 [Node 69 [Node 129 [Leaf t6; Leaf t7; Node 135 [Node 148 [Node 150 [Node 77 [Node 6 [Leaf t8]; Node 56 [Node 60 [Node 83 [Leaf t9]]]]]]; Leaf t10; Node 130 [Leaf t11]; Node 140 []; Node 133 []]; Leaf t12]]]]]]]; Leaf t13]) end.
    eexists. split; [tree_yields|]. split; vm_compute; reflexivity. }
  destruct R as (ts & R & T & m & Y & K & <-). exists T, m. auto.
Qed.
