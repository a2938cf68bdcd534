(** Properties C59 and C64-C66: syntax errors.  [parses] is in [ParserRuns.v]; [reads],
    [reads_all], [call] and [unread] in [LexRuns.v]; [token_called], [expecting],
    [begins_module] and [scanned] in the first section of [ErrorRuns.v]; [derives] in
    [Grammar.v]. *)
From Coq Require Import ZArith String Ascii List Bool Lia.
From Verif Require Import GoBase Utf8 Unicode Stream Tokens Ast Lexer Grammar Parser GrammarFacts LexSpec LexRuns ParserFacts ParserRuns ErrorPrefix ErrorRuns
  PropsLexer.
Import ListNotations.
Local Open Scope string_scope.
Local Open Scope list_scope.
Local Open Scope Z_scope.

(** The characters between tokens: tab, the line breaks, and space. *)
Definition white (c : ascii) : Prop := In (byte_of_ascii c) [9; 10; 11; 12; 13; 32].

(** * C59: errors are found where they are *)

(** If ParseString rejects a text because of a token in it (rather than because of its
    end, which the message calls [$end]), then it rejects every text that begins with it
    and goes on after white space, with the same message and the same line number. *)
Theorem C59_error_stable : forall U p line what c x,
  parses U p (ParseErr ("line " ++ sprint_int line ++ ": syntax error: unexpected " ++ what)) ->
  (forall rest, what <> "$end" ++ rest)%string -> white c ->
  parses U (p ++ String c x) (ParseErr ("line " ++ sprint_int line ++ ": syntax error: unexpected " ++ what)).
Proof.
  intros U p line what c x H N W. apply error_continued; [exact H| |].
  - destruct (String.prefix "$end" what) eqn:E; [exfalso|reflexivity].
    destruct what as [|c1 [|c2 [|c3 [|c4 r]]]]; cbn [String.prefix] in E;
      repeat match type of E with context [match ascii_dec ?a ?b with _ => _ end] => destruct (ascii_dec a b); [subst|discriminate E] end;
      try discriminate E. now apply (N r).
  - unfold white, isWhitespace in *. repeat destruct W as [<-|W]; try reflexivity. destruct W.
Qed.
Print Assumptions C59_error_stable.

(** No such continuation is accepted. *)
Theorem C59_no_completion : forall U p line what c x m,
  parses U p (ParseErr ("line " ++ sprint_int line ++ ": syntax error: unexpected " ++ what)) ->
  (forall rest, what <> "$end" ++ rest)%string -> white c ->
  ~ parses U (p ++ String c x) (ParseOk m).
Proof.
  intros U p line what c x m H N W K. pose proof (C59_error_stable U p line what c x H N W) as E.
  pose proof (parses_det U _ _ _ E K) as D. discriminate D.
Qed.
Print Assumptions C59_no_completion.

Definition c59_text : string := "M DEFINITIONS ::=" ++ String "010" "BEGIN A ::= ::=".

Example C59_example :
  parses ascii_tables c59_text (ParseErr ("line " ++ sprint_int 2 ++ ": syntax error: unexpected " ++ "ASSIGNMENT")) /\
  (forall rest, "ASSIGNMENT" <> "$end" ++ rest)%string /\ white " " /\
  parses ascii_tables (c59_text ++ String " " ("INTEGER" ++ String "010" "END")) (ParseErr "line 2: syntax error: unexpected ASSIGNMENT").
Proof.
  split; [apply (ParseString_parses _ 1000); vm_compute; reflexivity|]. split; [intros; discriminate|]. split; [vm_compute; auto 10|].
  apply (ParseString_parses _ 1000). vm_compute. reflexivity.
Qed.

(** * C64: what an error says *)

(** Every error that ParseString returns is one of these: the error that a call of Lex
    left in the lexer, returning a negative code; or a syntax error made right after a
    call of Lex.  The syntax error has the line where that call stopped reading, the
    name of the token that the call returned, and at most four tokens that would do. *)
Theorem C64_error_names_token : forall U s e, parses U s (ParseErr e) ->
  exists x v c v' x', scanned U s x /\ call U x v c v' x' /\
    ((c < 0 /\ lx_err x' = Some e) \/
     exists before ks, runes (bytes_of_string s) = before ++ unread x' /\ (length ks <= 4)%nat /\
       e = ("line " ++ sprint_int (1 + line_breaks before) ++ ": syntax error: unexpected " ++ token_called c ++ expecting ks)%string).
Proof.
  intros U s e H. destruct (error_named U s e H) as (x & v & c & v' & x' & V & C & [Q|(before & ks & B & L & E)]);
    exists x, v, c, v', x'; (split; [exact V|]); (split; [exact C|]); [now left|right].
  exists before, ks. rewrite line_breaks_eq. split; [exact B|]. split; [exact L|]. exact E.
Qed.
Print Assumptions C64_error_names_token.

Example C64_example :
  parses ascii_tables "M DEFINITIONS ::= BEGIN T ::= SEQUENCE a" (ParseErr "line 1: syntax error: unexpected VALUEIDENTIFIER, expecting OPEN_CURLY or OPEN_ROUND or SIZE or OF") /\
  token_called T_VALUEIDENTIFIER = "VALUEIDENTIFIER"%string /\
  expecting [T_OPEN_CURLY; T_OPEN_ROUND; T_SIZE; T_OF] = ", expecting OPEN_CURLY or OPEN_ROUND or SIZE or OF"%string.
Proof.
  split; [apply (ParseString_parses _ 1000); vm_compute; reflexivity|]. split; reflexivity.
Qed.

(** * C65: errors are found at the first token that cannot continue a module *)

(** A rejected text is read up to some token, or up to an error of the lexer.  What was
    read before it is the beginning of a module.  If the lexer did not fail, the error
    names that token and its line. *)
Theorem C65_error_position : forall U s e, parses U s (ParseErr e) ->
  exists ts v x c v' x', reads U s ts v x /\ begins_module ts /\ call U x v c v' x' /\
    (c < 0 \/ (0 <= c /\ exists before rest, runes (bytes_of_string s) = before ++ unread x' /\
       e = ("line " ++ sprint_int (1 + line_breaks before) ++ ": syntax error: unexpected " ++ token_called c ++ rest)%string)).
Proof.
  intros U s e H. destruct (error_viable U s e H) as (ts & v & x & c & v' & x' & B & R & C & Q).
  exists ts, v, x, c, v', x'. split; [exact R|]. split; [exact B|]. split; [exact C|].
  destruct Q as [Q|(N & before & ks & Bf & _ & E & _)]; [now left|right]. split; [exact N|]. exists before, (expecting ks).
  rewrite line_breaks_eq. split; [exact Bf|]. exact E.
Qed.
Print Assumptions C65_error_position.

(** If the lexer reads all of a rejected text, the error names the token after some
    beginning of a module, or the end of the text if all of it is one. *)
Theorem C65_error_token : forall U s ts e, reads_all U s ts -> parses U s (ParseErr e) ->
  exists pre post line rest, ts = pre ++ post /\ begins_module pre /\
    e = ("line " ++ sprint_int line ++ ": syntax error: unexpected " ++
         match post with [] => "$end" | t :: _ => token_called (tk_kind t) end ++ rest)%string.
Proof.
  intros U s ts e R H. destruct (error_tokens U s ts e R H) as (pre & post & line & ks & E & B & _ & M & _).
  exists pre, post, line, (expecting ks). split; [exact E|]. split; [exact B|]. rewrite M. destruct post; reflexivity.
Qed.
Print Assumptions C65_error_token.

Definition c65_words : list token :=
  [{| tk_kind := T_TYPEORMODULEREFERENCE; tk_name := "M"; tk_number := 0 |}; {| tk_kind := T_DEFINITIONS; tk_name := ""; tk_number := 0 |};
   {| tk_kind := T_ASSIGNMENT; tk_name := ""; tk_number := 0 |}; {| tk_kind := T_BEGIN; tk_name := ""; tk_number := 0 |};
   {| tk_kind := T_TYPEORMODULEREFERENCE; tk_name := "T"; tk_number := 0 |}; {| tk_kind := T_ASSIGNMENT; tk_name := ""; tk_number := 0 |};
   {| tk_kind := T_SEQUENCE; tk_name := ""; tk_number := 0 |}].

Definition c65_word (k : Z) : token := {| tk_kind := k; tk_name := ""; tk_number := 0 |}.

(** The text "M DEFINITIONS ::= BEGIN T ::= SEQUENCE ::=" is rejected; its first seven
    tokens begin a module, also with "{" after them. *)
Example C65_example :
  reads_all ascii_tables "M DEFINITIONS ::= BEGIN T ::= SEQUENCE ::=" (c65_words ++ [c65_word T_ASSIGNMENT]) /\
  parses ascii_tables "M DEFINITIONS ::= BEGIN T ::= SEQUENCE ::=" (ParseErr ("line 1: syntax error: unexpected ASSIGNMENT" ++ expecting [T_OPEN_CURLY; T_OPEN_ROUND; T_SIZE; T_OF])) /\
  begins_module c65_words /\ begins_module (c65_words ++ [c65_word T_OPEN_CURLY]).
Proof.
  split; [apply reads_all_tokens; repeat (eapply tokens_cons; [vm_compute; reflexivity|]); apply tokens_nil; vm_compute; reflexivity|].
  split; [apply (ParseString_parses _ 1000); vm_compute; reflexivity|].
  assert (B : begins_module (c65_words ++ [c65_word T_OPEN_CURLY])).
  { set (s := "M DEFINITIONS ::= BEGIN T ::= SEQUENCE { } END"%string).
    assert (R : reads_all ascii_tables s ((c65_words ++ [c65_word T_OPEN_CURLY]) ++ [c65_word T_CLOSE_CURLY; c65_word T_END])).
    { apply reads_all_tokens; repeat (eapply tokens_cons; [vm_compute; reflexivity|]); apply tokens_nil; vm_compute; reflexivity. }
    assert (P : exists m, parses ascii_tables s (ParseOk (Some m))).
    { eexists. apply (ParseString_parses _ 1000). vm_compute. reflexivity. }
    destruct P as (m & P). destruct (parses_outcome _ _ _ P) as [(e & E)|(m1 & ts & m2 & _ & R' & D & _)]; [discriminate E|].
    apply reads_all_tokens in R, R'. pose proof (tokens_det _ _ _ _ R _ R') as ->. exists [c65_word T_CLOSE_CURLY; c65_word T_END], m2. exact D. }
  split; [|exact B]. destruct B as (ts' & m & D). exists (c65_word T_OPEN_CURLY :: ts'), m. rewrite <- app_assoc in D. exact D.
Qed.

(** * C66: what the parser expects *)

(** Every token named after "expecting" is right: with any token of that kind instead of
    the offending one the text read so far is still the beginning of a module. *)
Theorem C66_expected : forall U s ts e, reads_all U s ts -> parses U s (ParseErr e) ->
  exists pre post line ks, ts = pre ++ post /\ (length ks <= 4)%nat /\
    e = ("line " ++ sprint_int line ++ ": syntax error: unexpected " ++
         match post with [] => "$end" | t :: _ => token_called (tk_kind t) end ++ expecting ks)%string /\
    forall tok, In (tk_kind tok) ks -> begins_module (pre ++ [tok]).
Proof.
  intros U s ts e R H. destruct (error_tokens U s ts e R H) as (pre & post & line & ks & E & _ & L & M & X).
  exists pre, post, line, ks. split; [exact E|]. split; [exact L|]. split; [|exact X]. rewrite M. destruct post; reflexivity.
Qed.
Print Assumptions C66_expected.

Example C66_example : exists ts,
  reads_all ascii_tables "M DEFINITIONS" ts /\
  parses ascii_tables "M DEFINITIONS" (ParseErr ("line 1: syntax error: unexpected $end" ++ expecting [T_ASSIGNMENT])).
Proof.
  eexists. split; [apply reads_all_tokens; repeat (eapply tokens_cons; [vm_compute; reflexivity|]); apply tokens_nil; vm_compute; reflexivity|].
  apply (ParseString_parses _ 1000). vm_compute. reflexivity.
Qed.

(** * C67: not all that the parser would take *)

(** False: after "M DEFINITIONS" the error expects ASSIGNMENT only, but the word EXPLICIT
    may stand there too, and a text that goes on with it is accepted. *)
Theorem C67_all_expected_refuted : exists s s' ts ts' tok m,
  reads_all ascii_tables s ts /\
  parses ascii_tables s (ParseErr ("line 1: syntax error: unexpected $end" ++ expecting [T_ASSIGNMENT])) /\
  reads_all ascii_tables s' (ts ++ tok :: ts') /\ tk_kind tok = T_EXPLICIT /\ parses ascii_tables s' (ParseOk m).
Proof.
  eexists "M DEFINITIONS"%string, "M DEFINITIONS EXPLICIT TAGS ::= BEGIN END"%string,
    [{| tk_kind := T_TYPEORMODULEREFERENCE; tk_name := "M"; tk_number := 0 |}; c65_word T_DEFINITIONS], _, _, _.
  split; [apply reads_all_tokens; repeat (eapply tokens_cons; [vm_compute; reflexivity|]); apply tokens_nil; vm_compute; reflexivity|].
  split; [apply (ParseString_parses _ 1000); vm_compute; reflexivity|].
  split; [cbn [app]; apply reads_all_tokens; repeat (eapply tokens_cons; [vm_compute; reflexivity|]); apply tokens_nil; vm_compute; reflexivity|].
  split; [reflexivity|]. apply (ParseString_parses _ 1000). vm_compute. reflexivity.
Qed.
Print Assumptions C67_all_expected_refuted.
