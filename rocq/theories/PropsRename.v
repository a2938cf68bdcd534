(** Properties C81 and C82: names mean nothing to the parser, and whether a text is
    accepted depends on the kinds of its tokens only.  Renaming is specified in [Rename.v]. *)
From Coq Require Import ZArith String Ascii Bool List Lia.
From Verif Require Import GoBase Utf8 Unicode Reader Stream Tokens Ast Lexer Driver Parser
  LexErr LexTotal LexSpec LexEq LexRuns ParserFacts ParserRuns Rename RenameFacts KindSim Grammar GrammarFacts.
Import ListNotations.
Local Open Scope string_scope.
Local Open Scope list_scope.
Local Open Scope Z_scope.

Section Alike.
  Context (U : unicode_tables) (rn : string -> string) (Prop_rn : proper_renaming rn).

  (** The lexers of two texts, one of which has the tokens of the other renamed. *)
  Definition alike (fuel : nat) (x y : lexer stream) : Prop :=
    exists r1 e1 n1 k1 r2 e2 n2 k2 ts, st x r1 e1 n1 k1 /\ st y r2 e2 n2 k2 /\ errs e1 e2 /\
      tokens U n1 r1 ts /\ tokens U n2 r2 (map (token_ren rn) ts) /\ (length r1 + 2 <= fuel)%nat /\ (length r2 + 2 <= fuel)%nat.

  Lemma lval_of_ren v t : lval_of (lval_ren rn v) (token_ren rn t) = lval_ren rn (lval_of v t).
  Proof.
    unfold lval_of, token_ren. destruct (tk_kind t =? T_NUMBER) eqn:N.
    - apply Z.eqb_eq in N. rewrite N. cbn. rewrite N. reflexivity.
    - destruct ((tk_kind t =? T_TYPEORMODULEREFERENCE) || (tk_kind t =? T_VALUEIDENTIFIER)) eqn:E; cbn [tk_kind tk_name]; rewrite N, E; reflexivity.
  Qed.

  Lemma token_ren_kind t : tk_kind (token_ren rn t) = tk_kind t.
  Proof. unfold token_ren. now destruct (_ || _). Qed.

  Lemma alike_lex fuel x y v c v' x' : alike fuel x y -> Lex stream_ops U fuel x v = Ok (c, v', x') ->
    exists y', Lex stream_ops U fuel y (lval_ren rn v) = Ok (c, lval_ren rn v', y') /\ alike fuel x' y'.
  Proof.
    intros (r1 & e1 & n1 & k1 & r2 & e2 & n2 & k2 & ts & S1 & S2 & Er & T1 & T2 & L1 & L2) E.
    destruct (Lex_eq U fuel x v r1 e1 n1 k1 S1 L1) as (c1 & v1 & x1 & E1 & Q1). rewrite E in E1. injection E1 as <- <- <-.
    destruct (Lex_eq U fuel y (lval_ren rn v) r2 e2 n2 k2 S2 L2) as (c2 & v2 & y' & E2 & Q2).
    inversion T1 as [n a N1|n a t n' rest us N1 T1']; subst; cbn [map] in T2.
    - inversion T2 as [n b N2|]; subst. rewrite N1 in Q1. rewrite N2 in Q2. cbn [lexed] in Q1, Q2.
      destruct Q1 as (-> & -> & Q1), Q2 as (-> & -> & Q2). exists y'. split; [exact E2|].
      exists [], e1, false, k1, [], e2, false, k2, []. repeat (split; [first [assumption|constructor; reflexivity]|]).
      cbn [length]. lia.
    - inversion T2 as [|n b t2 n2' rest2 us2 N2 T2']; subst. pose proof (next_length U _ _ _ _ _ N1). pose proof (next_length U _ _ _ _ _ N2).
      rewrite N1 in Q1. rewrite N2 in Q2. cbn [lexed] in Q1, Q2.
      destruct Q1 as (-> & (_ & ->) & _ & Q1), Q2 as (-> & (_ & ->) & _ & Q2). exists y'.
      rewrite lval_of_ren, token_ren_kind in E2. split; [exact E2|].
      exists rest, e1, n', k1, rest2, e2, n2', k2, us. repeat (split; [assumption|]). lia.
  Qed.

  Lemma alike_Error fuel x y m : alike fuel x y -> alike fuel (Error x m) (Error y m).
  Proof.
    intros (r1 & e1 & n1 & k1 & r2 & e2 & n2 & k2 & ts & S1 & S2 & Er & R).
    exists r1, (located k1 r1 m), n1, k1, r2, (located k2 r2 m), n2, k2, ts.
    split; [eapply st_Error; exact S1|]. split; [eapply st_Error; exact S2|]. split; [apply Error_errs|exact R].
  Qed.
End Alike.

(** * C81: names mean nothing to the parser *)

(** The result for the renamed text. *)
Definition result_ren (rn : string -> string) (r : parse_result) : parse_result :=
  match r with ParseOk m => ParseOk (option_map (module_ren rn) m) | ParseErr e => ParseErr e end.

(** If the tokens of [s'] are those of [s] with the names replaced as [rn] says (in any
    layout, not necessarily one-to-one), then [s'] gives the tree of [s] with the names
    replaced by [rn], or both give the same error but for the line number. *)
Theorem C81_renaming : forall U rn s s' ts r, proper_renaming rn ->
  reads_all U s ts -> reads_all U s' (map (token_ren rn) ts) -> parses U s r ->
  exists r', parses U s' r' /\ same_result (result_ren rn r) r'.
Proof.
  intros U rn s s' ts r Pr R1 R2 [n H]. apply reads_all_tokens in R1, R2.
  set (f := (n + (length (runes (bytes_of_string s)) + length (runes (bytes_of_string s')) + 2))%nat).
  specialize (H f ltac:(lia)). unfold ParseString, ParseStream, ParseReader in H.
  destruct (yyParse (Lex stream_ops U f) Error f (new_lexer (stream_of_bytes (bytes_of_string s)))) as [[c ps]| |] eqn:P; try discriminate H.
  cbn [rbind] in H.
  destruct (yyParse_sim rn Pr (Lex stream_ops U f) Error (Lex stream_ops U f) Error (alike U rn f) (alike_lex U rn f) (alike_Error U rn f)
    f (new_lexer (stream_of_bytes (bytes_of_string s))) (new_lexer (stream_of_bytes (bytes_of_string s'))) c ps) as (y & P' & A); [|exact P|].
  { exists (runes (bytes_of_string s)), None, false, (breaks (runes (bytes_of_string s))),
      (runes (bytes_of_string s')), None, false, (breaks (runes (bytes_of_string s'))), ts.
    split; [apply st_init|]. split; [apply st_init|]. split; [exact I|]. split; [exact R1|]. split; [exact R2|]. lia. }
  destruct A as (r1 & e1 & n1 & k1 & r2 & e2 & n2 & k2 & us & S1 & S2 & Er & _).
  assert (Q : ParseString U f s' = match e2 with Some e => Ok (ParseErr e)
      | None => Ok (ParseOk (option_map (module_ren rn) (option_map (resolve (arrays ps)) (ps_result ps)))) end).
  { unfold ParseString, ParseStream, ParseReader. rewrite P'. cbn [rbind relx ps_lx]. rewrite (st_err _ _ _ _ _ S2).
    destruct e2; [reflexivity|]. unfold relx, arrays. cbn [ps_old ps_S ps_result].
    change (map (map (slot_ren rn)) (ps_old ps) ++ [map (slot_ren rn) (ps_S ps)]) with
      (map (map (slot_ren rn)) (ps_old ps) ++ map (map (slot_ren rn)) [ps_S ps]). rewrite <- map_app.
    destruct (ps_result ps) as [m|]; [|reflexivity]. cbn [option_map]. now rewrite resolve_ren. }
  rewrite (st_err _ _ _ _ _ S1) in H.
  destruct e1 as [e1|], e2 as [e2|]; cbn [errs] in Er; try contradiction; injection H as <-;
    (eexists; split; [exact (ParseString_parses _ _ _ _ Q)|]).
  - exact Er.
  - reflexivity.
Qed.
Print Assumptions C81_renaming.

Example C81_example :
  let rn := fun x => if String.eqb x "Person" then "Human" else if String.eqb x "id" then "zz" else x in
  let s := "M DEFINITIONS ::= BEGIN Person ::= SEQUENCE { id INTEGER DEFAULT 3 } Q ::= SET OF Person END" in
  let s' := ("M DEFINITIONS ::= BEGIN Human ::= SEQUENCE { zz INTEGER DEFAULT 3 }" ++ String (ascii_of_nat 10) " Q ::= SET OF Human END")%string in
  exists ts m, proper_renaming rn /\ reads_all ascii_tables s ts /\ reads_all ascii_tables s' (map (token_ren rn) ts) /\
    parses ascii_tables s (ParseOk (Some m)) /\ parses ascii_tables s' (ParseOk (Some (module_ren rn m))) /\ module_ren rn m <> m.
Proof.
  intros rn s s'. eexists _, _. split; [repeat split|].
  split; [apply reads_all_tokens; repeat (eapply tokens_cons; [vm_compute; reflexivity|]); apply tokens_nil; vm_compute; reflexivity|].
  split; [apply reads_all_tokens; cbn [map]; repeat (eapply tokens_cons; [vm_compute; reflexivity|]); apply tokens_nil; vm_compute; reflexivity|].
  split; [apply (ParseString_parses _ 1000); vm_compute; reflexivity|].
  split; [apply (ParseString_parses _ 1000); vm_compute; reflexivity|]. vm_compute. discriminate.
Qed.

(** An error is the same as well. *)
Example C81_error_example :
  let rn := fun x => if String.eqb x "Person" then "Human" else x in
  let s := "M DEFINITIONS ::= BEGIN Person ::= Person Person END" in
  let s' := "M DEFINITIONS ::= BEGIN Human ::= Human Human END" in
  exists ts e, reads_all ascii_tables s ts /\ reads_all ascii_tables s' (map (token_ren rn) ts) /\
    parses ascii_tables s (ParseErr e) /\ parses ascii_tables s' (ParseErr e).
Proof.
  intros rn s s'. eexists _, _.
  split; [apply reads_all_tokens; repeat (eapply tokens_cons; [vm_compute; reflexivity|]); apply tokens_nil; vm_compute; reflexivity|].
  split; [apply reads_all_tokens; cbn [map]; repeat (eapply tokens_cons; [vm_compute; reflexivity|]); apply tokens_nil; vm_compute; reflexivity|].
  split; apply (ParseString_parses _ 1000); vm_compute; reflexivity.
Qed.

(** * C82: acceptance depends on the kinds of the tokens only *)

Section Kinds.
  Context (U : unicode_tables).

  (** The lexers of two texts whose tokens are of the same kinds. *)
  Definition of_kinds (fuel : nat) (x y : lexer stream) : Prop :=
    exists r1 e1 n1 k1 r2 e2 n2 k2 ts us, st x r1 e1 n1 k1 /\ st y r2 e2 n2 k2 /\ errs e1 e2 /\
      tokens U n1 r1 ts /\ tokens U n2 r2 us /\ map tk_kind us = map tk_kind ts /\ (length r1 + 2 <= fuel)%nat /\ (length r2 + 2 <= fuel)%nat.

  Lemma of_kinds_lex fuel x y v w c v' x' : of_kinds fuel x y -> Lex stream_ops U fuel x v = Ok (c, v', x') ->
    exists w' y', Lex stream_ops U fuel y w = Ok (c, w', y') /\ of_kinds fuel x' y'.
  Proof.
    intros (r1 & e1 & n1 & k1 & r2 & e2 & n2 & k2 & ts & us & S1 & S2 & Er & T1 & T2 & K & L1 & L2) E.
    destruct (Lex_eq U fuel x v r1 e1 n1 k1 S1 L1) as (c1 & v1 & x1 & E1 & Q1). rewrite E in E1. injection E1 as <- <- <-.
    destruct (Lex_eq U fuel y w r2 e2 n2 k2 S2 L2) as (c2 & v2 & y' & E2 & Q2).
    inversion T1 as [n a N1|n a t n' rest vs N1 T1']; subst.
    - destruct us as [|u us]; [|discriminate K].
      inversion T2 as [n b N2|]; subst. rewrite N1 in Q1. rewrite N2 in Q2. cbn [lexed] in Q1, Q2.
      destruct Q1 as (-> & -> & Q1), Q2 as (-> & -> & Q2). exists w, y'. split; [exact E2|].
      exists [], e1, false, k1, [], e2, false, k2, [], []. repeat (split; [first [assumption|constructor; reflexivity|reflexivity]|]).
      cbn [length]. lia.
    - destruct us as [|u us]; [discriminate K|]. cbn [map] in K. injection K as Ku K.
      inversion T2 as [|n b t2 n2' rest2 us2 N2 T2']; subst. pose proof (next_length U _ _ _ _ _ N1). pose proof (next_length U _ _ _ _ _ N2).
      rewrite N1 in Q1. rewrite N2 in Q2. cbn [lexed] in Q1, Q2.
      destruct Q1 as (-> & (_ & ->) & _ & Q1), Q2 as (-> & (_ & ->) & _ & Q2). rewrite Ku in E2. eexists _, y'.
      split; [exact E2|].
      exists rest, e1, n', k1, rest2, e2, n2', k2, vs, us. repeat (split; [assumption|]). lia.
  Qed.

  Lemma of_kinds_Error fuel x y m : of_kinds fuel x y -> of_kinds fuel (Error x m) (Error y m).
  Proof.
    intros (r1 & e1 & n1 & k1 & r2 & e2 & n2 & k2 & ts & us & S1 & S2 & Er & R).
    exists r1, (located k1 r1 m), n1, k1, r2, (located k2 r2 m), n2, k2, ts, us.
    split; [eapply st_Error; exact S1|]. split; [eapply st_Error; exact S2|]. split; [apply Error_errs|exact R].
  Qed.
End Kinds.

(** Both results are modules, or both are errors that differ at most in the line number. *)
Definition same_verdict (a b : parse_result) : Prop :=
  match a, b with
  | ParseOk (Some _), ParseOk (Some _) => True
  | ParseErr e, ParseErr e' => exists l l' msg, e = ("line " ++ l ++ ": " ++ msg)%string /\ e' = ("line " ++ l' ++ ": " ++ msg)%string
  | _, _ => False
  end.

Theorem C82_kinds : forall U s s' ts us r r', reads_all U s ts -> reads_all U s' us -> map tk_kind us = map tk_kind ts ->
  parses U s r -> parses U s' r' -> same_verdict r r'.
Proof.
  intros U s s' ts us r r' R1 R2 K Pr1 Pr2.
  assert (Shape : forall x q, parses U x q -> match q with ParseOk None => False | _ => True end).
  { intros x q Hq. destruct (parses_outcome U x q Hq) as [(e & ->)|(m & _ & _ & -> & _)]; exact I. }
  pose proof (Shape _ _ Pr1) as Sh1. pose proof (Shape _ _ Pr2) as Sh2. clear Shape.
  destruct Pr1 as [n H], Pr2 as [n2 H2]. apply reads_all_tokens in R1, R2.
  set (f := (n + n2 + (length (runes (bytes_of_string s)) + length (runes (bytes_of_string s')) + 2))%nat).
  specialize (H f ltac:(lia)). specialize (H2 f ltac:(lia)). unfold ParseString, ParseStream, ParseReader in H, H2.
  destruct (yyParse (Lex stream_ops U f) Error f (new_lexer (stream_of_bytes (bytes_of_string s)))) as [[c ps]| |] eqn:P; try discriminate H.
  cbn [rbind] in H.
  destruct (yyParse_kind (Lex stream_ops U f) Error (Lex stream_ops U f) Error (of_kinds U f)
    (fun x y v w c v' x' => of_kinds_lex U f x y v w c v' x') (of_kinds_Error U f)
    f (new_lexer (stream_of_bytes (bytes_of_string s))) (new_lexer (stream_of_bytes (bytes_of_string s'))) c ps) as (y & P' & A); [|exact P|].
  { exists (runes (bytes_of_string s)), None, false, (breaks (runes (bytes_of_string s))),
      (runes (bytes_of_string s')), None, false, (breaks (runes (bytes_of_string s'))), ts, us.
    split; [apply st_init|]. split; [apply st_init|]. split; [exact I|]. split; [exact R1|]. split; [exact R2|]. split; [exact K|]. lia. }
  rewrite P' in H2. cbn [rbind] in H2.
  destruct A as (_ & _ & _ & _ & _ & _ & r1 & e1 & n1 & k1 & r2 & e2 & n3 & k2 & vs & ws & S1 & S2 & Er & _).
  rewrite (st_err _ _ _ _ _ S1) in H. rewrite (st_err _ _ _ _ _ S2) in H2.
  destruct e1 as [e1|], e2 as [e2|]; cbn [errs] in Er; try contradiction; injection H as <-; injection H2 as <-.
  - exact Er.
  - destruct (option_map _ (ps_result ps)); [|contradiction]. destruct (option_map _ (ps_result y)); [exact I|contradiction].
Qed.
Print Assumptions C82_kinds.

(** Names that are not defined, defined twice or used in conflicting ways, numbers that
    make no sense: nothing of this is an error of ParseString. *)
Example C82_example :
  let s := "M DEFINITIONS ::= BEGIN T ::= SEQUENCE { a [0] U, b [1] V } U ::= INTEGER (0..5) V ::= U END" in
  let s' := "M DEFINITIONS ::= BEGIN T ::= SEQUENCE { x [7] X, x [7] Y } T ::= INTEGER (9..2) T ::= T END" in
  exists ts us m m', reads_all ascii_tables s ts /\ reads_all ascii_tables s' us /\ map tk_kind us = map tk_kind ts /\
    parses ascii_tables s (ParseOk (Some m)) /\ parses ascii_tables s' (ParseOk (Some m')) /\ m <> m'.
Proof.
  intros s s'. eexists _, _, _, _.
  split; [apply reads_all_tokens; repeat (eapply tokens_cons; [vm_compute; reflexivity|]); apply tokens_nil; vm_compute; reflexivity|].
  split; [apply reads_all_tokens; repeat (eapply tokens_cons; [vm_compute; reflexivity|]); apply tokens_nil; vm_compute; reflexivity|].
  split; [reflexivity|].
  split; [apply (ParseString_parses _ 1000); vm_compute; reflexivity|].
  split; [apply (ParseString_parses _ 1000); vm_compute; reflexivity|]. discriminate.
Qed.
