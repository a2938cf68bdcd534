(** What ParseString accepts: the texts whose tokens have a derivation tree that loses
    no conflict. *)
From Coq Require Import ZArith String List Bool Lia.
From Verif Require Import GoBase Utf8 Unicode Reader Stream Tokens Lexer Ast AstFacts Grammar Driver Parser
  LexErr LexTotal LexSpec LexEq LexRuns ActionSound DriverFacts DriverRun DriverSound Conflicts Complete ExactRun ParserFacts ParserRuns.
Import ListNotations.
Local Open Scope Z_scope.

Section Accept.
  Context (U : unicode_tables).

  Lemma gives_tokens fuel n rs ts : tokens U n rs ts -> forall x v k, st x rs None n k -> (length rs + 2 <= fuel)%nat ->
    exists xf, gives (Lex stream_ops U fuel) x v ts xf /\ lx_err xf = None.
  Proof.
    induction 1 as [n rs E|n rs t n' rest ts E T IH]; intros x v k S1 Ln;
      destruct (Lex_eq U fuel x v rs None n k S1 Ln) as (c & v' & x' & El & Q); rewrite E in Q; cbn [lexed] in Q.
    - destruct Q as (-> & -> & S2). exists x'. split; [|now apply st_err in S2]. eapply gives_end. exact El.
    - destruct Q as (Ec & (C & _) & Et & S2). pose proof (next_length _ _ _ _ _ _ E) as Lr.
      destruct (IH x' v' k S2 ltac:(lia)) as (xf & G & Er). exists xf. split; [|exact Er].
      rewrite <- Et. eapply gives_token; [exact El|lia|exact G].
  Qed.

  Lemma complete s T v : yields T (Nt N_ModuleDefinition v) -> kept 0 0 T = true ->
    reads_all U s (leaves T) -> exists m m', v = S_module m /\ parses U s (ParseOk (Some m')) /\ shape m' = shape m.
  Proof.
    intros Y K R. apply reads_all_tokens in R.
    set (f := (length (runes (bytes_of_string s)) + 2)%nat).
    destruct (gives_tokens f _ _ _ R _ lexval0 _ (st_init s) ltac:(lia)) as (xf & G & Er).
    destruct (parse_complete (Lex stream_ops U f) Error _ T _ xf Y K G) as (g & ps & m1 & P & Lx & Rs & Ev).
    exists (snapM m1), (resolve (arrays ps) m1). split; [exact Ev|]. split; [|apply shape_resolve].
    apply (ParseString_parses _ (f + g)). unfold ParseString, ParseStream, ParseReader.
    assert (Q : yyParse (Lex stream_ops U (f + g)) Error (f + g) (new_lexer (stream_of_bytes (bytes_of_string s))) = Ok (0, ps)).
    { unfold yyParse in *. refine (run_mono (Lex stream_ops U f) _ Error _ g _ _ _ _ _ P); [|lia].
      intros x v' a. apply Lex_mono. lia. }
    rewrite Q. cbn [rbind]. rewrite Lx, Er, Rs. reflexivity.
  Qed.

  Lemma exact s m : parses U s (ParseOk (Some m)) ->
    exists T v, yields T (Nt N_ModuleDefinition v) /\ kept 0 0 T = true /\ reads_all U s (leaves T).
  Proof.
    intros P. destruct (parses_outcome U s _ P) as [(e & E)|(m1 & w & m' & E & R & (T0 & Y0 & L0) & _)]; [discriminate E|].
    assert (K : Forall (fun t => kind_ok (tk_kind t)) w).
    { rewrite <- L0. apply (leaves_ok _ _ Y0). discriminate. }
    clear T0 Y0 L0. apply reads_all_tokens in R.
    destruct P as [n P]. set (f := (n + (length (runes (bytes_of_string s)) + 2))%nat). specialize (P f ltac:(lia)).
    unfold ParseString, ParseStream, ParseReader in P.
    destruct (gives_tokens f _ _ _ R _ lexval0 _ (st_init s) ltac:(lia)) as (xf & G & Er).
    destruct (yyParse (Lex stream_ops U f) Error f (new_lexer (stream_of_bytes (bytes_of_string s)))) as [[c ps]| |] eqn:Y;
      try discriminate P. cbn [rbind] in P.
    pose proof (parse_sound (Lex stream_ops U f) Error (fun x => lx_err x <> None) (bad_keep stream_ops U f)
      (bad_neg stream_ops U f) bad_Error _ f c ps Y) as O.
    destruct (lx_err (ps_lx ps)) eqn:El; [discriminate P|].
    destruct (parse_exact (Lex stream_ops U f) Error w xf f _ c ps G K Y) as [->|[-> (T & v & Yt & Kt & Lt)]].
    - exfalso. destruct O as [[_ B]|[Q _]]; [now apply B|discriminate Q].
    - exists T, v. rewrite <- Lt in R. split; [exact Yt|]. split; [exact Kt|]. now apply reads_all_tokens.
  Qed.

  (** The texts that ParseString accepts, and the modules it returns. *)
  Theorem accepts_exactly s sh : (exists m, parses U s (ParseOk (Some m)) /\ shape m = sh) <->
    exists T m, yields T (Nt N_ModuleDefinition (S_module m)) /\ kept 0 0 T = true /\ reads_all U s (leaves T)
      /\ shape m = sh.
  Proof.
    split.
    - intros (m & P & <-). destruct (exact s m P) as (T & v & Y & K & R).
      destruct (complete s T v Y K R) as (m1 & m2 & -> & P2 & Sh). pose proof (parses_det U s _ _ P P2) as E.
      injection E as ->. exists T, m1. auto.
    - intros (T & m & Y & K & R & <-). destruct (complete s T _ Y K R) as (m1 & m2 & E & P & Sh).
      injection E as ->. exists m2. auto.
  Qed.
End Accept.
