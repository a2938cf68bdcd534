(** ParseStream and ParseString: fuel, panics, outcomes. *)
From Coq Require Import ZArith String Ascii Bool List Lia.
From Verif Require Import GoBase Utf8 Unicode Reader Stream Tokens Lexer Ast AstFacts Grammar Driver Parser
  LexErr LexTotal LexSpec LexEq ActionSound DriverFacts DriverRun DriverSound.
Import ListNotations.
Local Open Scope Z_scope.

(** ** More fuel *)

Section Mono.
  Context {L : Type}.
  Context (lex1 lex2 : L -> lexval -> res (Z * lexval * L)) (lex_Error : L -> string -> L).
  Context (LE : forall x v a, lex1 x v = Ok a -> lex2 x v = Ok a).

  Lemma need_token_mono ps a : need_token lex1 ps = Ok a -> need_token lex2 ps = Ok a.
  Proof.
    unfold need_token. destruct (ps_char ps <? 0); [|auto]. unfold yylex1. apply rbind_mono; [apply LE|auto].
  Qed.

  Lemma step_mono l ps o : step lex1 lex_Error l ps = Ok o -> step lex2 lex_Error l ps = Ok o.
  Proof.
    destruct l; cbn [step].
    - auto.
    - unfold step_newstate. apply rbind_mono; [auto|]. intros n. destruct (n <=? _); [auto|].
      apply rbind_mono; [apply need_token_mono|auto].
    - unfold step_default. apply rbind_mono; [auto|]. intros n. destruct (n =? -2); [|auto].
      apply rbind_mono; [apply need_token_mono|auto].
  Qed.

  Lemma run_mono n m : (n <= m)%nat -> forall l ps a,
    run lex1 lex_Error n l ps = Ok a -> run lex2 lex_Error m l ps = Ok a.
  Proof.
    revert m. induction n as [|n IH]; intros m H l ps a; [discriminate|]. destruct m as [|m]; [lia|].
    cbn [run]. apply rbind_mono; [apply step_mono|]. intros [l' ps'|c ps']; [|auto]. apply IH. lia.
  Qed.
End Mono.

Lemma ParseReader_mono {R} (ops : reader_ops R) U n m rd a : (n <= m)%nat ->
  ParseReader ops U n rd = Ok a -> ParseReader ops U m rd = Ok a.
Proof.
  intros H. unfold ParseReader. apply rbind_mono; [|auto]. intros p. unfold yyParse.
  apply run_mono; [|exact H]. intros x v b. now apply Lex_mono.
Qed.

(** ** Outcomes *)

Section Outcome.
  Context {R : Type} (ops : reader_ops R) (U : unicode_tables) (fuel : nat) (rd : R).
  Notation lex := (Lex ops U fuel).

  Let Bad_ (x : lexer R) : Prop := lx_err x <> None.

  Lemma bad_keep x v c v' x' : Bad_ x -> lex x v = Ok (c, v', x') -> Bad_ x'.
  Proof.
    intros B E. apply Lex_err in E. destruct E as [[_ E]|[_ E]]; [unfold Bad_ in *; congruence|exact E].
  Qed.

  Lemma bad_neg x v c v' x' : lex x v = Ok (c, v', x') -> c < 0 -> Bad_ x'.
  Proof. intros E N. apply Lex_err in E. destruct E as [[P _]|[_ E]]; [lia|exact E]. Qed.

  Lemma bad_Error (x : lexer R) m : Bad_ (Error x m).
  Proof. discriminate. Qed.

  (** What a parse that has returned has done. *)
  Lemma reader_outcome r : ParseReader ops U fuel rd = Ok r ->
    (exists e, r = ParseErr e) \/
    exists c ps m w x v v', yyParse lex Error fuel (new_lexer rd) = Ok (c, ps) /\
      r = ParseOk (Some (resolve (arrays ps) m)) /\ feed lex (new_lexer rd) lexval0 w x v /\
      lex x v = Ok (0, v', ps_lx ps) /\ lx_err (ps_lx ps) = None /\
      derives N_ModuleDefinition w (S_module (snapM m)).
  Proof.
    unfold ParseReader. destruct (yyParse lex Error fuel (new_lexer rd)) as [[c ps]| |] eqn:P; try discriminate.
    cbn [rbind]. pose proof (parse_sound lex Error Bad_ bad_keep bad_neg bad_Error (new_lexer rd) fuel c ps P) as O.
    destruct (lx_err (ps_lx ps)) as [e|] eqn:E.
    - intros H. injection H as <-. left. eauto.
    - intros H. injection H as <-. right.
      destruct O as [[_ B]|[_ [B|(w & x & v & v' & m & F & Lx & Rs & D)]]]; [now elim B|now elim B|].
      rewrite Rs. cbn [option_map]. exists c, ps, m, w, x, v, v'. auto 10.
  Qed.
End Outcome.

(** ** Streams *)

Section Streams.
  Context (U : unicode_tables).

  Lemma lex_no_panic fuel x v w : Lex stream_ops U fuel x v <> Panic w.
  Proof. pose proof (Lex_ok U fuel x v) as H. destruct (Lex stream_ops U fuel x v); [discriminate|destruct H|discriminate]. Qed.

  Lemma stream_no_panic fuel s w : ParseStream U fuel s <> Panic w.
  Proof.
    unfold ParseStream, ParseReader. intros H.
    destruct (yyParse (Lex stream_ops U fuel) Error fuel (new_lexer s)) as [[c ps]|w'|] eqn:P; cbn [rbind] in H.
    - destruct (lx_err (ps_lx ps)); discriminate H.
    - unfold yyParse in P. revert P.
      apply (run_no_panic (Lex stream_ops U fuel) Error (fun _ => True)); auto.
      + intros; apply lex_no_panic.
      + apply init_inv.
    - discriminate H.
  Qed.

  Lemma stream_total fuel s : s_term s = TEof -> 120 * Z.of_nat (length (s_ev s)) + 122 <= Z.of_nat fuel ->
    exists r, ParseStream U fuel s = Ok r.
  Proof.
    intros T F. unfold ParseStream, ParseReader.
    destruct (parse_terminates (Lex stream_ops U fuel) Error
                (fun x => eof x /\ (ev x + 2 <= fuel)%nat) ev) with (fuel := fuel) (lx := new_lexer s)
      as (c & ps & ->).
    - intros x v [E Hf]. pose proof (Lex_ok U fuel x v) as H.
      destruct (Lex stream_ops U fuel x v) as [[[c v'] x']| |]; cbn [run_ok] in H; [|contradiction|tauto].
      destruct H as [(A1 & A2 & A3) B]. exists c, v', x'. split; [reflexivity|].
      split; [split; [unfold eof in *; congruence|lia]|]. split; [exact A2|].
      intros C. specialize (B C). destruct B as (_ & _ & B). specialize (B E). lia.
    - split; [exact T|]. unfold ev. cbn [new_lexer lx_rd]. lia.
    - unfold ev. cbn [new_lexer lx_rd]. lia.
    - cbn [rbind]. destruct (lx_err (ps_lx ps)); eauto.
  Qed.
End Streams.

(** The tree with a mark instead of every pointer (DEFAULT values and references in
    object identifiers). *)
Definition shape {P R} (m : ModuleDefinition P R) : ModuleDefinition unit unit :=
  md_map (fun _ => tt) (fun _ => tt) m.

Lemma shape_resolve mem m : shape (resolve mem m) = shape (snapM m).
Proof. unfold shape, resolve, snapM. now rewrite !md_comp. Qed.

(** ** Strings *)

Section Strings.
  Context (U : unicode_tables).

  Lemma tokens_det n rs ts : tokens U n rs ts -> forall us, tokens U n rs us -> us = ts.
  Proof.
    induction 1 as [n rs E|n rs t n' rest ts E T IH]; intros us H; inversion H; subst; try congruence.
    rewrite E in H0. injection H0 as <- <- <-. f_equal. now apply IH.
  Qed.

  Lemma tokens_no_error n rs ts : tokens U n rs ts -> forall msg rest, ~ lex_error U n rs msg rest.
  Proof.
    induction 1 as [n rs E|n rs t n' rest ts E T IH]; intros msg r H; inversion H; subst; try congruence.
    rewrite E in H0. injection H0 as <- <- <-. now apply (IH msg r).
  Qed.

  (** With much fuel. *)
  Lemma string_fuel fuel s r : ParseString U fuel s = Ok r ->
    exists fuel', (length (runes (bytes_of_string s)) + 2 <= fuel')%nat /\ ParseString U fuel' s = Ok r.
  Proof.
    intros H. exists (fuel + (length (runes (bytes_of_string s)) + 2))%nat. split; [lia|].
    unfold ParseString, ParseStream in *. refine (ParseReader_mono stream_ops U fuel _ _ r _ H). lia.
  Qed.

  Theorem string_accepted fuel s o : ParseString U fuel s = Ok (ParseOk o) ->
    exists m ts m', o = Some m /\ tokens U false (runes (bytes_of_string s)) ts /\
      derives N_ModuleDefinition ts (S_module m') /\ shape m = shape m'.
  Proof.
    intros H. destruct (string_fuel _ _ _ H) as (f & F & P). clear H fuel.
    pose proof (reader_outcome stream_ops U f _ _ P) as Q0. clear P. destruct Q0 as [[e E]|(c & ps & m & w & x & v & v' & _ & E & Fd & Lx & Er & D)]; [discriminate E|].
    injection E as ->. pose proof (st_init s) as S0.
    destruct (feed_tokens U f _ _ _ _ _ Fd _ _ _ S0 F) as (n' & rest & S1 & L1 & T1).
    destruct (Lex_eq U f x v rest None n' _ S1 ltac:(lia)) as (c1 & v1 & x1 & E1 & Q).
    rewrite Lx in E1. injection E1 as <- <- <-.
    exists (resolve (arrays ps) m), w, (snapM m). split; [reflexivity|]. split; [|split; [exact D|apply shape_resolve]].
    rewrite <- (app_nil_r w). apply T1. constructor.
    destruct (next U n' rest) as [|t n2 r2|msg r2]; cbn [lexed] in Q; [reflexivity| |].
    - destruct Q as (_ & Q & _). lia.
    - destruct Q as (Q & _). discriminate Q.
  Qed.

  Theorem string_total s : exists r, exists n, forall fuel, (n <= fuel)%nat -> ParseString U fuel s = Ok r.
  Proof.
    set (st := stream_of_bytes (bytes_of_string s)).
    set (n := Z.to_nat (120 * Z.of_nat (length (s_ev st)) + 122)).
    destruct (stream_total U n st eq_refl ltac:(lia)) as (r & E). exists r, n. intros fuel H.
    unfold ParseString. fold st. unfold ParseStream in *. exact (ParseReader_mono stream_ops U n fuel st r H E).
  Qed.
End Strings.
