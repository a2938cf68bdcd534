(** Calls of Lex on a text, and what they say about the lexical items of
    [LexSpec.v]. *)
From Coq Require Import ZArith String Ascii Bool List Lia.
From Verif Require Import GoBase Utf8 Unicode Reader Stream Tokens Reserved Lexer Grammar LexErr LexTotal LexSpec LexEq DriverSound.
Import ListNotations.
Local Open Scope string_scope.
Local Open Scope Z_scope.

(** ** Vocabulary of the properties *)

(** The text that a lexer over a stream has not read yet. *)
Definition unread (x : lexer stream) : list Z :=
  runes (flat_map (fun e => match e with EvByte b => [b] | EvFail _ => [] end) (s_ev (lx_rd x))).

(** The lexer ParseString makes for a text (parser.go:17, 22-23). *)
Definition lexer_of (s : string) : lexer stream := new_lexer (stream_of_bytes (bytes_of_string s)).

(** The call of Lex with [v] in lval returns [c]; lval and the lexer are then [v']
    and [x']. *)
Definition call (U : unicode_tables) (x : lexer stream) (v : lexval) (c : Z) (v' : lexval) (x' : lexer stream) : Prop :=
  exists n, forall fuel, (n <= fuel)%nat -> Lex stream_ops U fuel x v = Ok (c, v', x').

(** On the text [s], successive calls of Lex return the tokens [ts], and leave lval
    and the lexer as [v] and [x]. *)
Inductive reads (U : unicode_tables) (s : string) : list token -> lexval -> lexer stream -> Prop :=
| reads_none : reads U s [] lexval0 (lexer_of s)
| reads_token ts v x c v' x' :
    reads U s ts v x -> call U x v c v' x' -> 0 < c -> reads U s (ts ++ [token_of c v'])%list v' x'.

(** All of the text [s] is read, as the tokens [ts]. *)
Definition reads_all (U : unicode_tables) (s : string) (ts : list token) : Prop :=
  exists v x v' x', reads U s ts v x /\ call U x v 0 v' x'.

(** ** Facts *)

Section Runs.
  Context (U : unicode_tables).

  Lemma call_det x v c1 v1 x1 c2 v2 x2 : call U x v c1 v1 x1 -> call U x v c2 v2 x2 ->
    c1 = c2 /\ v1 = v2 /\ x1 = x2.
  Proof.
    intros [n1 H1] [n2 H2]. specialize (H1 (n1 + n2)%nat ltac:(lia)). specialize (H2 (n1 + n2)%nat ltac:(lia)).
    rewrite H1 in H2. injection H2 as -> -> ->. auto.
  Qed.

  Lemma Lex_call fuel x v c v' x' : Lex stream_ops U fuel x v = Ok (c, v', x') -> call U x v c v' x'.
  Proof. intros H. exists fuel. intros f F. exact (Lex_mono stream_ops U fuel f x v _ F H). Qed.

  Lemma call_next x v rs e n k : st x rs e n k ->
    exists c v' x', call U x v c v' x' /\ lexed e k v (next U n rs) c v' x'.
  Proof.
    intros H. destruct (Lex_eq U (length rs + 2) x v rs e n k H ltac:(lia)) as (c & v' & x' & E & Q).
    exists c, v', x'. split; [|exact Q]. exact (Lex_call _ _ _ _ _ _ E).
  Qed.

  Lemma st_unread x rs e n k : st x rs e n k -> unread x = rs.
  Proof.
    intros (bs & A & R). unfold unread. rewrite (at_ev _ _ _ _ _ A). rewrite <- R. f_equal.
    clear. induction bs as [|b bs IH]; [reflexivity|]. cbn. now rewrite IH.
  Qed.

  Lemma st_err x rs e n k : st x rs e n k -> lx_err x = e.
  Proof. intros (bs & A & R). apply (at_err _ _ _ _ _ A). Qed.

  Lemma st_flag x rs e n k : st x rs e n k -> lx_lastWasNumber x = n.
  Proof. intros (bs & A & R). apply (at_num _ _ _ _ _ A). Qed.

  Lemma reads_st s ts v x : reads U s ts v x ->
    exists n, lexes U false (runes (bytes_of_string s)) ts n (unread x) /\
      st x (unread x) None n (breaks (runes (bytes_of_string s))).
  Proof.
    induction 1 as [|ts v x c v' x' H (n & Lx & S1) C P].
    - exists false. pose proof (st_init s) as S0. fold (lexer_of s) in S0. rewrite (st_unread _ _ _ _ _ S0). split; [constructor|exact S0].
    - destruct (call_next x v _ _ _ _ S1) as (c1 & v1 & x1 & C1 & Q).
      destruct (call_det _ _ _ _ _ _ _ _ C C1) as (<- & <- & <-).
      destruct (next U n (unread x)) as [|t n2 r2|msg r2] eqn:NX; cbn [lexed] in Q.
      + destruct Q; lia.
      + destruct Q as (Q1 & _ & Q2 & Q3). exists n2. rewrite (st_unread _ _ _ _ _ Q3). split; [|exact Q3].
        rewrite Q2. eapply lexes_app; [exact Lx|]. econstructor; [exact NX|constructor].
      + destruct Q; lia.
  Qed.

  Lemma lexes_reads_from s ts0 v0 x0 n0 rs0 ts n rest : lexes U n0 rs0 ts n rest ->
    reads U s ts0 v0 x0 -> st x0 rs0 None n0 (breaks (runes (bytes_of_string s))) ->
    exists v x, reads U s (ts0 ++ ts)%list v x /\ st x rest None n (breaks (runes (bytes_of_string s))).
  Proof.
    intros H. revert ts0 v0 x0. induction H as [n rs|n rs t n' rs' ts n'' rest NX H IH]; intros ts0 v0 x0 R0 S0.
    - exists v0, x0. rewrite app_nil_r. auto.
    - destruct (call_next x0 v0 _ _ _ _ S0) as (c1 & v1 & x1 & C1 & Q). rewrite NX in Q. cbn [lexed] in Q.
      destruct Q as (Q1 & Q2 & Q3 & Q4).
      destruct (IH (ts0 ++ [t])%list v1 x1) as (v & x & R & S1).
      + rewrite <- Q3. eapply reads_token; [exact R0|exact C1|lia].
      + exact Q4.
      + exists v, x. rewrite <- app_assoc in R. auto.
  Qed.

  Lemma lexes_reads s ts n rest : lexes U false (runes (bytes_of_string s)) ts n rest ->
    exists v x, reads U s ts v x /\ st x rest None n (breaks (runes (bytes_of_string s))).
  Proof. intros H. eapply (lexes_reads_from s [] _ _ _ _ _ _ _ H); [constructor|apply st_init]. Qed.

  Lemma reads_all_tokens s ts : reads_all U s ts <-> tokens U false (runes (bytes_of_string s)) ts.
  Proof.
    split.
    - intros (v & x & v' & x' & R & C). destruct (reads_st _ _ _ _ R) as (n & Lx & S1).
      destruct (call_next x v _ _ _ _ S1) as (c1 & v1 & x1 & C1 & Q).
      destruct (call_det _ _ _ _ _ _ _ _ C C1) as (<- & <- & <-).
      apply lexes_tokens. exists n, (unread x). split; [exact Lx|].
      destruct (next U n (unread x)) as [|t n2 r2|msg r2]; cbn [lexed] in Q; [reflexivity| |].
      + destruct Q as (_ & Q & _). lia.
      + destruct Q as (Q & _). lia.
    - intros T. apply lexes_tokens in T as (n & rest & Lx & E). destruct (lexes_reads _ _ _ _ Lx) as (v & x & R & S1).
      destruct (call_next x v _ _ _ _ S1) as (c1 & v1 & x1 & C1 & Q). rewrite E in Q. destruct Q as (-> & _).
      exists v, x, v1, x1. auto.
  Qed.

  (** An error of Lex. *)
  Lemma reads_error s ts v x v' x' c : reads U s ts v x -> call U x v c v' x' -> c < 0 ->
    exists n msg rest, lexes U false (runes (bytes_of_string s)) ts n (unread x) /\
      next U n (unread x) = Bad msg rest /\ unread x' = rest /\
      lx_err x' = located (breaks (runes (bytes_of_string s))) rest msg.
  Proof.
    intros R C N. destruct (reads_st _ _ _ _ R) as (n & Lx & S1).
    destruct (call_next x v _ _ _ _ S1) as (c1 & v1 & x1 & C1 & Q).
    destruct (call_det _ _ _ _ _ _ _ _ C C1) as (<- & <- & <-).
    destruct (next U n (unread x)) as [|t n2 r2|msg r2] eqn:NX; cbn [lexed] in Q.
    - destruct Q; lia.
    - destruct Q as (_ & Q & _). lia.
    - destruct Q as (_ & _ & num & Q). exists n, msg, r2. split; [exact Lx|]. split; [exact NX|].
      split; [exact (st_unread _ _ _ _ _ Q)|exact (st_err _ _ _ _ _ Q)].
  Qed.

  Lemma lex_error_lexes n rs msg rest : lex_error U n rs msg rest <->
    exists ts n' rs', lexes U n rs ts n' rs' /\ next U n' rs' = Bad msg rest.
  Proof.
    split.
    - induction 1 as [n rs msg rest E|n rs t n' rs' msg rest E H (ts & n2 & r2 & L & B)].
      + exists [], n, rs. split; [constructor|exact E].
      + exists (t :: ts), n2, r2. split; [econstructor; eassumption|exact B].
    - intros (ts & n' & rs' & L & B). induction L.
      + now constructor.
      + eapply lex_error_later; eauto.
  Qed.

  Lemma lexes_det n rs ts n1 r1 : lexes U n rs ts n1 r1 -> forall us n2 r2, lexes U n rs us n2 r2 ->
    length us = length ts -> us = ts /\ n2 = n1 /\ r2 = r1.
  Proof.
    induction 1 as [n rs|n rs t n' rs' ts n'' rest NX H IH]; intros us n2 r2 L E.
    - destruct us; [|discriminate E]. inversion L; subst. auto.
    - destruct us as [|u us]; [discriminate E|]. inversion L; subst. rewrite NX in H4. injection H4 as <- <- <-.
      destruct (IH us n2 r2) as (-> & -> & ->); auto.
  Qed.
End Runs.
