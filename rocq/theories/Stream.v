(** The abstract byte stream: what a bufio.Reader looks like to its user, with
    buffering abstracted away.  A stream is a finite list of bytes and transient
    read failures, after which every read gives EOF or fails for ever.
    [Bufio.v] has the concrete reader; that the two agree is proved in
    [BufioSim.v]. *)
From Coq Require Import ZArith String List.
From Verif Require Import GoBase Utf8 Reader.
Import ListNotations.

(** One thing the underlying reader delivers: a byte, or one read that failed
    with a non-EOF error. *)
Inductive event : Type :=
| EvByte (b : Z)
| EvFail (msg : string).

(** What happens when all events are used up: (0, io.EOF) for ever, or
    (0, err) for ever with a non-EOF error. *)
Inductive terminal : Type :=
| TEof
| TFail (msg : string).

(** State of the stream; [s_last] are the bytes UnreadRune would push back
    (bufio.Reader.lastRuneSize, [None] for -1). *)
Record stream : Type := {
  s_ev : list event;
  s_term : terminal;
  s_last : option (list Z)
}.

(** The leading bytes, at most [n], before the first failure. *)
Fixpoint lead_bytes (n : nat) (l : list event) : list Z :=
  match n, l with
  | S n', EvByte b :: l' => b :: lead_bytes n' l'
  | _, _ => []
  end.

(** Error reported when no byte is available, and the events left after the
    report (bufio's readErr clears a stored error). *)
Definition stream_err (s : stream) : rd_err * list event :=
  match s_ev s with
  | EvFail m :: l => (IOErr m, l)
  | _ =>
      match s_term s with
      | TEof => (EOF, s_ev s)
      | TFail m => (IOErr m, s_ev s)
      end
  end.

(** bufio.Reader.ReadRune. *)
Definition stream_rune (s : stream) : stream * (Z * option rd_err) :=
  match lead_bytes 4 (s_ev s) with
  | [] =>
      let '(e, l) := stream_err s in
      ({| s_ev := l; s_term := s_term s; s_last := None |}, (0%Z, Some e))
  | bs =>
      let '(r, n) := decode_rune bs in
      ({| s_ev := skipn n (s_ev s); s_term := s_term s;
          s_last := Some (firstn n bs) |}, (r, None))
  end.

(** bufio.Reader.UnreadRune: only directly after a successful ReadRune. *)
Definition stream_unread (s : stream) : option stream :=
  match s_last s with
  | None => None
  | Some bs =>
      Some {| s_ev := map EvByte bs ++ s_ev s; s_term := s_term s; s_last := None |}
  end.

(** Remove the first failure event (it was returned, hence cleared). *)
Fixpoint drop_fail (l : list event) : list event :=
  match l with
  | [] => []
  | EvByte b :: l' => EvByte b :: drop_fail l'
  | EvFail _ :: l' => l'
  end.

(** bufio.Reader.Peek(n): n bytes without advancing, or fewer with the error.
    The capacity of the slice is reported as [n]: without a concrete buffer there
    is no shortage. *)
Definition stream_peek (n : nat) (s : stream) : stream * (list Z * nat * option rd_err) :=
  let bs := lead_bytes n (s_ev s) in
  if (length bs =? n)%nat then
    ({| s_ev := s_ev s; s_term := s_term s; s_last := None |}, (bs, n, None))
  else
    let '(e, _) :=
      stream_err {| s_ev := skipn (length bs) (s_ev s); s_term := s_term s; s_last := None |} in
    ({| s_ev := drop_fail (s_ev s); s_term := s_term s; s_last := None |}, (bs, n, Some e)).

(** bufio.Reader.Discard(n): skip n bytes; stops at (and clears) a failure. *)
Fixpoint stream_discard_ev (n : nat) (l : list event) : list event :=
  match n, l with
  | O, _ => l
  | S n', EvByte _ :: l' => stream_discard_ev n' l'
  | S _, EvFail _ :: l' => l'
  | S _, [] => []
  end.

(** bufio.Reader.Discard(n). *)
Definition stream_discard (n : nat) (s : stream) : stream :=
  {| s_ev := stream_discard_ev n (s_ev s); s_term := s_term s; s_last := None |}.

(** The abstract stream as a reader. *)
Definition stream_ops : reader_ops stream := {|
  rd_rune := stream_rune;
  rd_unread := stream_unread;
  rd_peek := stream_peek;
  rd_discard := stream_discard
|}.

(** Stream of the bytes of a string, as strings.NewReader gives it
    (parser.go:17). *)
Definition stream_of_bytes (l : list Z) : stream :=
  {| s_ev := map EvByte l; s_term := TEof; s_last := None |}.
