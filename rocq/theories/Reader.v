(** Interface of the *bufio.Reader that the lexer uses (lexer.go:102, 242, 254,
    267, 275, 293-295, 346, 378): the four operations as functions on an explicit
    reader state.  [Stream.v] and [Bufio.v] give two implementations. *)
From Coq Require Import ZArith String List.
From Verif Require Import GoBase.
Import ListNotations.

(** A non-nil [error] returned by a read: io.EOF or any other error with its
    text. *)
Inductive rd_err : Type :=
| EOF
| IOErr (msg : string).

(** bufio.Reader operations.
    - [rd_rune]: ReadRune, giving the rune (0 with an error) and the error;
    - [rd_unread]: UnreadRune, [None] is bufio.ErrInvalidUnreadRune;
    - [rd_peek n]: Peek(n), giving the slice, its capacity and the error;
    - [rd_discard n]: Discard(n), its result is ignored by lexer.go:267. *)
Record reader_ops (R : Type) : Type := {
  rd_rune : R -> R * (Z * option rd_err);
  rd_unread : R -> option R;
  rd_peek : nat -> R -> R * (list Z * nat * option rd_err);
  rd_discard : nat -> R -> R
}.
Arguments rd_rune {R} _ _.
Arguments rd_unread {R} _ _.
Arguments rd_peek {R} _ _ _.
Arguments rd_discard {R} _ _ _.
