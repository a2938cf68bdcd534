(** Model of bufio.Reader (go1.16 bufio/bufio.go) with its 4096-byte buffer, over an
    arbitrary io.Reader: the functions that lexer.go calls (NewReader, ReadRune,
    UnreadRune, Peek, Discard) and fill and readErr.  lastByte is left out: only
    UnreadByte reads it.  NewReader reuses a reader that is a bufio.Reader already;
    the model always wraps. *)
From Coq Require Import ZArith String List Bool.
From Verif Require Import GoBase Utf8 Reader.
Import ListNotations.
Local Open Scope string_scope.
Local Open Scope list_scope.

(** defaultBufSize, bufio.go. *)
Definition bufSize : nat := Z.to_nat 4096.
(** maxConsecutiveEmptyReads, bufio.go. *)
Definition maxConsecutiveEmptyReads : nat := 100.

Section Bufio.
  (** The io.Reader: its state and Read(p) for len(p) = k, giving the bytes stored
      in p and the error. *)
  Context {S : Type} (Read : nat -> S -> S * (list Z * option rd_err)).

  (** The fields buf, r, w, err, lastRuneSize ([None] is -1) and rd of bufio.Reader. *)
  Record bufio : Type := {
    b_buf : list Z;
    b_r : nat;
    b_w : nat;
    b_err : option rd_err;
    b_last : option nat;
    b_src : S
  }.

  (** buf[r:w] *)
  Definition b_data (b : bufio) : list Z := firstn (b_w b - b_r b) (skipn (b_r b) (b_buf b)).

  (** NewReader(rd), parser.go:23. *)
  Definition NewReader (s : S) : bufio :=
    {| b_buf := repeat 0%Z bufSize; b_r := 0; b_w := 0; b_err := None; b_last := None; b_src := s |}.

  (** Assignment to lastRuneSize. *)
  Definition with_last (b : bufio) (l : option nat) : bufio :=
    {| b_buf := b_buf b; b_r := b_r b; b_w := b_w b; b_err := b_err b; b_last := l; b_src := b_src b |}.

  (** The loop of fill that reads new data: [i] attempts are left. *)
  Fixpoint fillLoop (i : nat) (b : bufio) : bufio :=
    match i with
    | O => {| b_buf := b_buf b; b_r := b_r b; b_w := b_w b;
              b_err := Some (IOErr "multiple Read calls return no data or error");
              b_last := b_last b; b_src := b_src b |}
    | Datatypes.S i' =>
        let '(s, (bs, e)) := Read (length (b_buf b) - b_w b) (b_src b) in
        let b1 := {| b_buf := firstn (b_w b) (b_buf b) ++ bs ++ skipn (b_w b + length bs) (b_buf b);
                     b_r := b_r b; b_w := b_w b + length bs;
                     b_err := match e with Some _ => e | None => b_err b end;
                     b_last := b_last b; b_src := s |} in
        match e, bs with
        | Some _, _ => b1
        | None, _ :: _ => b1
        | None, [] => fillLoop i' b1
        end
    end.

  (** fill: slide the data to the beginning, then read.  The panic on a full buffer
      is left out: every caller has tested that the buffer is not full. *)
  Definition fill (b : bufio) : bufio :=
    fillLoop maxConsecutiveEmptyReads
      (if (0 <? b_r b)%nat then
         {| b_buf := b_data b ++ skipn (b_w b - b_r b) (b_buf b); b_r := 0; b_w := b_w b - b_r b;
            b_err := b_err b; b_last := b_last b; b_src := b_src b |}
       else b).

  (** readErr: the pending error, cleared. *)
  Definition readErr (b : bufio) : bufio * option rd_err :=
    ({| b_buf := b_buf b; b_r := b_r b; b_w := b_w b; b_err := None; b_last := b_last b; b_src := b_src b |},
     b_err b).

  (** The loop of ReadRune.  Every call of fill adds a byte or sets the error, so
      [n] = UTFMax iterations are enough. *)
  Fixpoint runeLoop (n : nat) (b : bufio) : bufio :=
    match n with
    | O => b
    | Datatypes.S n' =>
        if (b_w b <? b_r b + 4)%nat && negb (full_rune (b_data b))
           && match b_err b with None => true | Some _ => false end
           && (b_w b - b_r b <? length (b_buf b))%nat
        then runeLoop n' (fill b) else b
    end.

  (** ReadRune. *)
  Definition ReadRune (b : bufio) : bufio * (Z * option rd_err) :=
    let b1 := with_last (runeLoop 4 b) None in
    if (b_r b1 =? b_w b1)%nat then let '(b2, e) := readErr b1 in (b2, (0%Z, e))
    else
      let '(r, size) := decode_rune (b_data b1) in
      ({| b_buf := b_buf b1; b_r := b_r b1 + size; b_w := b_w b1; b_err := b_err b1; b_last := Some size;
          b_src := b_src b1 |}, (r, None)).

  (** UnreadRune; [None] is ErrInvalidUnreadRune. *)
  Definition UnreadRune (b : bufio) : option bufio :=
    match b_last b with
    | None => None
    | Some size =>
        if (b_r b <? size)%nat then None
        else Some {| b_buf := b_buf b; b_r := b_r b - size; b_w := b_w b; b_err := b_err b; b_last := None;
                     b_src := b_src b |}
    end.

  (** The loop of Peek(n): every call of fill adds a byte or sets the error, so [i] = n
      iterations are enough. *)
  Fixpoint peekLoop (i : nat) (n : nat) (b : bufio) : bufio :=
    match i with
    | O => b
    | Datatypes.S i' =>
        if (b_w b - b_r b <? n)%nat && (b_w b - b_r b <? length (b_buf b))%nat
           && match b_err b with None => true | Some _ => false end
        then peekLoop i' n (fill b) else b
    end.

  (** Peek(n): slice, its capacity, error. *)
  Definition Peek (n : nat) (b : bufio) : bufio * (list Z * nat * option rd_err) :=
    let b1 := peekLoop n n (with_last b None) in
    let cap := (length (b_buf b1) - b_r b1)%nat in
    if (length (b_buf b1) <? n)%nat then (b1, (b_data b1, cap, Some (IOErr "bufio: buffer full")))
    else if (b_w b1 - b_r b1 <? n)%nat then
      let '(b2, e) := readErr b1 in
      (b2, (b_data b1, cap, Some match e with Some e => e | None => IOErr "bufio: buffer full" end))
    else (b1, (firstn n (b_data b1), cap, None)).

  (** The loop of Discard: [remain] bytes left to skip; every iteration skips a byte or
      sees an error, so [i] = n iterations are enough.  go1.16 leaves lastRuneSize as it
      is (later versions reset it). *)
  Fixpoint discardLoop (i : nat) (remain : nat) (b : bufio) : bufio :=
    match i with
    | O => b
    | Datatypes.S i' =>
        let b1 := if (b_w b - b_r b =? 0)%nat then fill b else b in
        let skip := Nat.min (b_w b1 - b_r b1) remain in
        let b2 := {| b_buf := b_buf b1; b_r := b_r b1 + skip; b_w := b_w b1; b_err := b_err b1;
                     b_last := b_last b1; b_src := b_src b1 |} in
        if (remain - skip =? 0)%nat then b2
        else
          match b_err b2 with
          | Some _ => fst (readErr b2)
          | None => discardLoop i' (remain - skip) b2
          end
    end.

  (** Discard(n); the lexer ignores its result. *)
  Definition Discard (n : nat) (b : bufio) : bufio := discardLoop n n b.

  (** bufio.Reader as the reader of the lexer. *)
  Definition bufio_ops : reader_ops bufio := {|
    rd_rune := ReadRune;
    rd_unread := UnreadRune;
    rd_peek := Peek;
    rd_discard := Discard
  |}.
End Bufio.
Arguments bufio : clear implicits.
