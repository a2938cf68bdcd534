(** Base notions of the Go runtime used by the model of asn1go.

    Go [string]s are Coq [string]s (byte sequences); Go [int] is [Z], with the
    64-bit wrap-around of negation made explicit ([wrap64]); results of
    functions that may panic or run for ever are values of [res]. *)
From Coq Require Import ZArith String Ascii Bool List.
Import ListNotations.
Local Open Scope Z_scope.

(** Result of running a piece of Go code.  [OutOfFuel] stands for "has not
    returned within the given number of loop iterations". *)
Inductive res (A : Type) : Type :=
| Ok (a : A)
| Panic (why : string)
| OutOfFuel.
Arguments Ok {A} a.
Arguments Panic {A} why.
Arguments OutOfFuel {A}.

(** Sequencing of Go statements: a panic or divergence skips the rest. *)
Definition rbind {A B} (m : res A) (f : A -> res B) : res B :=
  match m with
  | Ok a => f a
  | Panic w => Panic w
  | OutOfFuel => OutOfFuel
  end.

Notation "'do' x <- m ; f" := (rbind m (fun x => f))
  (at level 200, x pattern, m at level 100, f at level 200, only parsing).

(** The byte of a character of a Go string. *)
Definition byte_of_ascii (c : ascii) : Z := Z.of_N (N_of_ascii c).

(** The character holding a byte (bytes are taken modulo 256). *)
Definition ascii_of_byte (b : Z) : ascii := ascii_of_N (Z.to_N b).

(** Bytes of a Go string ([[]byte(s)]). *)
Fixpoint bytes_of_string (s : string) : list Z :=
  match s with
  | EmptyString => []
  | String c s' => byte_of_ascii c :: bytes_of_string s'
  end.

(** Go string holding given bytes ([string(b)]). *)
Fixpoint string_of_bytes (l : list Z) : string :=
  match l with
  | [] => EmptyString
  | b :: l' => String (ascii_of_byte b) (string_of_bytes l')
  end.

(** The code of a character literal such as '-'. *)
Definition ch (c : ascii) : Z := byte_of_ascii c.

(** int64 wrap-around, the result type of Go integer arithmetic on amd64. *)
Definition wrap64 (z : Z) : Z :=
  (z + 2 ^ 63) mod 2 ^ 64 - 2 ^ 63.

(** Largest [int] (64 bit). *)
Definition max_int : Z := 2 ^ 63 - 1.

(** Decimal digits of a non-negative number, most significant first, prepended
    to [acc]; [fuel] bounds the number of digits. *)
Fixpoint dec_digits (fuel : nat) (z : Z) (acc : string) : string :=
  match fuel with
  | O => acc
  | S f =>
      let acc' := String (ascii_of_byte (48 + z mod 10)) acc in
      if z <? 10 then acc' else dec_digits f (z / 10) acc'
  end.

(** [fmt.Sprint] / [%v] of an [int] (codegen.go:330, 417, 450 and lexer.go:411). *)
Definition sprint_int (z : Z) : string :=
  let digits := fun a => dec_digits (S (Z.to_nat (Z.log2 a))) a EmptyString in
  if z <? 0 then String "-" (digits (- z)) else digits z.

(** [s[i] in digits] for ASCII digits. *)
Definition is_ascii_digit (b : Z) : bool := (48 <=? b) && (b <=? 57).

(** Value of a sequence of ASCII digit bytes, [None] if another byte occurs. *)
Fixpoint digits_value (acc : Z) (l : list Z) : option Z :=
  match l with
  | [] => Some acc
  | b :: l' =>
      if is_ascii_digit b then digits_value (10 * acc + (b - 48)) l' else None
  end.

(** Result of [strconv.Atoi]. *)
Inductive atoi_result : Type :=
| AtoiOk (n : Z)
| AtoiSyntax
| AtoiRange.

(** [strconv.Atoi] on a non-empty string without sign (the only use,
    lexer.go:393, passes a non-empty run of digits, so Go's sign handling cannot
    be reached and is left out): syntax error if some byte is not an ASCII digit,
    range error from 2^63 on. *)
Definition atoi (s : string) : atoi_result :=
  match digits_value 0 (bytes_of_string s) with
  | None => AtoiSyntax
  | Some n => if n <=? max_int then AtoiOk n else AtoiRange
  end.
