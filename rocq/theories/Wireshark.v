(** Model of internal/utils/dump.go: ParseWiresharkHex; for ParseWiresharkTime see
    WiresharkTime.v. *)
From Coq Require Import ZArith String Ascii List Bool.
From Verif Require Import GoBase.
Import ListNotations.
Local Open Scope string_scope.
Local Open Scope Z_scope.

(** strings.Split(s, sep) for a one-byte separator: never empty. *)
Fixpoint split (sep : ascii) (s : string) : list string :=
  match s with
  | EmptyString => [EmptyString]
  | String c s' =>
      if Ascii.eqb c sep then EmptyString :: split sep s'
      else
        match split sep s' with
        | [] => [String c EmptyString]
        | w :: ws => String c w :: ws
        end
  end.

(** Value of a hexadecimal digit, upper or lower case (strconv.ParseUint). *)
Definition hex_digit (c : ascii) : option Z :=
  let b := byte_of_ascii c in
  if (48 <=? b) && (b <=? 57) then Some (b - 48)
  else if (97 <=? b) && (b <=? 102) then Some (b - 87)
  else if (65 <=? b) && (b <=? 70) then Some (b - 55)
  else None.

(** strconv.ParseUint(s, 16, 9) on the rest of the digits.  Its range error (from
    512 on) is subsumed by the one of [parse_int16_9]; both only lead to a panic, so
    errors are not told apart. *)
Fixpoint parse_hex (acc : Z) (s : string) : option Z :=
  match s with
  | EmptyString => Some acc
  | String c s' =>
      match hex_digit c with
      | Some d => parse_hex (16 * acc + d) s'
      | None => None
      end
  end.

(** strconv.ParseUint(s, 16, 9): the empty string is a syntax error. *)
Definition parse_uint16 (s : string) : option Z :=
  match s with
  | EmptyString => None
  | _ => parse_hex 0 s
  end.

(** strconv.ParseInt(s, 16, 9), dump.go:21; [None] is an error. *)
Definition parse_int16_9 (s : string) : option Z :=
  match s with
  | EmptyString => None
  | String c s' =>
      let '(neg, digits) :=
        if Ascii.eqb c "+" then (false, s')
        else if Ascii.eqb c "-" then (true, s')
        else (false, s) in
      match parse_uint16 digits with
      | None => None
      | Some n =>
          if neg : bool then (if 256 <? n then None else Some (- n))
          else (if 256 <=? n then None else Some n)
      end
  end.

(** The inner loop, dump.go:17-26. *)
Fixpoint parse_elems (l : list string) : res (list Z) :=
  match l with
  | [] => Ok []
  | e :: l' =>
      if String.eqb e "" then parse_elems l'
      else
        match parse_int16_9 e with
        | None => Panic "strconv.ParseInt"
        | Some x => do r <- parse_elems l'; Ok (x mod 256 :: r)
        end
  end.

(** The outer loop, dump.go:15-27. *)
Fixpoint parse_lines (l : list string) : res (list Z) :=
  match l with
  | [] => Ok []
  | line :: l' =>
      do a <- parse_elems (tl (split " " line));
      do b <- parse_lines l';
      Ok (app a b)
  end.

(** ParseWiresharkHex, dump.go:13-29 *)
Definition ParseWiresharkHex (s : string) : res (list Z) :=
  parse_lines (split (ascii_of_nat 10) s).
