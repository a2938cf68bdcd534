(** Model of Go's [unicode/utf8] (go1.16 unicode/utf8/utf8.go), used by
    bufio.Reader.ReadRune and by lexer.go:278-279, 348, 384.

    Bytes and runes are [Z]. *)
From Coq Require Import ZArith List Bool.
From Verif Require Import GoBase.
Import ListNotations.
Local Open Scope Z_scope.

(** utf8.RuneError. *)
Definition rune_error : Z := 65533.

(** utf8.RuneSelf. *)
Definition rune_self : Z := 128.

(** Table [first] of utf8.go: length of the sequence and the range accepted for
    the second byte.  [None] is the entry [xx] (invalid first byte); ASCII bytes
    are handled before the table is consulted. *)
Definition utf8_first (b : Z) : option (nat * Z * Z) :=
  if b <? 194 then None
  else if b <? 224 then Some (2%nat, 128, 191)
  else if b =? 224 then Some (3%nat, 160, 191)
  else if b <? 237 then Some (3%nat, 128, 191)
  else if b =? 237 then Some (3%nat, 128, 159)
  else if b <? 240 then Some (3%nat, 128, 191)
  else if b =? 240 then Some (4%nat, 144, 191)
  else if b <? 244 then Some (4%nat, 128, 191)
  else if b =? 244 then Some (4%nat, 128, 143)
  else None.

(** [lo <= b <= hi]. *)
Definition in_range (lo b hi : Z) : bool := (lo <=? b) && (b <=? hi).

(** utf8.DecodeRune on a non-empty slice: rune and width.  The empty slice gives
    (RuneError, 0). *)
Definition decode_rune (l : list Z) : Z * nat :=
  match l with
  | [] => (rune_error, 0%nat)
  | b0 :: r0 =>
      if b0 <? rune_self then (b0, 1%nat)
      else
        match utf8_first b0 with
        | None => (rune_error, 1%nat)
        | Some (n, lo, hi) =>
            match r0 with
            | [] => (rune_error, 1%nat)
            | b1 :: r1 =>
                if (length l <? n)%nat then (rune_error, 1%nat)
                else if negb (in_range lo b1 hi) then (rune_error, 1%nat)
                else if (n =? 2)%nat then ((b0 mod 32) * 64 + b1 mod 64, 2%nat)
                else
                  match r1 with
                  | [] => (rune_error, 1%nat)
                  | b2 :: r2 =>
                      if negb (in_range 128 b2 191) then (rune_error, 1%nat)
                      else if (n =? 3)%nat then
                        ((b0 mod 16) * 4096 + (b1 mod 64) * 64 + b2 mod 64, 3%nat)
                      else
                        match r2 with
                        | [] => (rune_error, 1%nat)
                        | b3 :: _ =>
                            if negb (in_range 128 b3 191) then (rune_error, 1%nat)
                            else
                              ((b0 mod 8) * 262144 + (b1 mod 64) * 4096
                               + (b2 mod 64) * 64 + b3 mod 64, 4%nat)
                        end
                  end
            end
        end
  end.

(** utf8.FullRune: does the slice begin with a full encoding?  An invalid
    encoding counts as full (it will decode as a width-1 error rune). *)
Definition full_rune (l : list Z) : bool :=
  match l with
  | [] => false
  | b0 :: r0 =>
      if b0 <? rune_self then true
      else
        match utf8_first b0 with
        | None => true
        | Some (n, lo, hi) =>
            if (n <=? length l)%nat then true
            else
              match r0 with
              | [] => false
              | b1 :: r1 =>
                  if negb (in_range lo b1 hi) then true
                  else
                    match r1 with
                    | [] => false
                    | b2 :: _ => negb (in_range 128 b2 191)
                    end
              end
        end
  end.

(** utf8.EncodeRune / bytes.Buffer.WriteRune: encoding of a rune; surrogates and
    values out of range are written as RuneError. *)
Definition encode_rune (r : Z) : list Z :=
  if (0 <=? r) && (r <? 128) then [r]
  else if (0 <=? r) && (r <? 2048) then [192 + r / 64; 128 + r mod 64]
  else if (r <? 0) || (1114111 <? r) || ((55296 <=? r) && (r <=? 57343)) then
    [239; 191; 189]
  else if r <? 65536 then
    [224 + r / 4096; 128 + (r / 64) mod 64; 128 + r mod 64]
  else
    [240 + r / 262144; 128 + (r / 4096) mod 64; 128 + (r / 64) mod 64; 128 + r mod 64].

(** [range] over a Go string / strings.Map: the successive runes with their
    widths; invalid bytes give RuneError of width 1. [fuel] bounds the number of
    runes (the length of the input always suffices). *)
Fixpoint decode_fuel (fuel : nat) (l : list Z) : list (Z * nat) :=
  match fuel with
  | O => []
  | S f =>
      match l with
      | [] => []
      | _ => let '(r, n) := decode_rune l in (r, n) :: decode_fuel f (skipn n l)
      end
  end.

(** All runes of a byte sequence. *)
Definition decode_all (l : list Z) : list (Z * nat) := decode_fuel (length l) l.

(** Encoding of a sequence of runes, as accumulated by bytes.Buffer.WriteRune. *)
Definition encode_all (rs : list Z) : list Z := flat_map encode_rune rs.
