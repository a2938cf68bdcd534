(** Model of parseRealNumber (parser.go:41-51) and of the math functions it
    calls, on IEEE 754 binary64 numbers ([spec_float] with precision 53 and
    exponent bound 1024).

    math.Log is the portable Go implementation (math/log.go); the assembly
    versions of some platforms may differ from it in the last bit. *)
From Coq Require Import ZArith List SpecFloat Bool.
From Verif Require Import GoBase.
Import ListNotations.
Local Open Scope Z_scope.

(** Precision and exponent bound of float64. *)
Definition f_prec : Z := 53.
(** Exponent bound of float64. *)
Definition f_emax : Z := 1024.

(** Arithmetic of float64, round to nearest even. *)
Definition f_add := SFadd f_prec f_emax.
(** a - b *)
Definition f_sub := SFsub f_prec f_emax.
(** a * b *)
Definition f_mul := SFmul f_prec f_emax.
(** a / b *)
Definition f_div := SFdiv f_prec f_emax.

(** float64(n), parser.go:42, 44, 45 *)
Definition f_of_Z (n : Z) : spec_float :=
  binary_normalize f_prec f_emax n 0 false.

(** The float64 nearest to the rational [1 / d], [d > 0]: the quotient with 1200
    bits after the binary point and a sticky bit is rounded once. *)
Definition f_inv_nearest (d : Z) : spec_float :=
  let q := (2 ^ 1200) / d in
  let sticky := if (2 ^ 1200) mod d =? 0 then 0 else 1 in
  binary_normalize f_prec f_emax (2 * q + sticky) (- 1201) false.

(** math.Pow10: pow10tab and pow10postab32 are the literals 1e0..1e31 and
    1e0, 1e32 .. 1e288, pow10negtab32 the literals 1e-0, 1e-32 .. 1e-320. *)
Definition f_pow10 (n : Z) : spec_float :=
  if (0 <=? n) && (n <=? 308) then
    f_mul (f_of_Z (10 ^ (32 * (n / 32)))) (f_of_Z (10 ^ (n mod 32)))
  else if (-323 <=? n) && (n <=? 0) then
    f_div (f_inv_nearest (10 ^ (32 * (- n / 32)))) (f_of_Z (10 ^ (- n mod 32)))
  else if n >? 0 then S754_infinity false
  else S754_zero false.

(** A positive float64 constant given by its mantissa and exponent fields. *)
Definition f_const (bits : Z) : spec_float :=
  let e := bits / 2 ^ 52 in
  let m := bits mod 2 ^ 52 in
  match m + 2 ^ 52 with
  | Zpos p => S754_finite false p (e - 1075)
  | _ => S754_nan
  end.

(** math.Frexp on positive finite numbers: fraction in [1/2, 1) and exponent.
    Only called on numbers >= 1/2 here, which are never subnormal. *)
Definition f_frexp (x : spec_float) : spec_float * Z :=
  match x with
  | S754_finite s m e => (S754_finite s m (- 53), e + 53)
  | _ => (x, 0)
  end.

(** math.Log (math/log.go), for positive finite arguments. *)
Definition f_log (x : spec_float) : spec_float :=
  let '(fr, ki0) := f_frexp x in
  let '(f1, ki) :=
    if SFltb fr (f_const 0x3FE6A09E667F3BCD) then (f_mul fr (f_of_Z 2), ki0 - 1)
    else (fr, ki0) in
  let f := f_sub f1 (f_of_Z 1) in
  let k := f_of_Z ki in
  let s := f_div f (f_add (f_of_Z 2) f) in
  let s2 := f_mul s s in
  let s4 := f_mul s2 s2 in
  let L1 := f_const 0x3FE5555555555593 in
  let L2 := f_const 0x3FD999999997FA04 in
  let L3 := f_const 0x3FD2492494229359 in
  let L4 := f_const 0x3FCC71C51D8E78AF in
  let L5 := f_const 0x3FC7466496CB03DE in
  let L6 := f_const 0x3FC39A09D078C69F in
  let L7 := f_const 0x3FC2F112DF3E5244 in
  let t1 := f_mul s2 (f_add L1 (f_mul s4 (f_add L3 (f_mul s4 (f_add L5 (f_mul s4 L7)))))) in
  let t2 := f_mul s4 (f_add L2 (f_mul s4 (f_add L4 (f_mul s4 L6)))) in
  let R := f_add t1 t2 in
  let hfsq := f_mul (f_mul (f_div (f_of_Z 1) (f_of_Z 2)) f) f in
  let Ln2Hi := f_const 0x3fe62e42fee00000 in
  let Ln2Lo := f_const 0x3dea39ef35793c76 in
  f_sub (f_mul k Ln2Hi)
        (f_sub (f_sub hfsq (f_add (f_mul s (f_add hfsq R)) (f_mul k Ln2Lo))) f).

(** math.Log2 (math/log10.go:28-37). *)
Definition f_log2 (x : spec_float) : spec_float :=
  let '(fr, e) := f_frexp x in
  if SFeqb fr (f_div (f_of_Z 1) (f_of_Z 2)) then f_of_Z (e - 1)
  else f_add (f_mul (f_log fr) (f_const 0x3FF71547652B82FE)) (f_of_Z e).

(** math.Log10 (math/log10.go:19-22): math.Log2(x) * (Ln2 / Ln10). *)
Definition f_log10 (x : spec_float) : spec_float :=
  f_mul (f_log2 x) (f_const 0x3FD34413509F79FF).

(** int(math.Ceil(x)) for finite x. *)
Definition f_ceil (x : spec_float) : Z :=
  match x with
  | S754_finite s m e =>
      let z := if s then Zneg m else Zpos m in
      if 0 <=? e then z * 2 ^ e else - ((- z) / 2 ^ (- e))
  | _ => 0
  end.

(** int(math.Ceil(math.Log10(float64(fraction)))), parser.go:44 *)
Definition ceil_log10 (fraction : Z) : Z := f_ceil (f_log10 (f_of_Z fraction)).

(** parseRealNumber, parser.go:41-51 *)
Definition parseRealNumber (integer fraction exponent : Z) : spec_float :=
  let value := f_of_Z integer in
  let value :=
    if fraction =? 0 then value
    else
      let shift := f_pow10 (ceil_log10 fraction) in
      f_add value (f_div (f_of_Z fraction) shift) in
  if exponent =? 0 then value else f_mul value (f_pow10 exponent).
