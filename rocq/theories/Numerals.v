(** Numbers as they are written, with their signs, REAL numbers included: specification
    for C75. *)
From Coq Require Import ZArith String List Bool SpecFloat.
From Verif Require Import GoBase Tokens Ast RealNum Grammar Words Numbers.
Import ListNotations.
Local Open Scope list_scope.
Local Open Scope Z_scope.

(** A number after a minus sign. *)
Definition opposite (x : numeral) : numeral :=
  match x with
  | Whole z => Whole (- z)
  | Decimal f => Decimal (SFopp f)
  end.

(** The REAL value with the parts that production [n] of realnumber finds; [parseRealNumber]
    is the subject of C19. *)
Definition real_of (n : Z) (parts : list numeral) : list numeral :=
  match parts with
  | [Whole i] => [Decimal (parseRealNumber i 0 0)]
  | [Whole i; Whole k] => [Decimal (if n =? 114 then parseRealNumber i k 0 else parseRealNumber i 0 k)]
  | [Whole i; Whole f; Whole e] => [Decimal (parseRealNumber i f e)]
  | _ => []
  end.

(** The numbers written in a text with the derivation tree [T].  Productions 93 and 118
    are MINUS NUMBER (asn1.y:597, 657), 110 is MINUS realnumber (asn1.y:641), 111 and 112
    are PLUS-INFINITY and MINUS-INFINITY (asn1.y:645-646), 113-116 those of realnumber
    (asn1.y:650-653). *)
Fixpoint written_numbers (T : tree) : list numeral :=
  match T with
  | Leaf t => map Whole (token_numbers t)
  | Node n l =>
      let parts := flat_map written_numbers l in
      if (n =? 93) || (n =? 110) || (n =? 118) then map opposite parts
      else if n =? 111 then [Decimal (S754_infinity false)]
      else if n =? 112 then [Decimal (S754_infinity true)]
      else if (113 <=? n) && (n <=? 116) then real_of n parts
      else parts
  end.

Definition numeral_dec (a b : numeral) : {a = b} + {a <> b}.
Proof. repeat decide equality. Defined.

(** How often a number occurs. *)
Definition numeral_count (x : numeral) (l : list numeral) : nat := count_occ numeral_dec l x.
