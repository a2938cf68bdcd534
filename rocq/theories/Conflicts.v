(** How the tables of y.go resolve the conflicts of asn1.y: the derivation trees the
    parser looks for.  Specification, used by the properties; rules are counted as in
    [Grammar]. *)
From Coq Require Import ZArith List Bool.
From Verif Require Import Tokens Grammar.
Import ListNotations.
Local Open Scope Z_scope.

(** The kind of the first token of [ts], [next] if there is none. *)
Definition head_kind (ts : list token) (next : Z) : Z :=
  match ts with [] => next | t :: _ => tk_kind t end.

(** Rules that are never used: a symbol in an import list is taken for a type and
    not for a module (rule 45), a whole number for an integer and not for a real
    (rule 113), a name in an object identifier for a value and not for a name form
    (rule 191). *)
Definition never (n : Z) : bool := existsb (Z.eqb n) [45; 113; 191].

(** [lost n next]: a phrase by rule [n] is not recognised when a token of kind [next]
    follows, because the parser goes on with that token.
    - before an opening parenthesis, a type or named type that ends in a type: the
      constraint belongs to the inner type (rules 77, 157, 174-176, 184, 219-222);
    - before a comma, an enumeration (102), extension additions of a SEQUENCE or SET
      (139, 140) or of a CHOICE (166, 167): the comma is taken for the one before the
      next item;
    - before an identifier, the empty AssignedIdentifier (40) of an import: the
      identifier is taken for a value. *)
Definition lost (n next : Z) : bool :=
  never n
  || ((next =? T_OPEN_ROUND) && existsb (Z.eqb n) [77; 157; 174; 175; 176; 184; 219; 220; 221; 222])
  || ((next =? T_COMMA) && existsb (Z.eqb n) [102; 139; 140; 166; 167])
  || (((next =? T_TYPEORMODULEREFERENCE) || (next =? T_VALUEIDENTIFIER)) && (n =? 40)).

(** Rule [n] below rule [up]; 292 stands for rule 190 directly below rule 187: the
    list of all components of an object identifier. *)
Definition place (up n : Z) : Z := if (up =? 187) && (n =? 190) then 292 else n.

(** [shadowed up n]: rule [n] directly below [up] gives way to another rule: an empty
    exception specification after an extension marker (131 over 288, instead of 130);
    a defined value as a number form (192 over 196, instead of 194); a defined value
    as the first of several components (190 over 194, instead of 188). *)
Definition shadowed (up n : Z) : bool :=
  ((up =? 131) && (n =? 288)) || ((up =? 192) && (n =? 196)) || ((up =? 292) && (n =? 194)).

(** The tree [T] below [up], followed by a token of kind [next], has no such node. *)
Fixpoint kept (up next : Z) (T : tree) : bool :=
  match T with
  | Leaf _ => true
  | Node n l =>
      negb (lost n next) && negb (shadowed up n)
      && (fix kids (l : list tree) : bool :=
            match l with
            | [] => true
            | T1 :: l' => kept (place up n) (head_kind (flat_map leaves l') next) T1 && kids l'
            end) l
  end.
