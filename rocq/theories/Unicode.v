(** Model of the [unicode] package predicates used by lexer.go:141, 154, 164,
    387, 388, 459 and strings.Title (codegen.go:135).

    ASCII is given concretely.  Above U+007F the tables are a parameter of the
    model: every theorem holds whatever they contain.  One fact about them is
    built in: U+FFFD (category So) is neither a letter nor a digit. *)
From Coq Require Import ZArith Bool.
Local Open Scope Z_scope.

(** The Unicode tables above U+007F. *)
Record unicode_tables : Type := {
  u_letter : Z -> bool;
  u_upper : Z -> bool;
  u_digit : Z -> bool;
  u_space : Z -> bool;
  u_title : Z -> Z
}.

(** 'A'..'Z' *)
Definition ascii_upper (r : Z) : bool := (65 <=? r) && (r <=? 90).
(** 'a'..'z' *)
Definition ascii_lower (r : Z) : bool := (97 <=? r) && (r <=? 122).
(** '0'..'9' *)
Definition ascii_digit (r : Z) : bool := (48 <=? r) && (r <=? 57).

Section WithTables.
  Context (U : unicode_tables).

  (** unicode.IsLetter *)
  Definition is_letter (r : Z) : bool :=
    if r <? 128 then ascii_upper r || ascii_lower r
    else if r =? 65533 then false else u_letter U r.

  (** unicode.IsUpper *)
  Definition is_upper (r : Z) : bool :=
    if r <? 128 then ascii_upper r
    else if r =? 65533 then false else u_upper U r.

  (** unicode.IsDigit *)
  Definition is_digit (r : Z) : bool :=
    if r <? 128 then ascii_digit r
    else if r =? 65533 then false else u_digit U r.

  (** unicode.IsSpace above ASCII (only used there, in strings.isSeparator). *)
  Definition is_space (r : Z) : bool := u_space U r.

  (** unicode.ToTitle *)
  Definition to_title (r : Z) : Z :=
    if r <? 128 then (if ascii_lower r then r - 32 else r) else u_title U r.
End WithTables.

(** Tables that know no letter, digit or space above ASCII; used for concrete
    examples only. *)
Definition ascii_tables : unicode_tables := {|
  u_letter := fun _ => false;
  u_upper := fun _ => false;
  u_digit := fun _ => false;
  u_space := fun _ => false;
  u_title := fun r => r
|}.
