(** Model of internal/utils/dump.go: ParseWiresharkTime (31-37).

    time.Parse and time.Date of Go 1.16 (go.mod:3) for the one layout WS_TIME_FORMAT
    = "2006-01-02 15:04:05" (dump.go:11), from the description of the standard
    library: nextStdChunk cuts that layout into stdLongYear "-" stdZeroMonth "-"
    stdZeroDay " " stdHour ":" stdZeroMinute ":" stdZeroSecond.  Errors are not told
    apart: [None] is any of them.  The result is the number of seconds since
    1 January of the year 1 (UTC, as [GTime] in Wire.v) and the nanoseconds.
    Simplified: Go 1.17 and later also accept a comma for the point of the fraction
    and cut fractions off after nine digits. *)
From Coq Require Import ZArith String Ascii List Bool.
From Verif Require Import GoBase.
Import ListNotations.
Local Open Scope string_scope.
Local Open Scope Z_scope.

(** time.isDigit (dump.go:32). *)
Definition is_digit (c : ascii) : bool :=
  let b := byte_of_ascii c in (48 <=? b) && (b <=? 57).

(** time.leadingInt up to the end of the string, as time.atoi (dump.go:32) uses it on
    texts that start with a digit; an overflow of int64 is an error. *)
Fixpoint atoi (acc : Z) (s : string) : option Z :=
  match s with
  | EmptyString => Some acc
  | String c s' =>
      if is_digit c then
        if (2 ^ 63 - 1) / 10 <? acc then None
        else
          let x := acc * 10 + (byte_of_ascii c - 48) in
          if 2 ^ 63 - 1 <? x then None else atoi x s'
      else None
  end.

(** Sequencing of the steps of time.parse (dump.go:32): the first error is returned. *)
Definition obind {A B} (m : option A) (f : A -> option B) : option B :=
  match m with Some a => f a | None => None end.
Local Notation "'step' x <- m ; f" := (obind m (fun x => f))
  (at level 200, x pattern, m at level 100, f at level 200, only parsing).

(** time.cutspace (dump.go:32). *)
Fixpoint cutspace (v : string) : string :=
  match v with
  | String c v' => if Ascii.eqb c " " then cutspace v' else v
  | EmptyString => v
  end.

(** time.skip (dump.go:32) for a prefix of one character; all prefixes of this layout
    are such. *)
Definition skip (c : ascii) (v : string) : option string :=
  if Ascii.eqb c " " then
    match v with
    | EmptyString => Some v
    | String a _ => if Ascii.eqb a " " then Some (cutspace v) else None
    end
  else
    match v with
    | EmptyString => None
    | String a v' => if Ascii.eqb a c then Some v' else None
    end.

(** time.getnum (dump.go:32). *)
Definition getnum (fixed : bool) (v : string) : option (Z * string) :=
  match v with
  | EmptyString => None
  | String a v' =>
      if is_digit a then
        let one := if fixed then None else Some (byte_of_ascii a - 48, v') in
        match v' with
        | EmptyString => one
        | String b v'' =>
            if is_digit b then Some ((byte_of_ascii a - 48) * 10 + (byte_of_ascii b - 48), v'')
            else one
        end
      else None
  end.

(** The case stdLongYear of time.parse (dump.go:32). *)
Definition long_year (v : string) : option (Z * string) :=
  match v with
  | String a (String b (String c (String d v'))) =>
      if is_digit a then
        step y <- atoi 0 (String a (String b (String c (String d EmptyString))));
        Some (y, v')
      else None
  | _ => None
  end.

(** A number that has to lie in a range (the rangeErrString of time.parse,
    dump.go:32). *)
Definition in_range (lo hi : Z) (n : Z) : option Z :=
  if (n <? lo) || (hi <? n) then None else Some n.

(** The digits at the start of a text, and the rest (the loop over n in the case
    stdZeroSecond of time.parse, dump.go:32). *)
Fixpoint digits (v : string) : string * string :=
  match v with
  | String c v' =>
      if is_digit c then let '(ds, r) := digits v' in (String c ds, r) else (EmptyString, v)
  | EmptyString => (EmptyString, EmptyString)
  end.

(** time.parseNanoseconds (dump.go:32), given the digits after the point. *)
Definition parse_nanoseconds (ds : string) : option Z :=
  step ns <- atoi 0 ds;
  if 10 ^ 9 <=? ns then None
  else Some (ns * 10 ^ Z.max 0 (9 - Z.of_nat (String.length ds))).

(** A fraction of a second that the layout does not mention (the case stdZeroSecond
    of time.parse, dump.go:32). *)
Definition fraction (v : string) : option (Z * string) :=
  match v with
  | String p (String c v') =>
      if Ascii.eqb p "." && is_digit c then
        let '(ds, r) := digits (String c v') in
        step ns <- parse_nanoseconds ds; Some (ns, r)
      else Some (0, v)
  | _ => Some (0, v)
  end.

(** time.isLeap (dump.go:32). *)
Definition is_leap (y : Z) : bool :=
  (y mod 4 =? 0) && (negb (y mod 100 =? 0) || (y mod 400 =? 0)).

(** time.daysBefore (dump.go:32): the days before each month of a year that is not a
    leap year. *)
Definition days_before (m : Z) : Z :=
  nth (Z.to_nat m) [0; 31; 59; 90; 120; 151; 181; 212; 243; 273; 304; 334; 365] 0.

(** time.daysIn (dump.go:32). *)
Definition days_in (m y : Z) : Z :=
  if (m =? 2) && is_leap y then 29 else days_before m - days_before (m - 1).

(** time.absoluteZeroYear (dump.go:32) and the seconds from there to the year 1. *)
Definition absolute_zero_year : Z := -292277022399.
Definition absolute_to_internal : Z := (absolute_zero_year - 1) / 400 * 146097 * 86400.

(** time.daysSinceEpoch (dump.go:32). *)
Definition days_since_epoch (year : Z) : Z :=
  let y := year - absolute_zero_year in
  let n := y / 400 in
  let y := y - 400 * n in
  let d := 146097 * n in
  let n := y / 100 in
  let y := y - 100 * n in
  let d := d + 36524 * n in
  let n := y / 4 in
  let y := y - 4 * n in
  let d := d + 1461 * n in
  d + 365 * y.

(** time.Date (dump.go:32) in UTC for fields that are in their ranges; its
    normalisations do nothing then. *)
Definition date (year month day hour min sec : Z) : Z :=
  let d := days_since_epoch year in
  let d := d + days_before (month - 1) in
  let d := if is_leap year && (3 <=? month) then d + 1 else d in
  let d := d + (day - 1) in
  d * 86400 + (hour * 3600 + min * 60 + sec) + absolute_to_internal.

(** time.Parse(WS_TIME_FORMAT, v), dump.go:32 *)
Definition parse_time (v : string) : option (Z * Z) :=
  step (year, v) <- long_year v;
  step v <- skip "-" v;
  step (month, v) <- getnum true v;
  step month <- in_range 1 12 month;
  step v <- skip "-" v;
  step (day, v) <- getnum true v;
  step v <- skip " " v;
  step (hour, v) <- getnum false v;
  step hour <- in_range 0 23 hour;
  step v <- skip ":" v;
  step (min, v) <- getnum true v;
  step min <- in_range 0 59 min;
  step v <- skip ":" v;
  step (sec, v) <- getnum true v;
  step sec <- in_range 0 59 sec;
  step (nsec, v) <- fraction v;
  match v with
  | EmptyString =>
      if (day <? 1) || (days_in month year <? day) then None
      else Some (date year month day hour min sec, nsec)
  | _ => None
  end.

(** ParseWiresharkTime, dump.go:31-37 *)
Definition ParseWiresharkTime (repr : string) : res (Z * Z) :=
  match parse_time repr with
  | Some t => Ok t
  | None => Panic "time.Parse"
  end.
