(** What timestamps should mean, for Props/TimestampProps.v. *)
From Coq Require Import String List NArith Bool DecimalString.
From Verif Require Import Model.Timestamp.
Import ListNotations.
Local Open Scope N_scope.

(** How many days there are before a year, counted from the year 1, and before a month of a year: every fourth year has a day more, but not
    every hundredth, but every four hundredth. *)
Definition before_year (y : N) : N := 365 * (y - 1) + (y - 1) / 4 - (y - 1) / 100 + (y - 1) / 400.
Definition before_month (y m : N) : N :=
  nth (N.to_nat m) [0; 0; 31; 59; 90; 120; 151; 181; 212; 243; 273; 304; 334; 365] 0 + (if 2 <? m then before_year (y + 1) - before_year y - 365 else 0).

(** The number of a day, as date.toordinal gives it. *)
Definition ordinal (x : date) : N := let '(y, m, d) := x in before_year y + before_month y m + d.

(** A date of the calendar. *)
Definition a_date (x : date) : Prop := let '(y, m, d) := x in 1 <= y /\ 1 <= m <= 12 /\ 1 <= d <= before_month y (m + 1) - before_month y m.

(** A text of digits and its value. *)
Definition numeral (s : string) (n : N) : Prop := exists u, NilEmpty.uint_of_string s = Some u /\ N.of_uint u = n.

(** The second an instant is in, counted from the start. *)
Definition sec (t : N) : N := t / 1000000.

(** The clock is read in order; it is read at one instant. *)
Definition in_order (r : reading) : Prop := at_date r <= at_hour r /\ at_hour r <= at_minute r /\ at_minute r <= at_second r.
Definition at_once (t : N) : reading := {| at_date := t; at_hour := t; at_minute := t; at_second := t |}.

(** How many minutes, hours, days begin after the first instant and not after the second one. *)
Definition begins (unit a b : N) : N := sec b / unit - sec a / unit.

(** By how many seconds a timestamp is late: every minute that begins between the last two readings, every hour between the second and the
    third, every day between the first and the second. *)
Definition lag (r : reading) : N :=
  60 * begins 60 (at_minute r) (at_second r) + 3600 * begins 3600 (at_hour r) (at_minute r) + 86400 * begins 86400 (at_date r) (at_hour r).
