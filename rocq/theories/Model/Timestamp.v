(** The timestamps that name runs, step files and results.  All scripts of runs/, scripts/classifier_analysis.py and scripts/unify_results.py
    make them in the same way: the clock is read four times, for the date, the hour, the minute and the second, one after another.
    Simplified: an instant is a number of microseconds of local time since the start of some day; the offset of the local time does not
    change and the clock is not set back. *)
From Coq Require Import String Ascii NArith Bool DecimalString.
Local Open Scope string_scope.
Local Open Scope N_scope.

(** A date: year, month, day. See simulated_data_combined_decoder.py:245, 253. *)
Definition date : Type := N * N * N.

(** The Gregorian calendar, as in the datetime module; simulated_data_combined_decoder.py:245. *)
Definition is_leap (y : N) : bool := (y mod 4 =? 0) && (negb (y mod 100 =? 0) || (y mod 400 =? 0)).

(** The last day of a month; simulated_data_combined_decoder.py:245. *)
Definition month_length (y m : N) : N :=
  if m =? 2 then if is_leap y then 29 else 28
  else if (m =? 4) || (m =? 6) || (m =? 9) || (m =? 11) then 30 else 31.

(** The day after a date; simulated_data_combined_decoder.py:245. *)
Definition next_day (x : date) : date :=
  let '(y, m, d) := x in
  if d <? month_length y m then (y, m, d + 1) else if m <? 12 then (y, m + 1, 1) else (y + 1, 1, 1).

(** datetime.date.today() at an instant; simulated_data_combined_decoder.py:245. *)
Definition today (start : date) (t : N) : date := N.iter (t / 1000000 / 86400) next_day start.

(** datetime.datetime.now().hour, .minute and .second; simulated_data_combined_decoder.py:245-246. *)
Definition hour (t : N) : N := t / 1000000 / 3600 mod 24.
(** The minute; simulated_data_combined_decoder.py:245. *)
Definition minute (t : N) : N := t / 1000000 / 60 mod 60.
(** The second; simulated_data_combined_decoder.py:246. *)
Definition second (t : N) : N := t / 1000000 mod 60.

(** str of a number that is not negative; simulated_data_combined_decoder.py:245-246. *)
Definition dec (n : N) : string := NilZero.string_of_uint (N.to_uint n).

(** Zeros put before a text of less than [w] characters; str(date) is '%04d-%02d-%02d'. See simulated_data_combined_decoder.py:245. *)
Fixpoint zeros (k : nat) (s : string) : string := match k with O => s | S k' => String "0"%char (zeros k' s) end.
(** '%0wd'; simulated_data_combined_decoder.py:245. *)
Definition padded (w : nat) (n : N) : string := zeros (w - String.length (dec n)) (dec n).

(** str(datetime.date); simulated_data_combined_decoder.py:245. *)
Definition show_date (x : date) : string :=
  let '(y, m, d) := x in padded 4 y ++ "-" ++ padded 2 m ++ "-" ++ padded 2 d.

(** When the clock is read: for the date, the hour, the minute, the second; simulated_data_combined_decoder.py:245-246, 253-254. *)
Record reading := { at_date : N; at_hour : N; at_minute : N; at_second : N }.

(** f'{str(datetime.date.today())}_{datetime.datetime.now().hour}_{datetime.datetime.now().minute}_{datetime.datetime.now().second}';
    simulated_data_combined_decoder.py:245-246, 253-254. *)
Definition timestamp (start : date) (r : reading) : string :=
  show_date (today start (at_date r)) ++ "_" ++ dec (hour (at_hour r)) ++ "_" ++ dec (minute (at_minute r)) ++ "_" ++ dec (second (at_second r)).
