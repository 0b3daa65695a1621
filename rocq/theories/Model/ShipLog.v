(** The reader of the ship's logs; runs/Feb_2022/data/ship_log_reader.py. *)
From Coq Require Import String Ascii List ZArith NArith Bool.
From Verif.Model Require Import Py.
Import ListNotations.

(** The bytes of an ASCII literal. See ship_log_reader.py:9-21. *)
Fixpoint ascii (s : string) : list N := match s with EmptyString => [] | String c s => N_of_ascii c :: ascii s end.
(** b'\r\n'. See ship_log_reader.py:9-21. *)
Definition crlf : list N := [13; 10]%N.

(** bytes.startswith. See ship_log_reader.py:9-21. *)
Fixpoint starts (p s : list N) : bool :=
  match p, s with [], _ => true | a :: p, b :: s => N.eqb a b && starts p s | _ :: _, [] => false end.
(** bytes.find, None standing for -1. See ship_log_reader.py:9-21. *)
Fixpoint find_bytes (p s : list N) : option nat :=
  if starts p s then Some 0%nat else match s with [] => None | _ :: t => option_map S (find_bytes p t) end.
(** find, which gives -1 if there is nothing; runs/Feb_2022/data/ship_log_reader.py:9-21. *)
Definition find_z (p s : list N) : Z := match find_bytes p s with Some k => Z.of_nat k | None => (-1)%Z end.
(** bytes.split with a separator that is not empty; [fuel] is the length of [s], which is enough. See ship_log_reader.py:9-21. *)
Fixpoint split_fuel (fuel : nat) (p s : list N) : list (list N) :=
  match fuel, find_bytes p s with
  | S fuel, Some k => firstn k s :: split_fuel fuel p (skipn (k + length p) s)
  | _, _ => [s]
  end.
(** split; runs/Feb_2022/data/ship_log_reader.py:9-21. *)
Definition split_bytes (p s : list N) : list (list N) := split_fuel (length s) p s.

(** int(b.decode('UTF-8')): blanks around, a sign, digits with single underscores in between.  Simplified: bytes above 127 give ValueError
    (digits of other alphabets and other blanks are not modelled). See ship_log_reader.py:9-21. *)
Definition is_blank (c : N) : bool := ((9 <=? c) && (c <=? 13) || (28 <=? c) && (c <=? 32))%N.
(** ASCII digits; runs/Feb_2022/data/ship_log_reader.py:9-21. *)
Definition is_digit (c : N) : bool := ((48 <=? c) && (c <=? 57))%N.
(** lstrip; runs/Feb_2022/data/ship_log_reader.py:9-21. *)
Fixpoint strip_left (s : list N) : list N := match s with c :: t => if is_blank c then strip_left t else s | [] => [] end.
(** strip; runs/Feb_2022/data/ship_log_reader.py:9-21. *)
Definition strip (s : list N) : list N := rev (strip_left (rev (strip_left s))).
(** Digits, with underscores between them; runs/Feb_2022/data/ship_log_reader.py:9-21. *)
Fixpoint digits (after_digit : bool) (acc : Z) (s : list N) : res Z :=
  match s with
  | [] => if after_digit then Ok acc else Err ValueError
  | c :: t => if is_digit c then digits true (10 * acc + (Z.of_N c - 48))%Z t
              else if ((c =? 95)%N && after_digit)%bool then digits false acc t else Err ValueError
  end.
(** int(s); runs/Feb_2022/data/ship_log_reader.py:9-21. *)
Definition py_int (s : list N) : res Z :=
  match strip s with
  | c :: t => if (c =? 45)%N then do! v <- digits false 0 t in Ok (- v)%Z else if (c =? 43)%N then digits false 0 t else digits false 0 (c :: t)
  | [] => Err ValueError
  end.

Section Log.
(** datetime.strptime(b.decode('UTF-8'), ' %d_%m_%Y_%H_%M_%S') and the day of a datetime are parameters. *)
Variable T : Type.
Variable strptime : list N -> res T.
Variable day : T -> Z.

(** What an entry says; runs/Feb_2022/data/ship_log_reader.py:9-21. *)
Record acquisition := Acquisition { a_time : T; a_size : Z; a_success : Z; a_payload : list N }.

(** The body of the loop of break_down for a buffer with b'time: '; ship_log_reader.py:9-21. *)
Definition read_entry (buffer : list N) : res acquisition :=
  let t := split_bytes (ascii "data success: ") buffer in
  do! t1 <- index t 1 in
  do! r_time <- strptime (slice_z buffer (find_z (ascii "time: ") buffer + 5)%Z (find_z crlf buffer)) in
  do! size <- py_int (slice_z buffer (find_z (ascii "data size: ") buffer + 11)%Z (find_z (ascii "data success") buffer)) in
  do! success <- py_int (firstn 1 (firstn 3 t1)) in
  Ok (Acquisition r_time size success (firstn 123 (skipn 3 t1))).

(** break_down; ship_log_reader.py:6-22. *)
Definition break_down (buffers : list (list N)) : res (list acquisition) :=
  fold_res (fun acc buffer =>
    if (0 <=? find_z (ascii "time: ") buffer)%Z then do! d <- read_entry buffer in Ok (acc ++ [d]) else Ok acc) buffers [].

(** One log file, and all of them in their order; ship_log_reader.py:29-35.  The search for the files and their order are not modelled. *)
Definition read_log (log : list N) : res (list acquisition) := break_down (split_bytes (ascii "Aquisition ") log).
(** All the files; runs/Feb_2022/data/ship_log_reader.py:29-35. *)
Definition read_logs (logs : list (list N)) : res (list acquisition) := fold_res (fun acc log => do! l <- read_log log in Ok (acc ++ l)) logs [].
(** The acquisitions of one day of the month; ship_log_reader.py:37-39. *)
Definition of_day (d : Z) (l : list acquisition) : list acquisition := filter (fun a => Z.eqb (day (a_time a)) d) l.
End Log.
Arguments Acquisition {T}.
Arguments a_time {T}.
Arguments a_size {T}.
Arguments a_success {T}.
Arguments a_payload {T}.
