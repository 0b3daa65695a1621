(** Model of utils/common_logging.py:5-24 and of what Python's logging does with it.  A name is the list of its parts between dots, [] being the root
    logger (names with an empty part are not modelled); a level is a number; a file is its absolute path; a line is the name, level and message of a
    record (the time is not modelled).  Nothing but setup_logger changes a logger. *)
From Coq Require Import String.
From Coq Require Import List ZArith Bool.
From Verif.Model Require Import Py.
Import ListNotations.

(** The parts of a name between dots; utils/common_logging.py:7. *)
Definition name := list string.
(** Equality of names; utils/common_logging.py:7. *)
Definition name_eqb (a b : name) : bool := if list_eq_dec string_dec a b then true else false.
(** Where a handler writes; utils/common_logging.py:11-12.  Stderr is that of logging's handler of last resort. *)
Inductive target := Stdout | File (path : string) | Stderr.
(** Equality of targets; utils/common_logging.py:11-12. *)
Definition target_eqb (a b : target) : bool :=
  match a, b with Stdout, Stdout => true | Stderr, Stderr => true | File p, File q => String.eqb p q | _, _ => false end.
(** A line that is written; utils/common_logging.py:15-18. *)
Record line := Line { l_name : name; l_level : Z; l_text : string }.
(** logging.Logger: the level (0 if not set) and the handlers; utils/common_logging.py:7-22. *)
Record logger := Logger { g_level : Z; g_handlers : list target }.
(** The loggers that exist and all that has been written, oldest first. See utils/common_logging.py:5-24. *)
Record world := World { w_loggers : list (name * logger); w_written : list (target * line) }.

(** logging.getLogger: a new logger has no level and no handlers, the root logger starts at WARNING; utils/common_logging.py:7. *)
Definition get_logger (loggers : list (name * logger)) (n : name) : logger :=
  match find (fun p => name_eqb (fst p) n) loggers with
  | Some p => snd p
  | None => Logger (if name_eqb n [] then 30 else 0) []
  end.
(** A change of a logger; utils/common_logging.py:8, 21-22. *)
Definition put_logger (loggers : list (name * logger)) (n : name) (g : logger) : list (name * logger) :=
  (n, g) :: filter (fun p => negb (name_eqb (fst p) n)) loggers.

(** setup_logger: the level is set before the file is opened, the handlers are added after that; opening fails, with the OSError [can_open] is false
    for, and then nothing else happens; utils/common_logging.py:5-24.  The boolean tells whether a logger is returned. *)
Definition setup_logger (can_open : string -> bool) (w : world) (n : name) (file : string) (level : Z) : world * bool :=
  let g := get_logger (w_loggers w) n in
  let leveled := Logger level (g_handlers g) in
  if can_open file
  then (World (put_logger (w_loggers w) n (Logger level (g_handlers g ++ [Stdout; File file]))) (w_written w), true)
  else (World (put_logger (w_loggers w) n leveled) (w_written w), false).

(** A logger and its ancestors: the name, the name without its last part, ..., the root. See utils/common_logging.py:7. *)
Fixpoint ancestry (parts_reversed : name) : list name :=
  match parts_reversed with
  | [] => [[]]
  | x :: rest => rev parts_reversed :: ancestry rest
  end.
(** Logger.getEffectiveLevel: the level of the first one that has one. See utils/common_logging.py:8. *)
Fixpoint effective_level (loggers : list (name * logger)) (l : list name) : Z :=
  match l with
  | [] => 0
  | n :: rest => let v := g_level (get_logger loggers n) in if (v =? 0)%Z then effective_level loggers rest else v
  end.
(** Logger.callHandlers: the handlers of the logger and of its ancestors, each of them with no level of its own; without any, the handler of last
    resort, which has the level WARNING. See utils/common_logging.py:21-22. *)
Definition reached (loggers : list (name * logger)) (n : name) (level : Z) : list target :=
  match flat_map (fun a => g_handlers (get_logger loggers a)) (ancestry (rev n)) with
  | [] => if (30 <=? level)%Z then [Stderr] else []
  | l => l
  end.
(** logger.info(...) and the like: nothing if the level is too low. See utils/common_logging.py:24 (the logger that is returned). *)
Definition log (w : world) (n : name) (level : Z) (text : string) : world :=
  if (effective_level (w_loggers w) (ancestry (rev n)) <=? level)%Z
  then World (w_loggers w) (w_written w ++ map (fun t => (t, Line n level text)) (reached (w_loggers w) n level))
  else w.

(** A call of setup_logger or of a logger; calls that fail are survived. See utils/common_logging.py:5-24. *)
Inductive event := Setup (n : name) (file : string) (level : Z) | Log (n : name) (level : Z) (text : string).
(** What one call does; utils/common_logging.py:5-24. *)
Definition step (can_open : string -> bool) (w : world) (e : event) : world :=
  match e with
  | Setup n file level => fst (setup_logger can_open w n file level)
  | Log n level text => log w n level text
  end.
(** A process: it starts without loggers. See utils/common_logging.py:5-24. *)
Definition process (can_open : string -> bool) (h : list event) : world := fold_left (step can_open) h (World [] []).
