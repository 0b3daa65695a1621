(** Specification of simulations run by a pool of processes. *)
From Coq Require Import List Arith ZArith Bool.
From Verif.Model Require Import Py.
Import ListNotations.

(** The worker of task [t] when chunks of [size] tasks are given to the workers named in [sched]. *)
Definition owner (sched : list nat) (size t : nat) : nat := nth (t / size) sched 0.

(** The tasks that the same worker ran before. *)
Definition before (sched : list nat) (size t : nat) : list nat := filter (fun u => Nat.eqb (owner sched size u) (owner sched size t)) (seq 0 t).

(** What a process remembers after some steps. *)
Definition memory {S X Y} (step : S -> X -> res Y * S) (s : S) (xs : list X) : S := fold_left (fun s x => snd (step s x)) xs s.

(** The values of some tasks. *)
Definition values {X} (xs : list X) (ts : list nat) : list X := flat_map (fun t => match nth_error xs t with Some x => [x] | None => [] end) ts.

(** The number of chunks: the tasks over the size, rounded up. *)
Definition chunk_count (tasks size : nat) : nat := (tasks + size - 1) / size.

(** [n] draws in a row, and what [n] draws in a row give after [k] times [n] draws. *)
Fixpoint draws {G A} (next : G -> A * G) (n : nat) (g : G) : list A * G :=
  match n with 0 => ([], g) | S n => let '(a, g') := next g in let '(l, g'') := draws next n g' in (a :: l, g'') end.
Definition block {G A} (next : G -> A * G) (n k : nat) (g : G) : list A := fst (draws next n (Nat.iter k (fun g => snd (draws next n g)) g)).
