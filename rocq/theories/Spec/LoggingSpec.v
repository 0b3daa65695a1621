(** What is logged, said in terms of the calls made. *)
From Coq Require Import String.
From Coq Require Import List Arith ZArith Bool.
From Verif.Model Require Import Logging.
Import ListNotations.

(** [a] is [n] or an ancestor of [n]: "x.y" is one of "x.y.z". *)
Definition above (a n : name) : Prop := exists rest, n = a ++ rest.
Definition aboveb (a n : name) : bool := name_eqb a (firstn (length a) n).

(** The files with which [a] was set up, oldest first, as far as these could be opened. *)
Definition files_of (can_open : string -> bool) (h : list event) (a : name) : list string :=
  flat_map (fun e => match e with Setup n f _ => if name_eqb n a && can_open f then [f] else [] | Log _ _ _ => [] end) h.
(** The level [a] was given last, whether or not its file could be opened. *)
Definition level_of (h : list event) (a : name) : Z :=
  fold_left (fun v e => match e with Setup n _ l => if name_eqb n a then l else v | Log _ _ _ => v end) h (if name_eqb a [] then 30 else 0)%Z.
(** [v] is the level that counts for [n]: that of the closest name above [n] with a level, or 0. *)
Definition threshold (h : list event) (n : name) (v : Z) : Prop :=
  (exists a, above a n /\ level_of h a = v /\ v <> 0%Z /\ forall b, above b n -> length a < length b -> level_of h b = 0%Z) \/
  (v = 0%Z /\ forall a, above a n -> level_of h a = 0%Z).
(** How many successful calls have set up [n] or a name above it, with any file or with the file [f]. *)
Definition setups (can_open : string -> bool) (h : list event) (n : name) : nat :=
  length (filter (fun e => match e with Setup a f _ => aboveb a n && can_open f | Log _ _ _ => false end) h).
Definition setups_with (can_open : string -> bool) (h : list event) (n : name) (f : string) : nat :=
  length (filter (fun e => match e with Setup a g _ => aboveb a n && can_open g && String.eqb g f | Log _ _ _ => false end) h).
(** What was written to a target. *)
Definition content (w : world) (t : target) : list line := map snd (filter (fun p => target_eqb (fst p) t) (w_written w)).
