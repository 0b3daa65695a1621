(** The files of finished steps, for Props/StepProps.v. *)
From Coq Require Import String List Bool Arith.
From Verif Require Import Model.Py Model.Saving Spec.SavingSpec.
Import ListNotations.
Local Open Scope list_scope.

(** The file of a step (its time and its level) of a run whose simulation writes files named by a template. *)
Definition step_file (r : run) (pl : place) (t : template) (s : string * string) : path :=
  (dir_of (r_stamp r) pl, render (step_env (r_args r) s) t).

(** The files saved by the k-th entry of a schedule: it is a simulation, and nothing failed before in that run.  Each with its run. *)
Definition saved_at (rs : list run) (sched : list (nat * outcome)) (k : nat) : list (path * nat) :=
  match nth_error sched k with
  | None => []
  | Some (i, o) =>
      let outs := own i (firstn k sched) in
      match nth_error rs i with
      | None => []
      | Some r => if existsb fails outs then [] else
          match nth_error (stmts (r_script r)) (length outs) with
          | Some (SPool (Some (pl, t))) => map (fun s => (step_file r pl t s, i)) (o_steps o)
          | _ => []
          end
      end
  end.

(** All files of steps saved in a schedule, in order. *)
Definition saved (rs : list run) (sched : list (nat * outcome)) : list (path * nat) :=
  flat_map (saved_at rs sched) (seq 0 (length sched)).
