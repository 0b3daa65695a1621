(** What can be seen of runs and their files, for Props/Saving.v. *)
From Coq Require Import String List Bool Arith.
From Verif Require Import Model.Py Model.Saving Model.SaveTable.
Import ListNotations.
Local Open Scope string_scope.
Local Open Scope list_scope.

(** What is in the file of a name, if there is one. *)
Definition content (w : world) (p : path) : option (list item) := option_map (w_data w) (w_files w p).

(** A run to be started: the script, its time, its other variables. *)
Record run := { r_script : script; r_stamp : string; r_args : string -> string }.
Definition launch (rs : list run) : list proc := map (fun r => start (r_script r) (r_stamp r) (r_args r)) rs.
Definition in_table (sc : script) : Prop := exists name, In (name, sc) saving_scripts.
Definition stmts (sc : script) : list stmt := sc_pre sc ++ sc_body sc.

(** The script logs to results/log.log and moves it in the end; or it logs in the directory of the run. *)
Definition shares_log (sc : script) : Prop := In (SOpenLog AtResults) (stmts sc).
Definition own_log (sc : script) : Prop := In (SOpenLog AtRun) (stmts sc).

(** The name of a result of a run. *)
Definition result_name (r : run) (t : template) : string := render (run_env (r_stamp r) (r_args r)) t.

(** A disk: results/ exists, no two names stand for one file. *)
Definition sane (w : world) : Prop :=
  w_dirs w Results = true /\
  (forall p i, w_files w p = Some i -> i < w_next w) /\
  (forall p q i, w_files w p = Some i -> w_files w q = Some i -> p = q).

(** There is nothing under results/<t> yet. *)
Definition unused (w : world) (t : string) : Prop :=
  w_dirs w (RunDir t) = false /\ (forall n, w_dirs w (SubDir t n) = false) /\ (forall n, w_files w (RunDir t, n) = None).

(** Who wrote an item. *)
Definition author (x : item) : nat := match x with Line r _ | Written r _ | Torn r _ => r end.

(** Nothing on the disk is by one of the first n runs. *)
Definition nothing_by (n : nat) (w : world) : Prop :=
  forall j x, j < w_next w -> In x (w_data w j) -> n <= author x.

(** Runs of scripts of the table, about to start. *)
Definition ready (w : world) (rs : list run) : Prop :=
  sane w /\ nothing_by (length rs) w /\ Forall (fun r => in_table (r_script r)) rs /\ Forall (fun r => unused w (r_stamp r)) rs.

(** What happened at the statements of run i, in order. *)
Definition own (i : nat) (sched : list (nat * outcome)) : list outcome :=
  map snd (filter (fun x => Nat.eqb (fst x) i) sched).

Definition fails (o : outcome) : bool := match o_fail o with Some _ => true | None => false end.

(** What became of the result written by statement j, given what happened at the statements of the run. *)
Inductive fate := Missing | Partial | Complete.
Definition fate_of (outs : list outcome) (j : nat) : fate :=
  match nth_error outs j with
  | None => Missing
  | Some o => if existsb fails (firstn j outs) then Missing
              else match o_fail o with None => Complete | Some _ => if o_torn o then Partial else Missing end
  end.
Definition fate_content (i : nat) (n : string) (f : fate) : option (list item) :=
  match f with Missing => None | Partial => Some [Torn i n] | Complete => Some [Written i n] end.

(** The lines of run i in a file. *)
Fixpoint lines_of (i : nat) (l : list item) : list string :=
  match l with
  | [] => []
  | Line r s :: t => if Nat.eqb r i then s :: lines_of i t else lines_of i t
  | _ :: t => lines_of i t
  end.

(** The run reached its end; the run is over. *)
Definition completed (p : proc) : Prop := p_state p = Running [].
Definition ended (p : proc) : Prop := p_state p = Running [] \/ exists e, p_state p = Raised e.

(** The first statement which fails, and how. *)
Fixpoint first_failure (outs : list outcome) : option (nat * err) :=
  match outs with
  | [] => None
  | o :: t => match o_fail o with
              | Some e => Some (0, e)
              | None => match first_failure t with Some (k, e) => Some (S k, e) | None => None end
              end
  end.

(** The directory of the run is made before statement k. *)
Definition dir_made (sc : script) (k : nat) : bool :=
  existsb (fun s => match s with SMkdir => true | _ => false end) (firstn k (stmts sc)).

(** Where a run alone on the disk leaves the log it shares: in results/, or in its directory. *)
Definition log_moved (sc : script) (outs : list outcome) : bool :=
  match first_failure outs with
  | None => Nat.leb (length (stmts sc)) (length outs)
  | Some (k, e) =>
      if Nat.ltb k (length (stmts sc))
      then Nat.leb (length (sc_pre sc)) k && catchable e && dir_made sc k &&
           match nth_error outs (S k) with Some o => negb (fails o) | None => false end
      else true
  end.

(** It opened the log. *)
Definition log_opened (opening : nat) (outs : list outcome) : bool :=
  match fate_of outs opening with Complete => true | _ => false end.

(** How it ends, if it has: None is normally. *)
Definition ends_with (sc : script) (outs : list outcome) (r : option err) : Prop :=
  match first_failure outs with
  | None => length (stmts sc) <= length outs /\ r = None
  | Some (k, e) =>
      if Nat.ltb k (length (stmts sc))
      then if Nat.leb (length (sc_pre sc)) k && catchable e
           then match nth_error outs (S k) with
                | None => False
                | Some o => r = Some (match o_fail o with Some e' => e' | None => if dir_made sc k then e else FileNotFound end)
                end
           else r = Some e
      else r = None
  end.

(** What run i printed: the lines of its statements after the one opening the log, and the exception caught. *)
Definition printed (sc : script) (opening : nat) (outs : list outcome) : list string :=
  let upto (k : nat) := concat (map o_lines (skipn (S opening) (firstn (S k) outs))) in
  match first_failure outs with
  | Some (k, e) =>
      if Nat.ltb k (length (stmts sc))
      then if Nat.leb k opening then [] else
           if Nat.leb (length (sc_pre sc)) k && catchable e
           then upto k ++ [exception_line e] ++ match nth_error outs (S k) with Some o => o_lines o | None => [] end
           else upto k
      else upto (length (stmts sc) - 1)
  | None => upto (length (stmts sc) - 1)
  end.
