(** The files of the runs: what the scripts of runs/ and scripts/classifier_analysis.py do to directories, result files, step files and
    logs, statement by statement, with failures at any statement and any number of runs side by side.
    The statements of every script are in Model/SaveTable.v, which tools/gen_save.py takes from the text of the scripts.
    Simplified: names are texts within a directory (no separators in the values of {args.dec_type} and the like); the content of a result
    file is one item; worker processes are forked, so that they write to the log opened by the run; the file system is one device, so that
    shutil.move is a rename. *)
From Coq Require Import String List Bool Arith.
From Verif Require Import Model.Py.
Import ListNotations.
Local Open Scope string_scope.
Local Open Scope list_scope.

(** A part of an f-string: text or {variable}; e.g. simulated_data_combined_decoder.py:345. *)
Inductive piece := Lit (s : string) | Hole (v : string).

(** A name of a file, as the scripts write it; e.g. simulated_data_combined_decoder.py:345-347. *)
Definition template := list piece.

(** The name for given values of the variables; e.g. simulated_data_combined_decoder.py:345-347. *)
Fixpoint render (env : string -> string) (t : template) : string :=
  match t with
  | [] => ""
  | Lit s :: t' => String.append s (render env t')
  | Hole v :: t' => String.append (env v) (render env t')
  end.

(** The directories: the working directory, results/, results/<timestamp>/ and the directory made inside it by
    simulation_rafael_code.py:193. *)
Inductive dir := Cwd | Results | RunDir (stamp : string) | SubDir (stamp name : string).

(** Whether two directories are the same; os.path.join(path, ...), e.g. simulated_data_combined_decoder.py:256. *)
Definition dir_eqb (a b : dir) : bool :=
  match a, b with
  | Cwd, Cwd | Results, Results => true
  | RunDir s, RunDir t => String.eqb s t
  | SubDir s m, SubDir t n => String.eqb s t && String.eqb m n
  | _, _ => false
  end.

(** A file: its directory and its name; e.g. simulated_data_combined_decoder.py:300. *)
Definition path : Type := dir * string.

(** Whether two files are the same; e.g. simulated_data_combined_decoder.py:300. *)
Definition path_eqb (a b : path) : bool := dir_eqb (fst a) (fst b) && String.eqb (snd a) (snd b).

(** What is in a file: a line a run logged (utils/common_logging.py:12), a result a run wrote, a result of which a part was written. *)
Inductive item := Line (run : nat) (text : string) | Written (run : nat) (name : string) | Torn (run : nat) (name : string).

(** Directories, the file each name stands for, what is in each file, the next file; os.mkdir, open and shutil.move,
    e.g. simulated_data_combined_decoder.py:299-300, 359. *)
Record world := { w_dirs : dir -> bool; w_files : path -> option nat; w_data : nat -> list item; w_next : nat }.

(** os.mkdir(d); e.g. simulated_data_combined_decoder.py:299. *)
Definition add_dir (d : dir) (w : world) : world :=
  {| w_dirs := fun x => dir_eqb d x || w_dirs w x; w_files := w_files w; w_data := w_data w; w_next := w_next w |}.

(** A name made to stand for a file, or for none; e.g. simulated_data_combined_decoder.py:359. *)
Definition set_file (p : path) (i : option nat) (w : world) : world :=
  {| w_dirs := w_dirs w; w_files := fun x => if path_eqb p x then i else w_files w x; w_data := w_data w; w_next := w_next w |}.

(** What is in a file replaced; e.g. simulated_data_combined_decoder.py:300-301. *)
Definition set_data (i : nat) (l : list item) (w : world) : world :=
  {| w_dirs := w_dirs w; w_files := w_files w; w_data := fun x => if Nat.eqb i x then l else w_data w x; w_next := w_next w |}.

(** open(p, mode): the file of that name, made empty if there is none; simulated_data_combined_decoder.py:300, common_logging.py:12. *)
Definition open_file (p : path) (w : world) : world * nat :=
  match w_files w p with
  | Some i => (w, i)
  | None => (let w1 := set_data (w_next w) [] (set_file p (Some (w_next w)) w) in
             {| w_dirs := w_dirs w1; w_files := w_files w1; w_data := w_data w1; w_next := S (w_next w) |}, w_next w)
  end.

(** with open(p, "w") as f: f.write(...): the file holds what was written and nothing else; e.g. simulated_data_combined_decoder.py:300-301. *)
Definition write_file (p : path) (l : list item) (w : world) : world :=
  let '(w1, i) := open_file p w in set_data i l w1.

(** Where a name of the scripts is: the working directory, results/ or the directory of the run; e.g.
    simulated_data_classifying_dude_decoder.py:179, simulated_data_combined_decoder.py:247, 300. *)
Inductive place := AtCwd | AtResults | AtRun.

(** A statement of a script, for its effect on files: setup_logger(log_file=.../log.log), os.mkdir(path), os.mkdir inside path, a result
    written to path, the simulation with the file each step writes, shutil.move("results/log.log", path/log.log), anything else;
    e.g. simulated_data_combined_decoder.py:128, 299, 345, 304 and 247, 359, and simulation_rafael_code.py:193. *)
Inductive stmt :=
| SOpenLog (pl : place)
| SMkdir
| SMkdirIn (t : template)
| SWrite (t : template)
| SPool (step : option (place * template))
| SMove
| SOther.

(** A script: the statements before the try, those in it, and those of its handler between logger.exception(e) and raise e (None: there
    is no try); e.g. simulated_data_combined_decoder.py:1-304, 308-359, 360-363. *)
Record script := { sc_pre : list stmt; sc_body : list stmt; sc_handler : option (list stmt) }.

(** What is raised: FileExistsError, FileNotFoundError, anything else that is an Exception, KeyboardInterrupt;
    except Exception, e.g. simulated_data_combined_decoder.py:360. *)
Inductive err := FileExists | FileNotFound | Failed (s : string) | Interrupted.

(** What happens at a statement apart from the file system: the lines logged, the steps of the simulation which finish (their time and
    level), whether it fails, and whether a result was being written by then; e.g. simulated_data_combined_decoder.py:304. *)
Record outcome := { o_lines : list string; o_steps : list (string * string); o_fail : option err; o_torn : bool }.

(** Where a run is: the statements left (those in the try are marked), the statements left of the handler and what it will raise, what was
    raised. [Running []] is the end of the script; e.g. simulated_data_combined_decoder.py:308-363. *)
Inductive state := Running (l : list (bool * stmt)) | Handling (l : list stmt) (e : err) | Raised (e : err).

(** A run: its timestamp, its other variables, its handler, the file its log goes to, what it printed, where it is; e.g.
    simulated_data_combined_decoder.py:128, 250-256 and utils/common_logging.py:11-12. *)
Record proc := { p_stamp : string; p_args : string -> string; p_handler : list stmt; p_handle : option nat; p_out : list string;
                 p_state : state }.

(** The values of the variables in the names of results; e.g. simulated_data_combined_decoder.py:345. *)
Definition run_env (stamp : string) (args : string -> string) : string -> string :=
  fun v => if String.eqb v "timestamp" then stamp else args v.

(** Those in the names of the files of steps, whose timestamp is the step's own; e.g. simulated_data_combined_decoder.py:244-247. *)
Definition step_env (args : string -> string) (s : string * string) : string -> string :=
  fun v => if String.eqb v "timestamp" then fst s else if String.eqb v "p" || String.eqb v "snr" then snd s else args v.

(** The directory of a place; e.g. simulated_data_combined_decoder.py:256. *)
Definition dir_of (stamp : string) (pl : place) : dir :=
  match pl with AtCwd => Cwd | AtResults => Results | AtRun => RunDir stamp end.

(** logger.info of some lines: to standard output and to the file of the log, wherever it is by now; common_logging.py:11-12, 21-22. *)
Definition say (i : nat) (lines : list string) (w : world) (p : proc) : world * proc :=
  match p_handle p with
  | None => (w, p)
  | Some h => (set_data h (w_data w h ++ map (Line i) lines) w,
               {| p_stamp := p_stamp p; p_args := p_args p; p_handler := p_handler p; p_handle := p_handle p;
                  p_out := p_out p ++ lines; p_state := p_state p |})
  end.

(** The files the steps write, one after another; their directory exists by then. E.g. simulated_data_combined_decoder.py:247-248.
    Simplified: a step is either saved, whole, or not at all; a failure within the write itself is not modelled. *)
Definition write_steps (i : nat) (stamp : string) (args : string -> string) (step : option (place * template))
  (l : list (string * string)) (w : world) : world :=
  match step with
  | None => w
  | Some (pl, t) =>
      fold_left (fun w s => let n := render (step_env args s) t in write_file (dir_of stamp pl, n) [Written i n] w) l w
  end.

(** A statement: the world after it, the file of the log, what it raises; e.g. simulated_data_combined_decoder.py:128, 299-304, 345-359. *)
Definition exec_stmt (i : nat) (p : proc) (o : outcome) (s : stmt) (w : world) : world * option nat * option err :=
  let h := p_handle p in
  let t := p_stamp p in
  match s with
  | SOther => (w, h, o_fail o)
  | SPool step => (write_steps i t (p_args p) step (o_steps o) w, h, o_fail o)
  | SOpenLog pl =>
      match o_fail o with
      | Some e => (w, h, Some e)
      | None => if w_dirs w (dir_of t pl)
                then let '(w1, j) := open_file (dir_of t pl, "log.log") w in (w1, Some j, None)
                else (w, h, Some FileNotFound)
      end
  | SMkdir =>
      match o_fail o with
      | Some e => (w, h, Some e)
      | None => if w_dirs w (RunDir t) then (w, h, Some FileExists)
                else if w_dirs w Results then (add_dir (RunDir t) w, h, None) else (w, h, Some FileNotFound)
      end
  | SMkdirIn n =>
      match o_fail o with
      | Some e => (w, h, Some e)
      | None => let d := SubDir t (render (run_env t (p_args p)) n) in
                if w_dirs w d then (w, h, Some FileExists)
                else if w_dirs w (RunDir t) then (add_dir d w, h, None) else (w, h, Some FileNotFound)
      end
  | SWrite n =>
      let name := render (run_env t (p_args p)) n in
      match o_fail o, o_torn o with
      | Some e, false => (w, h, Some e)
      | f, _ => if w_dirs w (RunDir t)
                then (write_file (RunDir t, name) [match f with None => Written i name | Some _ => Torn i name end] w, h, f)
                else (w, h, Some FileNotFound)
      end
  | SMove =>
      match o_fail o with
      | Some e => (w, h, Some e)
      | None => match w_files w (Results, "log.log") with
                | None => (w, h, Some FileNotFound)
                | Some j => if w_dirs w (RunDir t)
                            then (set_file (RunDir t, "log.log") (Some j) (set_file (Results, "log.log") None w), h, None)
                            else (w, h, Some FileNotFound)
                end
      end
  end.

(** Whether except Exception catches it; e.g. simulated_data_combined_decoder.py:360. *)
Definition catchable (e : err) : bool := match e with Interrupted => false | _ => true end.

(** The line of logger.exception(e); e.g. simulated_data_combined_decoder.py:361. *)
Definition exception_line (e : err) : string :=
  match e with FileExists => "FileExistsError" | FileNotFound => "FileNotFoundError" | Failed s => s | Interrupted => "KeyboardInterrupt" end.

(** The rest of a handler, which ends in raise e; e.g. simulated_data_combined_decoder.py:362-363. *)
Definition handling (l : list stmt) (e : err) : state := match l with [] => Raised e | _ => Handling l e end.

(** A run with another place and another file of the log; e.g. simulated_data_combined_decoder.py:128. *)
Definition go (p : proc) (h : option nat) (st : state) : proc :=
  {| p_stamp := p_stamp p; p_args := p_args p; p_handler := p_handler p; p_handle := h; p_out := p_out p; p_state := st |}.

(** One statement of a run: the lines, the statement, and what follows if it raises; e.g. simulated_data_combined_decoder.py:308-363. *)
Definition step_proc (i : nat) (o : outcome) (w : world) (p : proc) : world * proc :=
  match p_state p with
  | Running [] | Raised _ => (w, p)
  | Running ((guarded, s) :: rest) =>
      let '(w1, p1) := say i (o_lines o) w p in
      let '(w2, h, e) := exec_stmt i p1 o s w1 in
      match e with
      | None => (w2, go p1 h (Running rest))
      | Some e =>
          if guarded && catchable e
          then let '(w3, p3) := say i [exception_line e] w2 p1 in (w3, go p3 (p_handle p3) (handling (p_handler p3) e))
          else (w2, go p1 h (Raised e))
      end
  | Handling [] e => (w, go p (p_handle p) (Raised e))
  | Handling (s :: rest) e =>
      let '(w1, p1) := say i (o_lines o) w p in
      let '(w2, h, e') := exec_stmt i p1 o s w1 in
      match e' with
      | None => (w2, go p1 h (handling rest e))
      | Some e' => (w2, go p1 h (Raised e'))
      end
  end.

(** A script about to be run; e.g. simulated_data_combined_decoder.py:1. *)
Definition start (sc : script) (stamp : string) (args : string -> string) : proc :=
  {| p_stamp := stamp; p_args := args; p_handler := match sc_handler sc with Some l => l | None => [] end; p_handle := None; p_out := [];
     p_state := Running (map (pair false) (sc_pre sc) ++
                         map (pair (match sc_handler sc with Some _ => true | None => false end)) (sc_body sc)) |}.

(** Runs side by side: one of them does its next statement; e.g. simulated_data_combined_decoder.py run twice. *)
Definition sys_step (s : world * list proc) (x : nat * outcome) : world * list proc :=
  match nth_error (snd s) (fst x) with
  | None => s
  | Some p => let '(w, p') := step_proc (fst x) (snd x) (fst s) p in (w, set_nth (snd s) (fst x) p')
  end.

(** A schedule: which run does its next statement, and what happens at it; e.g. simulated_data_combined_decoder.py run twice. *)
Definition sys_run (s : world * list proc) (l : list (nat * outcome)) : world * list proc := fold_left sys_step l s.
