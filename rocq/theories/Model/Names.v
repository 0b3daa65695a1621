(** Names: where the Python code binds them, where it reads them, and the runs in between.  A read of a name that is not bound raises NameError
    (UnboundLocalError in functions), which Python finds only when it gets there.
    The statements of every file are in Model/NamesTable.v, which tools/gen_names.py takes from the text of the files.
    Simplified: conditions other than those on the options of a script may go either way, each time anew; loops may run any number of times; any
    statement may fail; an expression which mentions a function or a class of the file may call it, or its methods, any number of times, with
    variables of its own and not from within itself; attributes are not names; what is evaluated only under conditions within an expression
    (and, or, if, comprehensions, lambda) may be evaluated or not; the body of if __name__ == "__main__" is run.
    Names of the builtins module, __file__ and __name__ are left out: they are bound. *)
From Coq Require Import String ZArith NArith List Bool.
Import ListNotations.

(** The value of an option, of type=int or type=str; e.g. simulated_data_mavlink_decoding.py:32-34. *)
Inductive value := VInt (z : Z) | VStr (s : string).

(** Whether two values are equal, as ==; e.g. simulated_data_mavlink_decoding.py:64. *)
Definition value_eqb (a b : value) : bool :=
  match a, b with
  | VInt x, VInt y => Z.eqb x y
  | VStr x, VStr y => String.eqb x y
  | _, _ => false
  end.

(** bool(x); e.g. simulated_data_mavlink_decoding.py:95. *)
Definition truthy (v : value) : bool := match v with VInt z => negb (Z.eqb z 0) | VStr s => negb (String.eqb s "") end.

(** A condition: args.o == v, bool(args.o), not, args.o in {v, w}, or any other one; e.g. simulated_data_mavlink_decoding.py:64, 95 and
    simulated_data_classifying_entropy_decoder.py:136. *)
Inductive cond := Opaque | Is (o : string) (v : value) | Truthy (o : string) | Not (c : cond) | Or (c d : cond).

(** Its truth for given options, if they decide it; e.g. simulated_data_mavlink_decoding.py:64, 95. *)
Fixpoint test (opts : string -> value) (c : cond) : option bool :=
  match c with
  | Opaque => None
  | Is o v => Some (value_eqb (opts o) v)
  | Truthy o => Some (truthy (opts o))
  | Not c => match test opts c with Some b => Some (negb b) | None => None end
  | Or c d => match test opts c, test opts d with Some a, Some b => Some (a || b) | _, _ => None end
  end.

(** A statement: the names an expression reads, in order; the names an assignment, import, def, class or target binds; if; for and while; try and
    its handler; the body of a function called here, with its local names and its parameters; raise, return, continue, break;
    e.g. simulated_data_mavlink_decoding.py:58, 49, 64-72, 75-89, 273-319, 128-216. *)
Inductive stmt :=
| Eval (xs : list N)
| Bind (xs : list N)
| If (c : cond) (a b : list stmt)
| Loop (a : list stmt)
| Try (a h : list stmt)
| Call (locals params : list N) (a : list stmt)
| Raise
| Return
| Continue
| Break.

(** How it ends: at its last statement, with an exception, by return, continue or break, at a name which is not bound;
    e.g. simulated_data_mavlink_decoding.py:147. *)
Inductive ending := Done | Raised | Returned | Continued | Broke | Unbound (x : N).

(** What is left open: which statements fail, how often loops run, which way conditions go.  When a list is at its end nothing fails, loops run once and
    conditions are false; e.g. simulated_data_mavlink_decoding.py:75. *)
Record luck := { fails : list bool; turns : list nat; picks : list bool }.

(** The names bound so far, and the rest of what is open; e.g. simulated_data_mavlink_decoding.py:58. *)
Definition state : Type := (N -> bool) * luck.

(** Whether the next statement fails; any line, e.g. simulated_data_mavlink_decoding.py:54. *)
Definition next_fail (l : luck) : bool * luck :=
  match fails l with [] => (false, l) | b :: r => (b, {| fails := r; turns := turns l; picks := picks l |}) end.
(** How often the next loop runs; e.g. simulated_data_mavlink_decoding.py:75. *)
Definition next_turn (l : luck) : nat * luck :=
  match turns l with [] => (1, l) | n :: r => (n, {| fails := fails l; turns := r; picks := picks l |}) end.
(** Which way the next condition goes; e.g. simulated_data_mavlink_decoding.py:52. *)
Definition next_pick (l : luck) : bool * luck :=
  match picks l with [] => (false, l) | b :: r => (b, {| fails := fails l; turns := turns l; picks := r |}) end.

(** Names bound; e.g. simulated_data_mavlink_decoding.py:49. *)
Definition bind_names (xs : list N) (e : N -> bool) : N -> bool := fun y => existsb (N.eqb y) xs || e y.
(** The local names of a call, not bound at first; e.g. simulated_data_mavlink_decoding.py:128. *)
Definition unbind_names (xs : list N) (e : N -> bool) : N -> bool := fun y => negb (existsb (N.eqb y) xs) && e y.

(** The first name of an expression which is not bound; e.g. simulated_data_mavlink_decoding.py:58. *)
Fixpoint first_unbound (xs : list N) (e : N -> bool) : option N :=
  match xs with
  | [] => None
  | x :: xs => if e x then first_unbound xs e else Some x
  end.

(** A run of a statement; e.g. simulated_data_mavlink_decoding.py:1-319. *)
Fixpoint exec (opts : string -> value) (s : stmt) (st : state) {struct s} : ending * state :=
  let block := fix block (l : list stmt) (st : state) {struct l} : ending * state :=
    match l with
    | [] => (Done, st)
    | s :: l => match exec opts s st with (Done, st1) => block l st1 | r => r end
    end in
  let '(e, l) := st in
  match s with
  | Eval xs =>
      let '(f, l) := next_fail l in
      if f then (Raised, (e, l)) else match first_unbound xs e with None => (Done, (e, l)) | Some x => (Unbound x, (e, l)) end
  | Bind xs => (Done, (bind_names xs e, l))
  | If c a b =>
      let '(t, l) := match test opts c with Some t => (t, l) | None => next_pick l end in
      if t then block a (e, l) else block b (e, l)
  | Loop a =>
      let '(n, l) := next_turn l in
      (fix loop (n : nat) (st : state) {struct n} : ending * state :=
         match n with
         | O => (Done, st)
         | S n => match block a st with
                  | (Done, st1) | (Continued, st1) => loop n st1
                  | (Broke, st1) => (Done, st1)
                  | r => r
                  end
         end) n (e, l)
  | Try a h =>
      match block a (e, l) with
      | (Raised, (e, l)) => let '(t, l) := next_pick l in if t then block h (e, l) else (Raised, (e, l))
      | r => r
      end
  | Call locals params a =>
      match block a (bind_names params (unbind_names locals e), l) with
      | (Raised, st) => (Raised, st)
      | (Unbound x, st) => (Unbound x, st)
      | (_, st) => (Done, st)
      end
  | Raise => (Raised, st)
  | Return => (Returned, st)
  | Continue => (Continued, st)
  | Break => (Broke, st)
  end.

(** A run of statements in order; e.g. simulated_data_mavlink_decoding.py:1-319. *)
Definition exec_block (opts : string -> value) : list stmt -> state -> ending * state :=
  fix block (l : list stmt) (st : state) {struct l} : ending * state :=
    match l with
    | [] => (Done, st)
    | s :: l => match exec opts s st with (Done, st1) => block l st1 | r => r end
    end.

(** A file: its path, its names, its statements; e.g. simulated_data_mavlink_decoding.py:1-319. *)
Record file := { f_name : string; f_vars : list string; f_body : list stmt }.

(** A run of a file, from no names; e.g. simulated_data_mavlink_decoding.py:1-319. *)
Definition run_file (opts : string -> value) (f : file) (l : luck) : ending :=
  fst (exec_block opts (f_body f) (fun _ => false, l)).
