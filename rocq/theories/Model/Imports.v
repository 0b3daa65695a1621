(** How files of the code are imported: sys.modules, packages, modules which are imported while they are not complete, and what an import
    that fails leaves behind.  The statements of every file are in Model/ImportsTable.v.
    Simplified: packages of others are installed and have the names asked for, or the statement fails like any other one; of several names
    of a from, those which are submodules are imported in turn with the others; which file a name stands for is found by
    tools/gen_imports.py (the root of the code is on the path, as in scripts/env_setup.sh:3). *)
From Coq Require Import String List Bool.
Import ListNotations.
Local Open Scope string_scope.
Local Open Scope list_scope.

(** A statement: anything which imports nothing of the code, with the names it binds; import m as x; from m import x as y, ...; e.g.
    decoders/mavlink_decoder.py:1, protocol_meta/protocol_meta.py:1, decoders/mavlink_decoder.py:3. *)
Inductive istmt := Other (xs : list string) | Import (m x : string) | From (m : string) (xs : list (string * string)).

(** A file which can be imported: its name, the package it is in, its name there, its statements; e.g. decoders/__init__.py:1-9. *)
Record modl := { m_name : string; m_parent : option string; m_last : string; m_body : list istmt }.

(** sys.modules with the names bound in each module so far, the modules whose statements were begun, latest first, and which of the
    statements to come fail; e.g. decoders/__init__.py:2. *)
Record istate := { mods : list (string * list string); begun : list string; faults : list bool }.

(** How an import ends: it is done, a statement failed, the module has no such name (ImportError), it never ends; e.g. decoders/__init__.py:2. *)
Inductive ires := IDone | IFailed | IMissing (m x : string) | IEndless.

(** The names bound in a module of sys.modules; e.g. decoders/mavlink_decoder.py:3. *)
Definition names_of (m : string) (s : istate) : option (list string) :=
  match find (fun e => String.eqb (fst e) m) (mods s) with Some e => Some (snd e) | None => None end.

(** Whether a module is in sys.modules; e.g. decoders/mavlink_decoder.py:3. *)
Definition loaded (m : string) (s : istate) : bool := match names_of m s with Some _ => true | None => false end.

(** Names bound in a module, if it is there; e.g. decoders/__init__.py:2. *)
Definition bind (m : string) (xs : list string) (s : istate) : istate :=
  {| mods := map (fun e => if String.eqb (fst e) m then (fst e, xs ++ snd e) else e) (mods s); begun := begun s; faults := faults s |}.

(** sys.modules[m] = a new module, before its first statement; e.g. decoders/__init__.py:2. *)
Definition enter (m : string) (s : istate) : istate := {| mods := (m, []) :: mods s; begun := m :: begun s; faults := faults s |}.

(** del sys.modules[m], when one of its statements failed; e.g. decoders/__init__.py:2. *)
Definition leave (m : string) (s : istate) : istate :=
  {| mods := filter (fun e => negb (String.eqb (fst e) m)) (mods s); begun := begun s; faults := faults s |}.

(** Whether the next statement fails; e.g. decoders/mavlink_decoder.py:1. *)
Definition chance (s : istate) : bool * istate :=
  match faults s with [] => (false, s) | b :: l => (b, {| mods := mods s; begun := begun s; faults := l |}) end.

(** The name of a module in a package; e.g. decoders/__init__.py:2. *)
Definition inside (m x : string) : string := String.append m (String.append "." x).

(** The file of a name; e.g. decoders/__init__.py:2. *)
Definition file_of (table : list modl) (m : string) : option modl := find (fun e => String.eqb (m_name e) m) table.

(** from m import x as y, ... after m was imported: each name is bound there, or is a module of that package; e.g.
    decoders/mavlink_decoder.py:3. *)
Fixpoint fetch (table : list modl) (imp : string -> istate -> istate * ires) (me m : string) (xs : list (string * string)) (s : istate) : istate * ires :=
  match xs with
  | [] => (s, IDone)
  | (x, y) :: xs' =>
      if match names_of m s with Some ns => existsb (String.eqb x) ns | None => false end then fetch table imp me m xs' (bind me [y] s)
      else match file_of table (inside m x) with
           | None => (s, IMissing m x)
           | Some _ => match imp (inside m x) s with
                       | (s', IDone) => fetch table imp me m xs' (bind me [y] s')
                       | (s', r) => (s', r)
                       end
           end
  end.

(** The statements of a module, or of a script; e.g. decoders/__init__.py:1-9. *)
Fixpoint run_body (table : list modl) (imp : string -> istate -> istate * ires) (me : string) (l : list istmt) (s : istate) : istate * ires :=
  match l with
  | [] => (s, IDone)
  | Other xs :: l' => let '(b, s1) := chance s in if b then (s1, IFailed) else run_body table imp me l' (bind me xs s1)
  | Import m x :: l' =>
      match imp m s with
      | (s1, IDone) => run_body table imp me l' (bind me [x] s1)
      | (s1, r) => (s1, r)
      end
  | From m xs :: l' =>
      match imp m s with
      | (s1, IDone) => match fetch table imp me m xs s1 with
                       | (s2, IDone) => run_body table imp me l' s2
                       | (s2, r) => (s2, r)
                       end
      | (s1, r) => (s1, r)
      end
  end.

(** import m: nothing if it is in sys.modules, complete or not; else its package first, then its statements, and its name is bound in its
    package; if one of them fails it is taken out of sys.modules again.  Modules within modules are counted by [fuel]; e.g.
    decoders/__init__.py:2. *)
Fixpoint import_module (table : list modl) (fuel : nat) (m : string) (s : istate) : istate * ires :=
  match fuel with
  | O => (s, IEndless)
  | S n =>
      if loaded m s then (s, IDone)
      else match file_of table m with
           | None => (s, IMissing m "")
           | Some e =>
               match (match m_parent e with None => (s, IDone) | Some p => import_module table n p s end) with
               | (s1, IDone) =>
                   if loaded m s1 then (s1, IDone)
                   else match run_body table (import_module table n) m (m_body e) (enter m s1) with
                        | (s2, IDone) => (match m_parent e with None => s2 | Some p => bind p [m_last e] s2 end, IDone)
                        | (s2, r) => (leave m s2, r)
                        end
               | (s1, r) => (s1, r)
               end
           end
  end.

(** A process, at first without modules: modules are imported one after another, whether or not those before failed; e.g. scripts/env_setup.sh:3
    and an interactive session. *)
Fixpoint session (table : list modl) (fuel : nat) (ms : list string) (s : istate) : istate * list ires :=
  match ms with
  | [] => (s, [])
  | m :: ms' => let '(s1, r) := import_module table fuel m s in let '(s2, rs) := session table fuel ms' s1 in (s2, r :: rs)
  end.

(** A new process with the failures to come; e.g. scripts/env_setup.sh:3. *)
Definition fresh (l : list bool) : istate := {| mods := []; begun := []; faults := l |}.

(** A script run in a process: python file.py; e.g. runs/HC_eilat_July_2018/simulated_data_entropy_bitwise_decoder_weighted_model.py:1-7. *)
Definition run_script (table : list modl) (fuel : nat) (l : list istmt) (s : istate) : istate * ires :=
  run_body table (import_module table fuel) "__main__" l s.
