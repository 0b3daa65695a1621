(** Splitting the results of a simulation into three files for MATLAB; scripts/fix_results.py. *)
From Coq Require Import String Ascii List Bool.
From Verif.Model Require Import Py.
Import ListNotations.
Local Open Scope string_scope.

Section Fix.
Variable V : Type.
(** A value of a step's results: a pandas DataFrame, a dict of lists, or anything else.  Simplified: the index of a DataFrame is not kept.
    See scripts/fix_results.py:20-26. *)
Inductive entry := Frame (cols : list (string * list V)) | Lists (cols : list (string * list V)) | Other (v : V).
(** The results of a step: a dict; scripts/fix_results.py:20-26. *)
Definition step := list (string * entry).
(** step[k]; scripts/fix_results.py:24-26. *)
Definition lookup (k : string) (s : step) : res entry := match dict_get String.eqb s k with Some e => Ok e | None => Err KeyError end.
(** df.to_dict("list"): {name: column.tolist() for ...}; neither a dict nor a number has the method. See scripts/fix_results.py:24-26. *)
Definition to_dict (e : entry) : res (list (string * list V)) :=
  match e with Frame cols => Ok (fold_left (fun d c => dict_set String.eqb d (fst c) (snd c)) cols []) | _ => Err AttributeError end.
(** step['data'] = step['data'].to_dict("list"); scripts/fix_results.py:23-24. *)
Definition data_step (s : step) : res step := do! e <- lookup "data" s in do! l <- to_dict e in Ok (dict_set String.eqb s "data" (Lists l)).
(** step.pop(k).to_dict("list"); :25-26.  The step loses the key also if the value is no DataFrame, which then ends the script. *)
Definition pop (k : string) (s : step) : res (list (string * list V) * step) :=
  do! e <- lookup k s in do! l <- to_dict e in Ok (l, filter (fun kv => negb (String.eqb k (fst kv))) s).

(** The contents of a file: the summary with the steps, or the decoded words of each step. *)
Variable S : Type.
(** A value of the summary, or the steps added to it; scripts/fix_results.py:28. *)
Inductive item := Value (v : S) | Stats (l : list step).
(** What savemat is given; scripts/fix_results.py:30-37. *)
Inductive content := Data (d : list (string * item)) | Decoded (key : string) (l : list (list (string * list V))).
(** What is written, in this order; :30-37.  The steps are distinct objects, as those of a pool are.  Not modelled: the paths, pickle and lzma, and savemat
    beyond the dict it is given. *)
Definition fix_results (summary : list (string * S)) (results : list step) : res (list (string * content)) :=
  do! r1 <- map_res data_step results in
  do! r2 <- map_res (pop "decoded_entropy") r1 in
  do! r3 <- map_res (pop "decoded_ldpc") (map snd r2) in
  Ok [("data", Data (dict_set String.eqb (map (fun kv => (fst kv, Value (snd kv))) summary) "stats" (Stats (map snd r3))));
      ("decoded_ldpc", Decoded "decoded_ldpc" (map fst r3)); ("decoded_entropy", Decoded "decoded_entropy" (map fst r2))].
(** A run that is stopped once [k] files are complete; the pickles it reads are not changed. See scripts/fix_results.py:14-37. *)
Definition run_fix (k : nat) (summary : list (string * S)) (results : list step) (dir : list (string * content)) : list (string * content) :=
  match fix_results summary results with
  | Ok fs => fold_left (fun d f => dict_set String.eqb d (fst f) (snd f)) (firstn k fs) dir
  | Err _ => dir
  end.
End Fix.
