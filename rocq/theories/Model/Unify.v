(** The files the steps of a simulation leave behind, and the script that unifies those of a broken run; scripts/unify_results.py,
    runs/HC_eilat_July_2018/simulated_data_entropy_bitwise_decoder_weighted_model.py. *)
From Coq Require Import String Ascii List ZArith NArith Bool.
From Verif.Model Require Import Py ShipLog Cmd.
Import ListNotations.

(** Order of str: lexicographic. See scripts/unify_results.py:19. *)
Fixpoint text_leb (a b : text) : bool :=
  match a, b with
  | [], _ => true
  | _ :: _, [] => false
  | x :: a, y :: b => if N.eqb x y then text_leb a b else N.ltb x y
  end.
(** sorted(l, key): stable. *)
Section Sort.
Context {A : Type}.
Variable le : A -> A -> bool.
(** One item put in its place; scripts/unify_results.py:19-21. *)
Fixpoint insert (x : A) (l : list A) : list A :=
  match l with [] => [x] | y :: t => if le x y then x :: l else y :: insert x t end.
(** The whole list; scripts/unify_results.py:19-21. *)
Definition sorted (l : list A) : list A := fold_right insert [] l.
End Sort.
(** f.endswith(p). See scripts/unify_results.py:19. *)
Definition ends_with (p f : text) : bool := starts (rev p) (rev f).

Section Unify.
(** The values of a step's results. *)
Variable V : Type.
(** What a step returns; scripts/unify_results.py:28-38. *)
Definition dict := list (string * V).
(** p[k]; scripts/unify_results.py:36-47. *)
Fixpoint lookup (k : string) (d : dict) : res V :=
  match d with (x, v) :: t => if String.eqb x k then Ok v else lookup k t | [] => Err KeyError end.

(** A file: complete, or opened and not (completely) written.  Directories list their files in any order. See scripts/unify_results.py:29-30. *)
Inductive content := Whole (d : dict) | Broken.
(** A file of a directory; scripts/unify_results.py:18-21. *)
Record file := File { f_name : text; f_time : Z; f_content : content }.
(** A directory; scripts/unify_results.py:18. *)
Definition dir := list file.
(** open(path, 'wb'); runs/HC_eilat_July_2018/simulated_data_entropy_bitwise_decoder_weighted_model.py:200-201. *)
Definition put (f : file) (d : dir) : dir :=
  if existsb (fun g => text_eqb (f_name g) (f_name f)) d
  then map (fun g => if text_eqb (f_name g) (f_name f) then f else g) d
  else d ++ [f].

(** A step opens its file, and has written it; runs/HC_eilat_July_2018/simulated_data_entropy_bitwise_decoder_weighted_model.py:200-201.  The name holds the time in seconds and p; 198-199. *)
Inductive event := Begin (name : text) (t : Z) | End (name : text) (t : Z) (r : dict).
(** What an event does to the directory; runs/HC_eilat_July_2018/simulated_data_entropy_bitwise_decoder_weighted_model.py:200-201. *)
Definition happen (d : dir) (e : event) : dir :=
  match e with Begin n t => put (File n t Broken) d | End n t r => put (File n t (Whole r)) d end.
(** What a history does; runs/HC_eilat_July_2018/simulated_data_entropy_bitwise_decoder_weighted_model.py:200-201. *)
Definition after (d : dir) (es : list event) : dir := fold_left happen es d.

(** scripts/unify_results.py:18-21: the files ending in .pickle by name, then by the time of their last change. *)
Definition pickles (d : dir) : dir := filter (fun f => ends_with (ascii ".pickle") (f_name f)) d.
(** The files in the order they are read; scripts/unify_results.py:18-21. *)
Definition picked (d : dir) : dir :=
  sorted (fun a b => (f_time a <=? f_time b)%Z) (sorted (fun a b => text_leb (f_name a) (f_name b)) (pickles d)).
(** pickle.load; RuntimeError stands for the EOFError or UnpicklingError of a file that is not complete; :28-30. *)
Definition load (f : file) : res dict := match f_content f with Whole d => Ok d | Broken => Err RuntimeError end.

(** The summary; scripts/unify_results.py:53-56. *)
Record summary := Summary { u_raw : list V; u_ldpc : list V; u_entropy : list V; u_ldpc_rate : list V; u_entropy_rate : list V; u_minflip : V }.
(** [p[k] for p in results]; scripts/unify_results.py:36-47. *)
Definition column (k : string) (rs : list dict) : res (list V) := map_res (lookup k) rs.
(** :27-58: what the file of the results holds, if it is written, and the summary.  Not modelled: the directory, the names of the two files,
    the figures, and the other fields of args, which are those of an earlier summary. See scripts/unify_results.py:27-58. *)
Definition unify (d : dir) : option (list dict) * res summary :=
  match map_res load (picked d) with
  | Err e => (None, Err e)
  | Ok rs =>
      (Some rs,
       do! raw <- column "raw_ber" rs in
       do! ldpc <- column "ldpc_decoder_ber" rs in
       do! entropy <- column "entropy_decoder_ber" rs in
       do! ldpc_rate <- column "ldpc_buffer_success_rate" rs in
       do! entropy_rate <- column "entropy_buffer_success_rate" rs in
       match raw with
       | m :: _ => Ok (Summary raw ldpc entropy ldpc_rate entropy_rate m)
       | [] => Err IndexError
       end)
  end.
End Unify.
Arguments File {V}.
Arguments f_name {V}.
Arguments f_time {V}.
Arguments f_content {V}.
Arguments Whole {V}.
Arguments Broken {V}.
Arguments Begin {V}.
Arguments End {V}.
