(** Model of the pool of worker processes that runs the steps of a simulation.  A step may read and change what its process remembers (the generator of
    random numbers and the number of iterations are global variables); the workers share nothing. *)
From Coq Require Import List Arith ZArith Bool.
From Verif.Model Require Import Py Float.
Import ListNotations.

(** The size of the chunks of Pool.map, as documented by the library: a quarter of an even share, rounded up.
    See runs/HC_eilat_July_2018/simulated_data_classifying_entropy_decoder.py:288-292. *)
Definition chunk_size (tasks workers : nat) : nat := tasks / (4 * workers) + (if Nat.eqb (tasks mod (4 * workers)) 0 then 0 else 1).
(** The tasks cut into chunks of [size]; [fuel] is at least the number of tasks. See runs/HC_eilat_July_2018/simulated_data_classifying_entropy_decoder.py:288-292. *)
Fixpoint cut {A} (fuel size : nat) (l : list A) : list (list A) :=
  match fuel, l with
  | S fuel, _ :: _ => firstn size l :: cut fuel size (skipn size l)
  | _, _ => []
  end.

Section Pool.
Context {S X Y : Type}.
(** simulation_step in a process that remembers a value of [S]; what is remembered may have changed even if the step fails. *)
Variable step : S -> X -> res Y * S.

(** One chunk in one process; it ends at the first error. See runs/HC_eilat_July_2018/simulated_data_classifying_entropy_decoder.py:288-292. *)
Fixpoint run_chunk (s : S) (xs : list X) : res (list Y) * S :=
  match xs with
  | [] => (Ok [], s)
  | x :: xs =>
      let '(r, s') := step s x in
      match r with
      | Err e => (Err e, s')
      | Ok y => let '(r', s'') := run_chunk s' xs in (match r' with Ok ys => Ok (y :: ys) | Err e => Err e end, s'')
      end
  end.
(** The chunks are taken from one queue: [sched] names the worker of each chunk; what the workers remember is [mem].
    See runs/HC_eilat_July_2018/simulated_data_classifying_entropy_decoder.py:288-292. *)
Fixpoint run_chunks (sched : list nat) (cs : list (list X)) (mem : nat -> S) : list (res (list Y)) :=
  match sched, cs with
  | w :: sched, c :: cs =>
      let '(r, s') := run_chunk (mem w) c in
      r :: run_chunks sched cs (fun v => if Nat.eqb v w then s' else mem v)
  | _, _ => []
  end.

(** with Pool(processes=processes) as pool: results = pool.map(simulation_step, values): the results in the order of the values, or one of the errors;
    runs/HC_eilat_July_2018/simulated_data_classifying_entropy_decoder.py:291-292, simluated_data_entropy_bf_decoders.py:281-282,
    classifying_entropy_decoder_over_awgn_channel.py:266-267, simulated_data_combined_decoder.py:304-305, simulated_data_mavlink_decoding.py:269-270,
    simulated_data_pretrained_model.py:231-232, simulated_data_classifying_dude_decoder.py:230-231.  Any worker may take the next chunk. *)
Inductive pool_map (workers : nat) (init : nat -> S) (xs : list X) (sched : list nat) : res (list Y) -> Prop :=
| pool_done yss : length sched = length (cut (length xs) (chunk_size (length xs) workers) xs) -> Forall (fun w => w < workers) sched ->
    run_chunks sched (cut (length xs) (chunk_size (length xs) workers) xs) init = map Ok yss -> pool_map workers init xs sched (Ok (concat yss))
| pool_failed e : length sched = length (cut (length xs) (chunk_size (length xs) workers) xs) -> Forall (fun w => w < workers) sched ->
    In (Err e) (run_chunks sched (cut (length xs) (chunk_size (length xs) workers) xs) init) -> pool_map workers init xs sched (Err e).
End Pool.

Section Steps.
Variable FO : fops.
Notation F := (F FO).
Context {G Y : Type}.

(** noise = sigma * rng.normal(size=len(baseband)) for each of [n] words of [nn] bits; classifying_entropy_decoder_over_awgn_channel.py:155-159,
    simluated_data_entropy_bf_decoders.py:130-134. *)
Fixpoint noise_rows (normal : G -> nat -> list F * G) (sigma : F) (n nn : nat) (g : G) : list (list F) * G :=
  match n with
  | 0 => ([], g)
  | S n => let '(u, g') := normal g nn in let '(rest, g'') := noise_rows normal sigma n nn g' in (map (fmul FO sigma) u :: rest, g'')
  end.
(** A step over Gaussian noise: the rest of the step gets the value and the noise; same lines.  Simplified: the noise is drawn before the words are
    decoded, which differs only in what is remembered after a step that fails.
    See runs/HC_eilat_July_2018/simulated_data_classifying_entropy_decoder.py:128-134, 173. *)
Definition gauss_step {X} (normal : G -> nat -> list F * G) (sigma : X -> F) (n nn : nat) (finish : X -> list (list F) -> res Y) (g : G) (x : X) : res Y * G :=
  let '(noise, g') := noise_rows normal (sigma x) n nn g in (finish x noise, g').

(** rng.choice(encoder.n, size=no_errors, replace=False) for each of [n] words; e.g. simulated_data_combined_decoder.py:174-177. *)
Fixpoint error_rows (choice : G -> nat -> nat -> list nat * G) (nn size n : nat) (g : G) : list (list nat) * G :=
  match n with
  | 0 => ([], g)
  | S n => let '(row, g') := choice g nn size in let '(rest, g'') := error_rows choice nn size n g' in (row :: rest, g'')
  end.
(** A step over the binary symmetric channel; same lines. See runs/HC_eilat_July_2018/simulated_data_combined_decoder.py:168-177. *)
Definition flip_step {X} (choice : G -> nat -> nat -> list nat * G) (size : X -> nat) (nn n : nat) (finish : X -> list (list nat) -> res Y) (g : G) (x : X) : res Y * G :=
  let '(errors, g') := error_rows choice nn (size x) n g in (finish x errors, g').

(** ldpc_iterations = max(int(3*p*nn), ldpc_iterations), a global variable of the process; [need] is int(3*p*nn) and the noise as above;
    simluated_data_entropy_bf_decoders.py:75-134. *)
Definition bf_step {X} (normal : G -> nat -> list F * G) (sigma : X -> F) (need : X -> Z) (n nn : nat) (finish : X -> Z -> list (list F) -> res Y)
  (st : Z * G) (x : X) : res Y * (Z * G) :=
  let iterations := Z.max (need x) (fst st) in
  let '(noise, g') := noise_rows normal (sigma x) n nn (snd st) in
  (finish x iterations noise, (iterations, g')).
End Steps.
