(** Model of utils/random_sources.py. *)
From Coq Require Import List ZArith Bool.
From Verif.Model Require Import Py.
Import ListNotations.

Section Markov.
(** Rows of the transition tensor (the probabilities of the next state), of any representation. *)
Variable P : Type.

(** transition_matrix: number of dimensions minus one, the last two extents, and indexing by a tuple of states (IndexError
    outside). See utils/random_sources.py:5-12, 20. *)
Record tensor := Tensor { t_order : nat; t_last : nat; t_before_last : nat; t_row : list Z -> res P }.

(** initial_state: an int, or a sequence. See utils/random_sources.py:7-10, 15. *)
Inductive init_state := IInt (z : Z) | ISeq (l : list Z).

(** np.random.choice(range(num_states), p=row), the i-th draw of the generator (external). *)
Variable choice : nat -> P -> res Z.

(** The loop; utils/random_sources.py:18-21. *)
Fixpoint markov_loop (t : tensor) (fuel i : nat) (states : list Z) : res (list Z) :=
  match fuel with
  | O => Ok states
  | S f =>
      let current := slice_from states (- Z.of_nat (t_order t)) in
      do! p <- t_row t current in
      do! v <- choice i p in
      markov_loop t f (S i) (set_nth states i v)
  end.

(** generate_markov_samples; utils/random_sources.py:4-22.  A one-dimensional transition matrix (order 0) has no second last
    extent (IndexError).  Assigning a sequence to states[:order] needs as many values as positions; a single value is
    repeated. *)
Definition generate_markov_samples (t : tensor) (initial : init_state) (num_samples : nat) : res (list Z) :=
  do! _ <- match initial with
           | IInt _ => if Nat.eqb (t_order t) 1 then Ok tt else Err TypeError
           | ISeq l => if Nat.eqb (t_order t) (length l) then Ok tt else Err ValueError
           end in
  if Nat.eqb (t_order t) 0 then Err IndexError
  else if negb (Nat.eqb (t_last t) (t_before_last t)) then Err ValueError
  else
    let order := t_order t in
    do! states <- match initial with
                  | IInt z => Ok (fill (repeat 0%Z num_samples) 0 order z)
                  | ISeq [z] => Ok (fill (repeat 0%Z num_samples) 0 order z)
                  | ISeq l => if Nat.leb order num_samples then Ok (l ++ repeat 0%Z (num_samples - order)) else Err ValueError
                  end in
    markov_loop t (num_samples - order) order states.
End Markov.
Arguments Tensor {P}.
Arguments t_order {P}.
Arguments t_last {P}.
Arguments t_before_last {P}.
Arguments t_row {P}.
Arguments markov_loop {P}.
Arguments generate_markov_samples {P}.
