(** What the clustering trials cut, flip and report. *)
From Coq Require Import List Arith ZArith Bool.
Import ListNotations.

(** The words of a transmission of 1224 bits, by number of classes: first bit, end, and bits of filling that follow. *)
Definition trial_layout (nc : nat) : list (nat * nat * nat) :=
  match nc with
  | 2 => [(0, 576, 72); (576, 1224, 0)]
  | 3 => [(0, 416, 70); (416, 864, 38); (864, 1224, 126)]
  | _ => []
  end.
(** The number of bits of each word. *)
Definition trial_bits (nc : nat) : nat := match nc with 2 => 648 | _ => 486 end.
(** A word without errors. *)
Definition clean_part (row filling : list Z) (cut : nat * nat * nat) : list Z := let '(i, j, _) := cut in firstn (j - i) (skipn i row) ++ filling.

(** The positions from [first] on, below [n], that belong to class [c] of [nc] classes in turn. *)
Definition in_turn (first n nc c : nat) : list nat := filter (fun j => Nat.leb first j && Nat.eqb (j mod nc) c) (seq 0 n).
(** How many of these positions hold [v]. *)
Definition tally (l : list Z) (positions : list nat) (v : Z) : nat := length (filter (fun j => Z.eqb (nth j l 0%Z) v) positions).
