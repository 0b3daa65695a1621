(** Vocabulary of the claims about clustering in double precision. *)
From Coq Require Import List ZArith Reals Bool.
From Flocq Require Import Core.
From Verif.Model Require Import Py Float Clustering.
From Verif.Spec Require Import RealOps Info Cluster IeeeOps.
Import ListNotations.

(** What is assumed of log: a relative error of at most 2^-50, that is a few units in the last place. *)
Definition accurate_log (l : libm) : Prop :=
  forall x, fin x -> (0 < val x)%R ->
    fin (l_log l x) /\ (Rabs (val (l_log l x) - ln (val x)) <= bpow radix2 (-50) * Rabs (ln (val x)))%R.

(** How far the computed fit of a buffer of n bits may be from the exact one. *)
Definition tolerance (n : nat) : R := ((INR n + 16) * bpow radix2 (-46))%R.
(** The element chosen has the best score, up to a tolerance. *)
Definition best_up_to {A} (tol : R) (score : A -> R) (l : list A) (u : nat) : Prop :=
  exists x, nth_error l u = Some x /\ forall j y, nth_error l j = Some y -> (score y <= score x + tol)%R.

(** A group of copies of one buffer, and the first index at which something holds. *)
Definition copies (b : list Z) (g : list (list Z)) : Prop := g <> [] /\ Forall (eq b) g.
Definition first_index {A} (P : A -> Prop) (l : list A) (u : nat) : Prop :=
  (exists x, nth_error l u = Some x /\ P x) /\ forall j y, nth_error l j = Some y -> P y -> u <= j.

(** Two groups in which every bit is set equally often, relative to their sizes. *)
Definition same_shares (n : nat) (g g' : list (list Z)) : Prop :=
  forall i, i < n -> votes g 1 i * length g' = votes g' 1 i * length g.
(** If some pairs have the same shares, then the first of them. *)
Definition first_same (n : nat) (gs : list (list (list Z))) (i j : nat) : Prop :=
  forall i' j', i' < j' < length gs -> same_shares n (nth i' gs []) (nth j' gs []) ->
    same_shares n (nth i gs []) (nth j gs []) /\ ((i', j') = (i, j) \/ before (i, j) (i', j')).
