(** Notions used to state the properties of the denoisers. *)
From Coq Require Import List ZArith Reals Bool.
From Verif.Model Require Import Py Float Dude.
From Verif.Spec Require Import RealOps.
Import ListNotations.

Definition in_alphabet (n : nat) (x : Z) : Prop := (0 <= x < Z.of_nat n)%Z.

(** The state after a sequence of observations. *)
Definition fed (FO : fops) (d : dude FO) (s : online) (obs : list Z) : online := fold_left (fun s o => fst (denoise_sample FO d s o)) obs s.

(** The last k symbols. *)
Definition last_k (k : nat) (obs : list Z) : list Z := skipn (length obs - k) obs.

(** The positions i that have k symbols to their left, these being c; how many of them hold the symbol a. *)
Definition follows (k : nat) (obs : list Z) (c : list Z) : list nat :=
  filter (fun i => if list_eq_dec Z.eq_dec (slice obs (i - k) i) c then true else false) (seq k (length obs - k)).
Definition holding (obs : list Z) (a : nat) (l : list nat) : nat := length (filter (fun i => Z.eqb (nth i obs (-1)%Z) (Z.of_nat a)) l).
Definition counts_of (A : nat) (obs : list Z) (l : list nat) : list Z := map (fun a => Z.of_nat (holding obs a l)) (seq 0 A).

(** The positions with the symbols l to their left and r to their right, both of length k. *)
Definition between (k : nat) (obs : list Z) (l r : list Z) : list nat :=
  filter (fun i => if list_eq_dec Z.eq_dec (slice obs (i - k) i) l then if list_eq_dec Z.eq_dec (slice obs (i + 1) (i + k + 1)) r then true else false else false)
         (seq k (length obs - 2 * k)).

(** Entries of matrices of reals. *)
Definition ent (m : list (list R)) (i j : nat) : R := nth j (nth i m []) 0%R.
Definition square (n : nat) (m : list (list R)) : Prop := length m = n /\ Forall (fun r => length r = n) m.
Definition inverse_of (n : nat) (m mi : list (list R)) : Prop :=
  forall i j, i < n -> j < n -> Rsum (map (fun x => ent m i x * ent mi x j)%R (seq 0 n)) = (if Nat.eqb i j then 1 else 0)%R.

(** The estimated number of occurrences of each input symbol, given how often each output symbol was seen. *)
Definition input_counts (n : nat) (mi : list (list R)) (counts : list Z) (x : nat) : R :=
  Rsum (map (fun y => IZR (nth y counts 0%Z) * ent mi y x)%R (seq 0 n)).
(** The (unnormalised) loss of estimating j when [obs] was received. *)
Definition loss_of (n : nat) (m mi loss : list (list R)) (counts : list Z) (obs : nat) (j : nat) : R :=
  Rsum (map (fun x => input_counts n mi counts x * ent m x obs * ent loss x j)%R (seq 0 n)).
(** The first index below n at which f is least. *)
Definition first_least (n : nat) (f : nat -> R) (u : nat) : Prop := u < n /\ forall j, j < n -> (f u <= f j)%R /\ (j < u -> (f u < f j)%R).

(** The binary symmetric channel and the Hamming loss. *)
Definition bsc (delta : R) : list (list R) := [[1 - delta; delta]; [delta; 1 - delta]]%R.
Definition hamming_loss : list (list R) := [[0; 1]; [1; 0]]%R.

(** A binary channel that can turn each symbol into each. *)
Definition noisy_binary_channel (m : list (list R)) : Prop :=
  exists a b c e, m = [[a; b]; [c; e]] /\ (0 < a /\ 0 < b /\ 0 < c /\ 0 < e /\ a + b = 1 /\ c + e = 1)%R.

(** The two smoothed input counts: those below one are raised to one. *)
Definition smoothed (x y : R) : R * R := if Rlt_dec x 1 then (1, y)%R else if Rlt_dec y 1 then (x, 1)%R else (x, y).

(** The soft estimate of a binary symbol: probabilities proportional to the smoothed input counts times the channel probabilities. *)
Definition soft_weights (m mi : list (list R)) (counts : list Z) (obs : nat) : R * R :=
  let s := smoothed (input_counts 2 mi counts 0) (input_counts 2 mi counts 1) in (fst s * ent m 0 obs, snd s * ent m 1 obs)%R.
Definition soft_estimate (m mi : list (list R)) (counts : list Z) (obs : nat) : list R :=
  let w := soft_weights m mi counts obs in [fst w / (fst w + snd w); snd w / (fst w + snd w)]%R.
(** The expected loss when the input and its estimate are drawn from p. *)
Definition soft_loss (loss : list (list R)) (p : list R) : R :=
  Rsum (map (fun j => Rsum (map (fun x => nth x p 0 * ent loss x j)%R (seq 0 2)) * nth j p 0)%R (seq 0 2)).
