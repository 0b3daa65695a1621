(** Notions used to state the properties of ClassifyingDudeDecoder. *)
From Coq Require Import List ZArith Reals Bool.
From Verif.Model Require Import Py Float Clustering Dude DecoderBase DudeDecoder.
From Verif.Spec Require Import RealOps Cluster EmleSpec DecoderSpec ClassSpec DudeSpec.
Import ListNotations.

(** A sequence of calls, each with its own LDPC decoder behaviour; what is returned is the caller's array afterwards and the answer. *)
Definition dd_history {X} kl (c : dd_conf Rops) (s : dd_state) (calls : list ((list R -> res (list Z * list R * bool * X)) * list R))
  : dd_state * list (list R * res (list Z * list R * bool * X * Z * list Z)) :=
  in_turn (fun s call => let '(s', w, o) := dd_decode Rops kl c (fst call) s (snd call) in (s', (w, o))) s calls.

(** The labels of a sequence of received buffers: 0 for a single cluster; round robin without clustering; else those of the classifier that
    was shown the earlier buffers ([None] if it raises an exception). *)
Definition label_at kl (c : dd_conf Rops) (k0 : classifier) (bits : list (list Z)) (t : nat) : option Z :=
  if Nat.leb (dd_n Rops c) 1 then Some 0%Z
  else if dd_cluster Rops c
  then match snd (classify Rops kl (after Rops kl k0 (firstn t bits)) (nth t bits [])) with Ok l => Some l | Err _ => None end
  else Some (Z.of_nat t mod Z.of_nat (dd_n Rops c))%Z.
(** The buffers labelled [v]. *)
Definition labelled kl (c : dd_conf Rops) (k0 : classifier) (bits : list (list Z)) (v : nat) : list (list Z) :=
  flat_map (fun t => match label_at kl c k0 bits t with Some l => if Z.eqb l (Z.of_nat v) then [nth t bits []] else [] | None => [] end) (seq 0 (length bits)).

(** The values of one bit in a sequence of buffers. *)
Definition bit_history (i : nat) (buffers : list (list Z)) : list Z := map (fun b => nth i b 0%Z) buffers.

(** The probability of a one, for a bit with the given past that is now received as x: x itself for the first k times, then the soft
    estimate of the denoiser of context length k. *)
Definition bit_probability (flip : R) (mi : list (list R)) (k : nat) (past : list Z) (x : Z) : R :=
  if Nat.ltb (length past) k then IZR x
  else nth 1 (soft_estimate (bsc flip) mi (counts_of 2 (past ++ [x]) (follows k (past ++ [x]) (last_k k past))) (Z.to_nat x)) 0%R.

(** The received word with the weighted log ratios added at the model positions. *)
Definition denoised (idx : list nat) (weight : R) (p : nat -> R) (word sum : list R) : Prop :=
  shifted idx (fun _ => True) (fun j => (weight * log_ratio (p j))%R) word sum.

(** The decoder as constructed for context length k and flip probability [flip]; [mi] is the inverted channel matrix. *)
Definition dd_fresh (flip : R) (mi : list (list R)) (k n len : nat) (c : dd_conf Rops) (s : dd_state) : Prop :=
  dd_dude Rops c = Dude Rops (bsc flip) mi hamming_loss (Z.of_nat k) false 2 /\ dd_n Rops c = n /\ dd_length Rops c = len /\
  dd_dudes s = repeat (repeat online_new len) n /\ dd_size s = repeat 0%Z n /\ dd_running s = (-1)%Z.
