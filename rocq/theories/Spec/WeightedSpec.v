(** Notions used to state the properties of EntropyBitwiseWeightedDecoder. *)
From Coq Require Import List ZArith Reals Bool.
From Verif.Model Require Import Py Float Segmentation DecoderBase WeightedDecoder.
From Verif.Spec Require Import RealOps Info Cluster Stats EmleSpec DecoderSpec.
Import ListNotations.

(** What a model knows: for each model bit the probability of a one, its entropy, and the spread of the estimate. *)
Definition w_knows (m : w_model Rops) (ps : list R) (v : R) : Prop :=
  wm_cols Rops m = 2 /\ wm_rows Rops m = map (fun p => [1 - p; p]%R) ps /\ wm_entropy Rops m = map bit_entropy ps /\ wm_var Rops m = VNum Rops v.

(** The estimated probability of a one at bit i, given the stored buffers; on request corrected for a channel that flips bits. *)
Definition bit_estimate (correct : bool) (f : R) (data : list (list Z)) (i : nat) : R :=
  if correct then unflipped f (share data 1 i) else share data 1 i.
(** Twice the mean variance of bits that are one with the given probabilities. *)
Definition bernoulli_spread (ps : list R) : R := (2 * mean_of (map (fun p => p - p * p) ps))%R.

(** The mode and the variance of a Beta distribution; at (1, 1), the uniform one, 0 is taken. *)
Definition beta_mode (o z : Z) : R := if (o + z =? 2)%Z then 0%R else ((IZR o - 1) / (IZR o + IZR z - 2))%R.
Definition beta_variance (o z : Z) : R := (IZR o * IZR z / ((IZR o + IZR z + 1) * (IZR o + IZR z) ^ 2))%R.
(** Twelve times the mean variance, corrected for the channel. *)
Definition beta_spread (f : R) (ones zeros : list Z) : R :=
  (12 * ((1 / (1 - 2 * f)) ^ 2 * mean_of (map (fun i => beta_variance (nth i ones 0%Z) (nth i zeros 0%Z)) (seq 0 (length ones)))))%R.

(** n positive pairs of counts. *)
Definition priors (n : nat) (ones zeros : list Z) : Prop :=
  length ones = n /\ length zeros = n /\ Forall (fun x => 0 < x)%Z ones /\ Forall (fun x => 0 < x)%Z zeros.
(** Counts above twice the window are divided by their common divisors; when those of the first bit are below the window then, all are
    multiplied by the same number. *)
Definition reduced (w : Z) (ones zeros ones' zeros' : list Z) : Prop :=
  let o := nth 0 ones 0%Z in let z := nth 0 zeros 0%Z in let g := Z.gcd o z in
  if (o + z <=? 2 * w)%Z then ones' = ones /\ zeros' = zeros
  else exists k, (0 < k)%Z /\ length ones' = length ones /\ length zeros' = length zeros /\
    ((w <= o / g + z / g)%Z -> k = 1%Z) /\ ((o / g + z / g < w)%Z -> k = (w / (o / g) + z / g)%Z) /\
    forall i, i < length ones -> let d := Z.gcd (nth i ones 0%Z) (nth i zeros 0%Z) in
      nth i ones' 0%Z = (k * (nth i ones 0 / d))%Z /\ nth i zeros' 0%Z = (k * (nth i zeros 0 / d))%Z.

(** The buffers the two models learn from the successful answers of a sequence of calls: the first one the recovered buffers; the second
    one every buffer, as decoded if the plain run succeeded or the buffer was recovered, else as received. *)
Definition good_bits {D X Y} (parser : bytes -> res D) (idx : list nat) (out : res (list Z * X * nat * Y * (list nat * list nat))) : list (list Z) :=
  match out with
  | Ok (e, _, _, _, _) => if recognised parser (picked e idx) then [picked e idx] else []
  | Err _ => []
  end.
Definition all_bits {D X Y} (parser : bytes -> res D) (idx : list nat) (call : (list R -> res (list Z * X * bool)) * list R)
  (out : res (list Z * X * nat * Y * (list nat * list nat))) : list (list Z) :=
  match out with
  | Ok (e, _, _, _, _) =>
      let decoded := match fst call (snd call) with Ok (_, _, ok) => ok | Err _ => false end in
      if (decoded || recognised parser (picked e idx))%bool then [picked e idx] else [picked (map sign_bit (snd call)) idx]
  | Err _ => []
  end.
Definition is_ok {A} (r : res A) : Prop := match r with Ok _ => True | Err _ => False end.

(** The result of the last LDPC run of a decoding. *)
Definition last_run {X} (ldpc : list R -> res (list Z * X * bool)) (predict : list R -> res (list R)) (word : list R) (r : list Z * X * bool) : Prop :=
  ldpc word = Ok r /\ snd r = true \/
  exists r0 w, ldpc word = Ok r0 /\ snd r0 = false /\ predict word = Ok w /\ ldpc w = Ok r.

(** A model that has counted n buffers: it knows something, or has not learned yet. *)
Definition counted (c : w_conf Rops) (m : w_model Rops) (n : Z) : Prop :=
  if w_bayes Rops c
  then wm_ones Rops m <> [] /\ wm_zeros Rops m <> [] /\ n = (nth 0 (wm_ones Rops m) 0 + nth 0 (wm_zeros Rops m) 0 - 2)%Z
  else (n = 0%Z /\ wm_data Rops m = []) \/ (n = Z.of_nat (length (wm_data Rops m)) /\ Forall (fun b => b <> []) (wm_data Rops m)).
Definition untaught (c : w_conf Rops) (m : w_model Rops) : Prop :=
  wm_entropy Rops m = [] /\ counted c m 0 /\ wm_var Rops m = if w_bayes Rops c then VZero Rops else VAbsent Rops.

(** How much the models weigh, from their logistic weights and spreads. *)
Definition by_spread (v : R) : R := if Req_EM_T v 0 then 1%R else (1 - exp (- (1 / 10) / v))%R.
Definition weights (scheme : Z) (a b va vb : R) : R * R :=
  match scheme with
  | 1%Z => if Rlt_dec 0 (a + b) then (a * a / (a + b), b * b / (a + b))%R else (a, b)
  | 3%Z => (a, 0%R)
  | 4%Z => (a * by_spread va, b * by_spread vb)%R
  | 5%Z => (0%R, b)
  | _ => (a, b)
  end.
(** Bit j is structural for a model with the given probabilities. *)
Definition structural (thr : R) (ps : list R) (j : nat) : Prop := j < length ps /\ (bit_entropy (nth j ps 0) < thr)%R.
(** The estimates among the answers of a sequence of calls. *)
Definition w_estimates {X Y} (outs : list (res (list Z * X * nat * Y * (list nat * list nat)))) : list (list Z) :=
  flat_map (fun o => match o with Ok (e, _, _, _, _) => [e] | Err _ => [] end) outs.
(** The buffers learned by the two models in a sequence of calls. *)
Definition goods {D X Y} (parser : bytes -> res D) (idx : list nat) (outs : list (res (list Z * X * nat * Y * (list nat * list nat)))) : list (list Z) :=
  flat_map (good_bits parser idx) outs.
Definition alls {D X Y} (parser : bytes -> res D) (idx : list nat) (calls : list ((list R -> res (list Z * X * bool)) * list R))
  (outs : list (res (list Z * X * nat * Y * (list nat * list nat)))) : list (list Z) :=
  flat_map (fun co => all_bits parser idx (fst co) (snd co)) (combine calls outs).
(** What a model holds: n buffers, probabilities and spread; nothing before it was taught. *)
Definition opinion (c : w_conf Rops) (m : w_model Rops) (ps : list R) (n : Z) (v : R) : Prop :=
  ps = [] /\ n = 0%Z /\ untaught c m \/ w_knows m ps v /\ length ps = length (w_idx Rops c) /\ ps <> [] /\ counted c m n.
