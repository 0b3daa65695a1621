(** Notions used to state what fitting a mixture does in double precision. *)
From Coq Require Import List ZArith Reals Bool.
From Flocq Require Import Core IEEE754.BinarySingleNaN.
From Verif.Model Require Import Py Float Bmm.
From Verif.Spec Require Import RealOps Info BmmSpec IeeeOps IeeeCluster.
Import ListNotations.
Open Scope R_scope.

Definition nan : b64 := B754_nan.
Definition minus_inf : b64 := B754_infinity true.

(** What is assumed of exp and log: those of IeeeOps and IeeeCluster, exp between -700 and 0 right up to a factor, and the special values. *)
Definition good_lib (l : libm) : Prop :=
  good_exp l /\ accurate_log l /\ (forall x, fin x -> -700 <= val x <= 0 -> exp (val x) / 2 <= val (l_exp l x)) /\
  l_exp l minus_inf = b64_z 0 /\ l_exp l nan = nan /\ l_log l nan = nan /\ (forall x, fin x -> val x = 0 -> l_log l x = minus_inf).

(** A double in [0,1]; n rows of d such numbers. *)
Definition unit64 (x : b64) : Prop := fin x /\ 0 <= val x <= 1.
Definition unit_matrix (n d : nat) (m : list (list b64)) : Prop := length m = n /\ Forall (fun r => length r = d /\ Forall unit64 r) m.
(** What RandomState.uniform(0.25, 0.75) draws. *)
Definition drawn64 (n d : nat) (m : list (list b64)) : Prop := length m = n /\ Forall (fun r => length r = d /\ Forall (fun x => fin x /\ / 4 <= val x <= 3 / 4) r) m.
(** At most 2^20 samples of at most 2^14 bits, at most 2^10 components. *)
Definition data_sizes (n d : nat) (xs : list (list Z)) : Prop :=
  (1 <= n)%nat /\ (Z.of_nat n <= 2 ^ 10)%Z /\ (1 <= d)%nat /\ (Z.of_nat d <= 2 ^ 14)%Z /\ xs <> [] /\ (Z.of_nat (length xs) <= 2 ^ 20)%Z /\
  Forall (fun x => length x = d /\ Forall is_bit x) xs.

(** The responsibility of component k for sample i. *)
Definition resp (l : libm) (s : bmm (Bops l)) (i k : nat) : b64 := nth k (nth i (b_gamma _ s) []) (b64_z 0).
(** No sample is attributed to component k to any extent. *)
Definition empty_component (l : libm) (s : bmm (Bops l)) (N k : nat) : Prop := forall i, (i < N)%nat -> val (resp l s i k) = 0.
(** The sum of doubles from left to right. *)
Definition sum64 (xs : list b64) : b64 := fold_left b64_add xs (b64_z 0).
(** Its responsibilities for all the samples, and for those whose bit j is set. *)
Definition all_resp (l : libm) (s : bmm (Bops l)) (N k : nat) : list b64 := map (fun i => resp l s i k) (seq 0 N).
Definition resp_set (l : libm) (s : bmm (Bops l)) (xs : list (list Z)) (j k : nat) : list b64 :=
  map (fun i => resp l s i k) (filter (fun i => Z.eqb (nth j (nth i xs []) 0%Z) 1) (seq 0 (length xs))).

(** exp of very negative numbers is 0. *)
Definition underflows (l : libm) : Prop := forall x, fin x -> val x <= -800 -> fin (l_exp l x) /\ val (l_exp l x) = 0.
(** A sample of 4096 bits, and the drawn means of two components that see it very differently. *)
Definition half : nat := 2048.
Definition quarter : b64 := make 1 (-2).
Definition three_quarters : b64 := make 3 (-2).
Definition split_means : list (list b64) := [repeat quarter half ++ repeat three_quarters half; repeat three_quarters half ++ repeat quarter half].
Definition split_sample : list Z := repeat 1%Z half ++ repeat 0%Z half.

(** What the accuracy of the responsibilities needs of exp: right to 50 bits between -700 and 0, and negligible below. *)
Definition accurate_exp (l : libm) : Prop :=
  forall x, fin x -> val x <= 0 ->
    (-700 <= val x -> Rabs (val (l_exp l x) - exp (val x)) <= bpow radix2 (-50) * exp (val x)) /\ (val x <= -700 -> val (l_exp l x) <= bpow radix2 (-960)).
(** t is 10^-e up to the rounding of the literal. *)
Definition literal (t : R) (e : nat) : Prop := Rabs (t - / 10 ^ e) <= bpow radix2 (-50) * / 10 ^ e.
(** Probabilities kept away from 0 by the two thresholds; the probability of a bit under component k, given by means in double precision, their complements
    rounded to double precision. *)
Definition kept64 (t15 t200 : R) (column : list R) (m : R) : R :=
  if forallb (fun v => if Rle_dec v t15 then true else false) column then t15 else Rmax m t200.
Definition values (m : list (list b64)) : list (list R) := map (map val) m.
Definition complements (m : list (list b64)) : list (list R) := map (map (fun x => rnd (1 - val x))) m.
Definition bit64 (t15 t200 : R) (mu : list (list b64)) (k j : nat) (b : Z) : R :=
  let m := if Z.eqb b 1 then values mu else complements mu in kept64 t15 t200 (column_of m j) (at2 m k j).
(** Weight of component k times the probability of a sample, exactly; the mixture and the posterior. *)
Definition joint64 (t15 t200 : R) (pi : list b64) (mu : list (list b64)) (x : list Z) (k : nat) : R :=
  val (nth k pi (b64_z 0)) * Rprod (map (fun j => bit64 t15 t200 mu k j (nth j x 0%Z)) (seq 0 (length x))).
Definition mixture64 (t15 t200 : R) (pi : list b64) (mu : list (list b64)) (x : list Z) : R := Rsum (map (joint64 t15 t200 pi mu x) (seq 0 (length pi))).
Definition posterior64 (t15 t200 : R) (pi : list b64) (mu : list (list b64)) (x : list Z) (k : nat) : R := joint64 t15 t200 pi mu x k / mixture64 t15 t200 pi mu x.
