(** IEEE 754 binary64 as an instance of the model's float operations.  Python floats and numpy's float64 are these, with the operations
    + - * / and sqrt rounded to nearest, ties to even; the arithmetic is Flocq's.  exp, log, log2 and pow are those of a library
    that the theorems quantify over. *)
From Coq Require Import List NArith ZArith Reals Bool.
From Flocq Require Import Core IEEE754.BinarySingleNaN.
From Verif.Model Require Import Py Float.
From Verif.Spec Require Import RealOps.
Import ListNotations.

Definition b64 : Type := binary_float 53 1024.
Definition prec_pos : Prec_gt_0 53 := eq_refl.
Definition prec_small : Prec_lt_emax 53 1024 := eq_refl.

(** The nearest double of a real number, ties to even, if it is not too large. *)
Definition rnd (r : R) : R := round radix2 (FLT_exp (-1074) 53) ZnearestE r.
(** The value of a finite number. *)
Definition val (x : b64) : R := B2R x.
Definition fin (x : b64) : Prop := is_finite x = true.

(** m * 2^e, rounded. *)
Definition make (m e : Z) : b64 := binary_normalize 53 1024 prec_pos prec_small mode_NE m e false.
Definition b64_z (z : Z) : b64 := make z 0.
Definition b64_add : b64 -> b64 -> b64 := Bplus (prec_gt_0_ := prec_pos) (prec_lt_emax_ := prec_small) mode_NE.
Definition b64_sub : b64 -> b64 -> b64 := Bminus (prec_gt_0_ := prec_pos) (prec_lt_emax_ := prec_small) mode_NE.
Definition b64_mul : b64 -> b64 -> b64 := Bmult (prec_gt_0_ := prec_pos) (prec_lt_emax_ := prec_small) mode_NE.
Definition b64_div : b64 -> b64 -> b64 := Bdiv (prec_gt_0_ := prec_pos) (prec_lt_emax_ := prec_small) mode_NE.
Definition b64_sqrt : b64 -> b64 := Bsqrt (prec_gt_0_ := prec_pos) (prec_lt_emax_ := prec_small) mode_NE.
(** int(round(x)) and int(x).  inf gives an OverflowError, for which ValueError stands. *)
Definition b64_round (x : b64) : res Z :=
  if is_finite x then Ok (Btrunc (Bnearbyint (prec_lt_emax_ := prec_small) mode_NE x)) else Err ValueError.
Definition b64_int (x : b64) : res Z := if is_finite x then Ok (Btrunc x) else Err ValueError.
(** The value of a finite binary32 pattern, which is a double. *)
Definition b64_f32 (p : N) : b64 := make (f32_sign p * f32_mant p) (f32_scale p).

(** The functions of the mathematical library. *)
Record libm := Libm { l_exp : b64 -> b64; l_log : b64 -> b64; l_log2 : b64 -> b64; l_pow : b64 -> b64 -> b64 }.

Definition Bops (l : libm) : fops :=
  FOps b64 b64_z b64_add b64_sub b64_mul b64_div (@Bopp 53 1024) (@Babs 53 1024) b64_sqrt (l_exp l) (l_log l) (l_log2 l) (l_pow l)
       Beqb Bltb Bleb b64_round b64_f32.

(** What is assumed of exp: it is never negative nor nan (it may be inf), at most 1 up to 0 and at least 1 from 0 on. *)
Definition good_exp (l : libm) : Prop :=
  forall x, is_nan x = false ->
    (l_exp l x = B754_infinity false \/ fin (l_exp l x) /\ (0 <= val (l_exp l x))%R) /\
    (fin x -> (val x <= 0)%R -> fin (l_exp l x) /\ (val (l_exp l x) <= 1)%R) /\
    (fin x -> (0 <= val x)%R -> l_exp l x = B754_infinity false \/ (1 <= val (l_exp l x))%R).
(** What is assumed of log: finite on positive numbers, 0 at 1, increasing in so far as its sign is that of the exact one, at most -1/2 up to
    1/2 and at least 1/2 from 2 on, and at most 1000 in size. *)
Definition good_log (l : libm) : Prop :=
  forall x, fin x -> (0 < val x)%R ->
    fin (l_log l x) /\ (Rabs (val (l_log l x)) <= 1000)%R /\
    ((val x <= 1)%R -> (val (l_log l x) <= 0)%R) /\ ((1 <= val x)%R -> (0 <= val (l_log l x))%R) /\
    ((val x <= / 2)%R -> (val (l_log l x) <= - / 2)%R) /\ ((2 <= val x)%R -> (/ 2 <= val (l_log l x))%R).
