(** Exact real arithmetic as an instance of the model's float operations, and rational arithmetic for computed examples. *)
From Coq Require Import List NArith ZArith QArith Qabs Qround Reals Bool.
From Verif.Model Require Import Py Float.
Import ListNotations.

(** [v] is [x] rounded to the nearest integer, ties going to the even one. *)
Definition rounds_to (x : R) (v : Z) : Prop :=
  (Rabs (x - IZR v) < / 2)%R \/ (Rabs (x - IZR v) = / 2)%R /\ Z.Even v.

Definition Reqb (x y : R) : bool := if Req_EM_T x y then true else false.
Definition Rltb (x y : R) : bool := if Rlt_dec x y then true else false.
Definition Rleb (x y : R) : bool := if Rle_dec x y then true else false.

(** Rounding to the nearest integer, ties to even ([rounds_to] is what it satisfies). *)
Definition Rround (x : R) : Z :=
  let f := Int_part x in
  match total_order_T (x - IZR f) (/ 2) with
  | inleft (left _) => f
  | inleft (right _) => if Z.even f then f else (f + 1)%Z
  | inright _ => (f + 1)%Z
  end.

(** Value of a finite IEEE binary32 pattern. *)
Definition f32_sign (p : N) : Z := if N.testbit p 31 then (-1)%Z else 1%Z.
Definition f32_exp (p : N) : Z := Z.of_N (N.land (N.shiftr p 23) 255).
Definition f32_frac (p : N) : Z := Z.of_N (N.land p 8388607).
Definition f32_mant (p : N) : Z := if Z.eqb (f32_exp p) 0 then f32_frac p else (8388608 + f32_frac p)%Z.
Definition f32_scale (p : N) : Z := (if Z.eqb (f32_exp p) 0 then 1 - 150 else f32_exp p - 150)%Z.
Definition f32_real (p : N) : R := (IZR (f32_sign p * f32_mant p) * powerRZ 2 (f32_scale p))%R.

Definition Rops : fops :=
  FOps R IZR Rplus Rminus Rmult Rdiv Ropp Rabs sqrt exp ln (fun x => ln x / ln 2)%R Rpower Reqb Rltb Rleb
       (fun x => Ok (Rround x)) f32_real.

(** Rational arithmetic; only used to compute examples.  The transcendental functions are dummies. *)
Definition Qround_even (x : Q) : Z :=
  let f := Qfloor x in
  match Qcompare (x - inject_Z f) (1 # 2) with
  | Lt => f
  | Eq => if Z.even f then f else (f + 1)%Z
  | Gt => (f + 1)%Z
  end.
Definition f32_rat (p : N) : Q :=
  Qred (inject_Z (f32_sign p * f32_mant p) *
        (if Z.leb 0 (f32_scale p) then inject_Z (2 ^ f32_scale p) else 1 # (Z.to_pos (2 ^ (- f32_scale p)))))%Q.
Definition Qsqrt (x : Q) : Q := let y := Qred x in Qred (Z.sqrt (Qnum y) # (Z.to_pos (Z.sqrt (Zpos (Qden y))))).
Definition Qops : fops :=
  FOps Q inject_Z (fun x y => Qred (x + y)) (fun x y => Qred (x - y)) (fun x y => Qred (x * y)) (fun x y => Qred (x / y))
       Qopp Qabs Qsqrt (fun x => x) (fun x => x) (fun x => x) (fun x _ => x) Qeq_bool
       (fun x y => negb (Qle_bool y x)) Qle_bool (fun x => Ok (Qround_even x)) f32_rat.

(** Finite sums. *)
Definition Rsum (l : list R) : R := fold_right Rplus 0%R l.
