(** Floating point arithmetic.
    The code of /repo computes with Python floats and numpy float64 arrays.  The model is parametric in the arithmetic: a
    record of operations.  Theorems about control flow and data structures hold for every such record (hence for IEEE
    binary64); theorems about numerical values are stated for the exact real numbers ([Spec/RealOps.v]), without rounding,
    and, from C97 on, for IEEE binary64 ([Spec/IeeeOps.v]), with it. *)
From Coq Require Import List NArith ZArith.
From Verif.Model Require Import Py.
Import ListNotations.

(** The operations on floats the code uses; operators and numpy functions, e.g. inference/statistical_models.py:74-122. *)
Record fops := FOps {
  F : Type;
  fz : Z -> F;                      (* conversion of an int *)
  fadd : F -> F -> F; fsub : F -> F -> F; fmul : F -> F -> F; fdiv : F -> F -> F;
  fneg : F -> F; fabs : F -> F; fsqrt : F -> F; fexp : F -> F; flog : F -> F; flog2 : F -> F; fpow : F -> F -> F;
  feq : F -> F -> bool; flt : F -> F -> bool; fle : F -> F -> bool;
  fround : F -> res Z;              (* int(round(x)): to the nearest integer, ties to even; ValueError on nan *)
  f32val : N -> F                   (* value of a finite binary32 pattern *)
}.

(** np.isfinite of a binary32 pattern: the exponent bits are not all ones. See mavlink_utils/HC_dialect.py:97-103. *)
Definition f32_finite (p : N) : bool := negb (N.eqb (N.land (N.shiftr p 23) 255) 255).

Section Ops.
Variable FO : fops.

(** sum of an array.  Simplified: from left to right (numpy sums pairwise). See inference/bmm.py:73-76. *)
Definition fsum (l : list (F FO)) : F FO := fold_left (fadd FO) l (fz FO 0).

(** arr.mean() of a non-empty array. See inference/bmm.py:95-96. *)
Definition fmean (l : list (F FO)) : F FO := fdiv FO (fsum l) (fz FO (Z.of_nat (length l))).

(** np.maximum / np.minimum of two numbers (nan is not treated specially) and np.clip(x, lo, hi) = minimum(maximum(x, lo), hi).
    See decoders/classifiying_decoder.py:108-128. *)
Definition fmax (a b : F FO) : F FO := if fle FO b a then a else b.
(** np.minimum; decoders/classifiying_decoder.py:108-128. *)
Definition fmin (a b : F FO) : F FO := if fle FO a b then a else b.
(** np.clip; decoders/classifiying_decoder.py:108-128. *)
Definition fclip (x lo hi : F FO) : F FO := fmin (fmax x lo) hi.
End Ops.
