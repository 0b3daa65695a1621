(** Vocabulary of the claims about models of fields in double precision. *)
From Coq Require Import String List NArith ZArith Reals Bool.
From Verif.Model Require Import Py Float Struct.
From Verif.Spec Require Import Bytes Bits Frame Describe RealOps Stats IeeeOps IeeeStatSpec.
Import ListNotations.

(** What is assumed of the error function in double precision: on numbers that are not negative its value is in [0, 1], 0 at 0, and does
    not decrease. *)
Definition erf64_like (erf : b64 -> b64) : Prop :=
  (forall x, fin x -> (0 <= val x)%R -> fin (erf x) /\ (0 <= val (erf x) <= 1)%R /\ (val x = 0 -> val (erf x) = 0)%R) /\
  (forall x y, fin x -> fin y -> (0 <= val x <= val y)%R -> (val (erf x) <= val (erf y))%R).

(** What is assumed of struct.pack('<f', x): a number that a finite single stands for, other than 0, gets the pattern of that single. *)
Definition packs_singles (pack : b64 -> res N) : Prop :=
  forall x p, fin x -> (p < 2 ^ 32)%N -> f32_finite p = true -> val x = f32_real p -> val x <> 0%R -> pack x = Ok p.

(** The bits are those of the bytes in which a field of type [ty] holds [v]. *)
Definition bits_of_value (ty : string) (v : pyval) (bits : list bool) : Prop :=
  exists b, is_bytes b /\ c_scalar ty b = v /\ length b = c_size ty /\ length bits = 8 * length b /\
    forall p, p < 8 * length b -> nth p bits false = bit_of b p.

(** The mean of whole numbers. *)
Definition exact_mean (zs : list Z) : R := (IZR (total zs) / IZR (Z.of_nat (length zs)))%R.

(** The plausibility of a number, from the double precision mean and deviation: one rounding per operation. *)
Definition distance64 (mu sd x : R) : R := rnd (rnd (Rabs (rnd (mu - x)) / sd) / rnd (sqrt 2)).

(** A value that a field of the type can hold and that is a number: a whole number, or a finite single other than 0. *)
Definition field_number (ty : string) (v : pyval) : Prop :=
  match v with
  | VInt z => (exists sz, integer_type ty sz) /\ c_ok ty v
  | VF32 p => ty = "float"%string /\ (p < 2 ^ 32)%N /\ f32_finite p = true /\ f32_real p <> 0%R
  | VBytes _ => False
  end.
