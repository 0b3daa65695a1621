(** Vocabulary of the claims about statistics in double precision. *)
From Coq Require Import List NArith ZArith Reals Bool.
From Verif.Model Require Import Py Float Struct.
From Verif.Spec Require Import RealOps.
Import ListNotations.

(** The number that a field value stands for, and the field values that are doubles: whole numbers up to 2^53 and finite floats. *)
Definition number (v : pyval) : R := match v with VInt z => IZR z | VF32 p => f32_real p | VBytes _ => 0%R end.
Definition held (v : pyval) : Prop :=
  match v with VInt z => (Z.abs z <= 2 ^ 53)%Z | VF32 p => f32_finite p = true | VBytes _ => False end.
(** k copies of the value can be added up without rounding. *)
Definition summable (v : pyval) (k : nat) : Prop :=
  match v with VInt z => (Z.abs z * Z.of_nat k <= 2 ^ 53)%Z | VF32 _ => (Z.of_nat k <= 2 ^ 29)%Z | VBytes _ => False end.
(** The sum of the sizes of whole numbers, and their sum. *)
Definition total_size (zs : list Z) : Z := fold_right (fun z s => (Z.abs z + s)%Z) 0%Z zs.
Definition total (zs : list Z) : Z := fold_right Z.add 0%Z zs.
