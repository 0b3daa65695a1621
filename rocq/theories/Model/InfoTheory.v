(** Model of utils/information_theory.py. *)
From Coq Require Import List ZArith Bool.
From Verif.Model Require Import Py Float.
Import ListNotations.

(** np.unique of integers: the distinct values in increasing order. See utils/information_theory.py:9-39. *)
Fixpoint insert_unique (x : Z) (l : list Z) : list Z :=
  match l with
  | [] => [x]
  | y :: t => if (x <? y)%Z then x :: l else if (x =? y)%Z then l else y :: insert_unique x t
  end.
(** np.unique; utils/information_theory.py:9-39. *)
Definition unique (l : list Z) : list Z := fold_right insert_unique [] l.

(** The counts of np.unique(..., return_counts=True). See utils/information_theory.py:25-29. *)
Definition count_of (l : list Z) (v : Z) : nat := length (filter (Z.eqb v) l).
(** np.unique(..., return_counts=True); utils/information_theory.py:25-29. *)
Definition unique_counts (l : list Z) : list (Z * nat) := map (fun v => (v, count_of l v)) (unique l).

(** [l.index(x)] on a list of integers; ValueError when absent. See utils/information_theory.py:25-29. *)
Fixpoint z_index (l : list Z) (x : Z) : res nat :=
  match l with
  | [] => Err ValueError
  | y :: t => if Z.eqb x y then Ok 0 else do! i <- z_index t x in Ok (S i)
  end.

(** The arrays handed to prob: floats, integer vectors, integer matrices (rows and number of columns), other shapes. See utils/information_theory.py:9-39. *)
Inductive data_arr := DFloat | DVec (l : list Z) | DMat (rows : list (list Z)) (cols : nat) | DOther.
(** Arrays of floats. See utils/information_theory.py:9-39. *)
Inductive farr (T : Type) := FVec (l : list T) | FMat (rows : list (list T)) | FOther.
Arguments FVec {T} l.
Arguments FMat {T} rows.
Arguments FOther {T}.

Section Info.
Variable FO : fops.
Notation F := (F FO).

(** One row of the loop of prob_with_alphabet; utils/information_theory.py:25-29, before the division. *)
Definition count_row (alphabet row : list Z) : res (list nat) :=
  fold_res (fun pr (vc : Z * nat) => do! i <- z_index alphabet (fst vc) in Ok (set_nth pr i (snd vc)))
           (unique_counts row) (repeat 0 (length alphabet)).

(** Division by the number of samples; utils/information_theory.py:9-39. *)
Definition divide (n : nat) (l : list nat) : list F := map (fun c => fdiv FO (fz FO (Z.of_nat c)) (fz FO (Z.of_nat n))) l.

(** prob_with_alphabet; utils/information_theory.py:9-39. *)
Definition prob_with_alphabet (data : data_arr) : res (farr F * list Z) :=
  match data with
  | DFloat => Err UnsupportedDtype
  | DMat rows cols =>
      let alphabet := unique (concat rows) in
      do! pr <- map_res (count_row alphabet) rows in
      Ok (FMat (map (divide cols) pr), alphabet)
  | DVec l => Ok (FVec (divide (length l) (map snd (unique_counts l))), map fst (unique_counts l))
  | DOther => Err ValueError
  end.

(** prob; utils/information_theory.py:42-49. *)
Definition prob (data : data_arr) : res (farr F) := do! r <- prob_with_alphabet data in Ok (fst r).

(** scipy.stats.entropy of one distribution (not in /repo): normalise, sum -p log p, divide by the log of the base.  Simplified:
    a negative entry, for which scipy gives -inf, counts as 0. See utils/information_theory.py:52-65. *)
Definition entr (x : F) : F := if flt FO (fz FO 0) x then fneg FO (fmul FO x (flog FO x)) else fz FO 0.
(** The entropy of a row; utils/information_theory.py:52-65. *)
Definition row_entropy (base : Z) (pk : list F) : F :=
  let s := fsum FO pk in
  fdiv FO (fsum FO (map (fun x => entr (fdiv FO x s)) pk)) (flog FO (fz FO base)).

(** entropy; utils/information_theory.py:52-65.  A vector gives a zero-dimensional array, here a list of one element. *)
Definition entropy (pk : farr F) (base : Z) : res (list F) :=
  match pk with
  | FVec l => Ok [row_entropy base l]
  | FMat rows => Ok (map (row_entropy base) rows)
  | FOther => Err ValueError
  end.

(** typical_set_cardinality; utils/information_theory.py:68-93.  Simplified: pk is a vector; OverflowError is not modelled. *)
Definition typical_set_cardinality (n : Z) (pk : option (list F)) (ent : option F) (eps : F) : res (F * F) :=
  if ((n <=? 0)%Z || fle FO eps (fz FO 0))%bool then Err ValueError
  else
    do! h <- match ent with
             | Some e => Ok e
             | None => match pk with None => Err ValueError | Some p => Ok (row_entropy 2 p) end
             end in
    let two := fz FO 2 in
    let ub := fpow FO two (fmul FO (fz FO n) (fadd FO h eps)) in
    let lb := fmul FO (fsub FO (fz FO 1) eps) (fpow FO two (fmul FO (fz FO n) (fsub FO h eps))) in
    Ok (lb, ub).

(** pk * qk of two vectors: numpy repeats a single element, other length mismatches are ValueErrors. See utils/information_theory.py:68-105. *)
Definition broadcast {A B C} (f : A -> B -> C) (l : list A) (l' : list B) : res (list C) :=
  match l, l' with
  | [x], _ => Ok (map (f x) l')
  | _, [y] => Ok (map (fun x => f x y) l)
  | _, _ => if Nat.eqb (length l) (length l') then Ok (map (fun xy => f (fst xy) (snd xy)) (combine l l')) else Err ValueError
  end.

(** The Hellinger distance of two rows. See utils/information_theory.py:96-105. *)
Definition hellinger_row (pk qk : list F) : res F :=
  do! l <- broadcast (fun p q => fsqrt FO (fmul FO p q)) pk qk in
  Ok (fsqrt FO (fsub FO (fz FO 1) (fsum FO l))).

(** hellinger; utils/information_theory.py:96-105.  Simplified: two matrices must have the same number of rows. *)
Definition hellinger (pk qk : farr F) : res (list F) :=
  match pk, qk with
  | FMat p, FMat q => if Nat.eqb (length p) (length q) then map_res (fun xy => hellinger_row (fst xy) (snd xy)) (combine p q) else Err ValueError
  | FVec p, FVec q => do! d <- hellinger_row p q in Ok [d]
  | _, _ => Err ValueError
  end.
End Info.
