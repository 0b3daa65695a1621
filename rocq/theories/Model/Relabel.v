(** Model of runs/clsutering_analysis/functions.py and of the cutting of buffers into code words in
    runs/HC_eilat_July_2018/ecncoding_data.py. *)
From Coq Require Import List ZArith Arith Bool.
From Verif.Model Require Import Py InfoTheory Perf Clustering.
Import ListNotations.

(** [l[r::n]] for 0 < n. See runs/clsutering_analysis/functions.py:12-21. *)
Definition every {A} (l : list A) (r n : nat) : list A :=
  map snd (filter (fun ix => (Nat.leb r (fst ix) && Nat.eqb ((fst ix - r) mod n) 0)%bool) (combine (seq 0 (length l)) l)).

(** [row[:] = values] for a row of the given length: ValueError unless the lengths are the same (one value is repeated).
    See runs/clsutering_analysis/functions.py:12-21. *)
Definition assign_row (len : nat) (values : list Z) : res (list Z) :=
  match values with
  | [x] => Ok (repeat x len)
  | _ => if Nat.eqb (length values) len then Ok values else Err ValueError
  end.

(** [predicted[real == r]]: IndexError when the lengths differ. See runs/clsutering_analysis/functions.py:12-21. *)
Definition where_real (predicted real : list Z) (r : Z) : res (list Z) :=
  if Nat.eqb (length predicted) (length real)
  then Ok (map fst (filter (fun pr => (snd pr =? r)%Z) (combine predicted real))) else Err IndexError.

(** The array predictions; runs/clsutering_analysis/functions.py:12-21.  Simplified: labels are unbounded integers, held exactly
    in the float array. *)
Definition prediction_rows (predicted : list Z) (n : nat) (real : option (list Z)) : res (list (list Z)) :=
  match real with
  | None => if Nat.eqb n 0 then Err ZeroDivision
            else map_res (fun r => assign_row (length predicted / n) (every predicted r n)) (seq 0 n)
  | Some real => map_res (fun r => do! p <- where_real predicted real (Z.of_nat r) in
                                   Ok (p ++ repeat (-1)%Z (length predicted - length p))) (seq 0 n)
  end.

(** prediction_counts; runs/clsutering_analysis/functions.py:24-27. *)
Definition prediction_counts (n : nat) (rows : list (list Z)) : list (list Z) :=
  map (fun row => map (fun p => Z.of_nat (length (filter (fun v => (v =? Z.of_nat p)%Z) row))) (seq 0 n)) rows.

(** a.argmax() of a flat array: the first position of the largest value, ValueError when empty. See runs/clsutering_analysis/functions.py:33, 36. *)
Fixpoint argmax_from (best : Z) (at_ next : nat) (l : list Z) : nat :=
  match l with
  | [] => at_
  | x :: t => if (best <? x)%Z then argmax_from x next (S next) t else argmax_from best at_ (S next) t
  end.
(** np.argmax; runs/clsutering_analysis/functions.py:33, 36. *)
Definition argmax_flat (l : list Z) : res nat :=
  match l with [] => Err ValueError | x :: t => Ok (argmax_from x 0 1 t) end.

(** np.unravel_index(counts.argmax(), counts.shape) of an n by n array; runs/clsutering_analysis/functions.py:33, 36. *)
Definition largest_cell (n : nat) (counts : list (list Z)) : res (nat * nat) :=
  do! i <- argmax_flat (concat counts) in Ok (i / n, i mod n).

(** One round of the loop; runs/clsutering_analysis/functions.py:33-35. *)
Definition relabel_round (n : nat) (s : list (list Z) * list (nat * nat)) : res (list (list Z) * list (nat * nat)) :=
  do! (t, p) <- largest_cell n (fst s) in
  Ok (map (fun row => set_nth row p (-1)%Z) (fst s), dict_set Nat.eqb (snd s) p t).

(** relabel; runs/clsutering_analysis/functions.py:4-43.  labels_map is returned in insertion order. *)
Definition relabel (predicted : list Z) (n : nat) (real : option (list Z)) : res (list Z * list (nat * nat)) :=
  do! rows <- prediction_rows predicted n real in
  do! (counts, labels_map) <- fold_res (fun s (_ : nat) => relabel_round n s) (seq 0 (n - 1)) (prediction_counts n rows, []) in
  do! (_, p) <- largest_cell n counts in
  do! t <- index (setdiff1d (map Z.of_nat (seq 0 n)) (map (fun pt => Z.of_nat (snd pt)) labels_map)) 0 in
  let labels_map := dict_set Nat.eqb labels_map p (Z.to_nat t) in
  Ok (fold_left (fun out pt => zip_with (fun v x => if (v =? Z.of_nat (fst pt))%Z then Z.of_nat (snd pt) else x) predicted out)
                labels_map (map (fun _ => 255%Z) predicted),
      labels_map).

(** Bits(uint=random.getrandbits(l), length=l): l random bits; bitstring raises CreationError for length 0.  [random c l] are the
    bits drawn by the c-th call. See runs/HC_eilat_July_2018/ecncoding_data.py:14-26. *)
Definition random_bits (random : nat -> nat -> list bool) (c l : nat) : res (list bool) :=
  if Nat.eqb l 0 then Err CreationError else Ok (random c l).

(** The words cut from one buffer, with the number of random draws made so far;
    runs/HC_eilat_July_2018/ecncoding_data.py:14-26.  [i] is the last value of the loop variable. *)
Definition cut_words (random : nat -> nat -> list bool) (k c : nat) (data : list bool) : res (list (list bool) * nat) :=
  if Nat.leb (length data) k
  then do! pad <- random_bits random c (k - length data) in Ok ([data ++ pad], S c)
  else if Nat.eqb k 0 then Err ZeroDivision
  else let full := map (fun i => slice data (i * k) ((i + 1) * k)) (seq 0 (length data / k)) in
       let i := length data / k - 1 in
       if Nat.ltb ((i + 1) * k) (length data)
       then do! pad <- random_bits random c (k - length (skipn ((i + 1) * k) data)) in
            Ok (full ++ [skipn ((i + 1) * k) data ++ pad], S c)
       else Ok (full, c).

(** encode_data; runs/HC_eilat_July_2018/ecncoding_data.py:7-27, from the buffers onwards (the pickle file is external).  [encode] is the
    external LDPC encoder of k-bit words.  Simplified: the words of one buffer are all cut before the first of them is encoded, so
    that a buffer for which both fail reports the cutting. *)
Definition encode_data {W} (encode : list bool -> res W) (random : nat -> nat -> list bool) (k : nat) (buffers : list (list bool))
  : res (list W) :=
  do! (encoded, _) <- fold_res (fun (s : list W * nat) data =>
                                  do! (words, c) <- cut_words random k (snd s) data in
                                  do! ws <- map_res encode words in Ok (fst s ++ ws, c)) buffers ([], 0) in
  Ok encoded.
