(** The training of stored models; runs/Feb_2022/train_buffer_model.py, runs/Feb_2023/train_buffer_model.py, scripts/train_estimator.py. *)
From Coq Require Import List ZArith NArith Arith Bool.
From Verif.Model Require Import Py Float Mavlink Segmentation StatModels DecoderBase.
Import ListNotations.

Section Train.
Variable FO : fops.
Variable to_string : bytes -> list N.

(** One round of the loop; Feb_2022/train_buffer_model.py:12-18, Feb_2023/train_buffer_model.py:13-18.  Simplified: a row whose first entry is
    below 2 has only the entries 0 and 1. *)
Definition train_row (s : structure) (st : buffer_model FO * list nat) (ir : nat * list Z) : res (buffer_model FO * list nat) :=
  do! x <- index (snd ir) 0 in
  if (x <? 2)%Z
  then do! b <- index (pack (firstn 8 (snd ir))) 0 in
       if negb (N.eqb b 254) then Ok (fst st, snd st ++ [fst ir])
       else match add_buffer FO (fst st) (BBits (map (Z.eqb 1) (firstn 984 (snd ir)))) s with
            | (m, Ok _) => Ok (m, snd st)
            | (_, Err e) => Err e
            end
  else Ok st.

(** The whole script up to the saving: the model and bad_idx; Feb_2022/train_buffer_model.py:8-18, Feb_2023/train_buffer_model.py:9-18. *)
Definition train_buffer_model (rows : list (list Z)) : res (buffer_model FO * list nat) :=
  do! first <- index rows 0 in
  do! r <- segment_buffer (decode to_string) (pack (firstn 984 first)) in
  fold_res (train_row (snd r)) (combine (seq 0 (length rows)) rows) (bm_init FO [] None, []).

(** data[i] = np.array(encoded_bits): ValueError unless the lengths are the same (one bit is repeated); scripts/train_estimator.py:49-51. *)
Definition data_row (n : nat) (w : list Z) : res (list Z) :=
  match w with
  | [x] => Ok (repeat x n)
  | _ => if Nat.eqb (length w) n then Ok w else Err ValueError
  end.
(** dist; scripts/train_estimator.py:49-55.  The sum of arrays of numpy.uint16 is one of them; without words 0 / 0 of Python's integers. *)
Definition train_dist (n : nat) (encoded : list (list Z)) : res (list (list (F FO))) :=
  do! data <- map_res (data_row n) encoded in
  match data with
  | [] => Err ZeroDivision
  | _ => Ok (map (fun i => let p := fdiv FO (fz FO (fold_right Z.add 0 (map (fun w => nth i w 0%Z) data) mod 65536)%Z) (fz FO (Z.of_nat (length encoded))) in
                           [fsub FO (fz FO 1) p; p]) (seq 0 n))
  end.
End Train.

(** A piece of a transmission with [k - size] random bits; a negative size is a ValueError of rng.integers; scripts/train_estimator.py:36,39,42,44,46.
    The random bits are given; [size] is the number written in the script, not the length of the piece. *)
Definition with_random (k size : nat) (random : nat -> list bool) (piece : list bool) : res (list bool) :=
  if Nat.ltb k size then Err ValueError else Ok (piece ++ random (k - size)).
(** The words given to the encoder for one transmission; [rand i] is the i-th call of the generator; scripts/train_estimator.py:21-28,33-47.
    The k of the three codes are 1296, 648 and 486. *)
Definition train_words (n_clusters : Z) (rand : nat -> nat -> list bool) (data : list bool) : res (list (list bool)) :=
  if Z.eqb n_clusters 1 then do! a <- with_random 1296 (length data) (rand 0) data in Ok [a]
  else if Z.eqb n_clusters 2 then do! a <- with_random 648 576 (rand 0) (firstn 576 data) in Ok [a; skipn 576 data]
  else if Z.eqb n_clusters 3 then
    do! a <- with_random 486 416 (rand 0) (firstn 416 data) in
    do! b <- with_random 486 (864 - 416) (rand 1) (skipn 416 (firstn 864 data)) in
    do! c <- with_random 486 (1224 - 864) (rand 2) (skipn 864 data) in
    Ok [a; b; c]
  else Err ValueError.
