(** Model of runs/HC_eilat_July_2018/data/msg_creator.py: telemetry buffers made from a recording. *)
From Coq Require Import String Ascii List NArith ZArith Arith Bool.
From Verif.Model Require Import Py Dialect ProtocolMeta Struct Crc Mavlink.
Import ListNotations.

(** The five tables of the recording, each a column of times and further columns; msg_creator.py:11-62.  Simplified: times are integers, the
    entries of the other columns are values that struct.pack accepts as they are; reading the .mat file is not modelled. *)
Record series := Series { s_time : list Z; s_cols : list (list pyval) }.
(** The recording of one sensor; runs/HC_eilat_July_2018/data/msg_creator.py:11-62. *)
Record recording := Recording { r_position : series; r_pinger : series; r_attitude : series; r_svs : series; r_chamber : series }.

(** np.argmax(time >= t): the first True, 0 if there is none; ValueError for an empty array; msg_creator.py:71, 83, 89, 97, 104. *)
Fixpoint first_true (l : list bool) (i : nat) : nat :=
  match l with [] => 0 | x :: r => if x then i else first_true r (S i) end.
(** The sample at an index; runs/HC_eilat_July_2018/data/msg_creator.py:71, 83, 89, 97, 104. *)
Definition sample_at (times : list Z) (t : Z) : res nat :=
  match times with [] => Err ValueError | _ => Ok (first_true (map (fun x => Z.leb t x) times) 0) end.

(** The arguments of a message: the time and the columns in the given order, at the sampled index; msg_creator.py:72-78, 84, 90-92, 98-99, 105-107. *)
Definition arguments (s : series) (order : list nat) (t : Z) : res (list fieldval) :=
  do! idx <- sample_at (s_time s) t in
  do! time <- index (s_time s) idx in
  do! vs <- map_res (fun k => do! col <- index (s_cols s) k in index col idx) order in
  Ok (map FOne (VInt time :: vs)).

(** One message: pack with mav (source system and component 1), then the next sequence number; msg_creator.py:72-81 and the like. *)
Definition add_message (id : N) (order : list nat) (s : series) (t : Z) (st : bytes * Z) : res (bytes * Z) :=
  do! args <- arguments s order t in
  match get_class id with
  | None => Err AttributeError
  | Some c => do! b <- message_pack (Msg c args) (snd st) 1 1 in Ok (fst st ++ b, ((snd st + 1) mod 256)%Z)
  end.

(** The body of the inner loop: one buffer; msg_creator.py:69-113.  The columns of svs_status are speed, depth, reserved, temperature, status;
    those of chamber_status temperature, humidity, number, pressure. *)
Definition telemetry (r : recording) (seq : Z) (t : Z) : res (bytes * Z) :=
  do! st <- add_message 33 [0; 1; 2; 3; 4; 5; 6; 7; 8; 9] (r_position r) t ([], seq) in
  do! st <- add_message 234 [0; 1] (r_pinger r) t st in
  do! st <- add_message 30 [0; 1; 2; 3; 4; 5] (r_attitude r) t st in
  do! st <- add_message 212 [0; 1; 3; 4; 2] (r_svs r) t st in
  add_message 218 [2; 3; 0; 1] (r_chamber r) t st.

(** np.arange(start, stop, step) of integers, step > 0. See msg_creator.py:29. *)
Definition arange (start stop step : Z) : list Z :=
  map (fun k => (start + Z.of_nat k * step)%Z) (seq 0 (Z.to_nat ((stop - start + step - 1) / step))).

(** time_vecs; msg_creator.py:26-29. *)
Definition delays : list Z := [20000; 50000; 100000; 200000; 300000]%Z.
(** time_vec; runs/HC_eilat_July_2018/data/msg_creator.py:26-29. *)
Definition time_vec (r : recording) (delay : Z) : res (list Z) :=
  do! initial <- index_z (s_time (r_position r)) 0 in
  do! final <- index_z (s_time (r_position r)) 16521 in
  Ok (arange initial final delay).

(** The loops; msg_creator.py:64-114.  The sequence number is that of one MAVLink object and is never reset. *)
Definition buffers (r : recording) (times : list Z) (seq : Z) : res (list (Z * bytes) * Z) :=
  fold_res (fun st t => do! (b, q) <- telemetry r (snd st) t in Ok (fst st ++ [(t, b)], q)) times ([], seq).
(** The loop; runs/HC_eilat_July_2018/data/msg_creator.py:64-114. *)
Definition all_msgs (r : recording) : res (list (Z * list (Z * bytes))) :=
  do! vecs <- map_res (fun d => do! v <- time_vec r d in Ok (d, v)) delays in
  do! (out, _) <- fold_res (fun st dv => do! (l, q) <- buffers r (snd dv) (snd st) in Ok (fst st ++ [(fst dv, l)], q)) vecs ([], 0%Z) in
  Ok out.

(** The information words that are encoded: the whole buffer, or its parts, each filled up with random bits;
    scripts/train_estimator.py:33-47, runs/HC_eilat_July_2018/simulated_data_classifying_entropy_decoder.py:71-92.  [k] is encoder.k,
    [random c l] the l bits of the c-th call of rng.integers for this buffer; a negative size raises ValueError.  Anything but 1, 2, 3 clusters has
    no branch. *)
Definition fill_up (random : nat -> nat -> list bool) (c k : nat) (part : list bool) (used : nat) : res (list bool) :=
  if Nat.ltb k used then Err ValueError else Ok (part ++ random c (k - used)).
(** The words of all buffers; scripts/train_estimator.py:33-47. *)
Definition info_words (random : nat -> nat -> list bool) (n_clusters k : nat) (bits : list bool) : res (list (list bool)) :=
  match n_clusters with
  | 1 => do! w <- fill_up random 0 k bits (List.length bits) in Ok [w]
  | 2 => do! w <- fill_up random 0 k (firstn 576 bits) 576 in Ok [w; skipn 576 bits]
  | 3 => do! a <- fill_up random 0 k (firstn 416 bits) 416 in
         do! b <- fill_up random 1 k (slice bits 416 864) (864 - 416) in
         do! c <- fill_up random 2 k (skipn 864 bits) (1224 - 864) in Ok [a; b; c]
  | _ => Ok []
  end.

(** for _ in range(multiply_data): encoded.extend(encoded);
    runs/HC_eilat_July_2018/simulated_data_classifying_entropy_decoder.py:94-95. *)
Fixpoint multiply {A} (times : nat) (encoded : list A) : list A :=
  match times with 0 => encoded | S k => multiply k (encoded ++ encoded) end.
