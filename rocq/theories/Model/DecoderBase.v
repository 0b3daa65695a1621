(** Code that the decoders of decoders/ repeat, and the numpy operations they use.
    Simplified throughout: model_length is not negative; the LDPC decoder (package sim-ldpc) is a parameter; info_idx is a boolean mask
    over the code word, as the run scripts pass it. *)
From Coq Require Import List ZArith NArith Bool.
From Verif.Model Require Import Py Float InfoTheory Clustering Segmentation.
Import ListNotations.

(** np.flatnonzero of a boolean mask. See decoders/entropy_bitwise_decoder.py:38-40, 148-150, 258-260. *)
Definition flatnonzero (l : list bool) : list nat := map fst (filter snd (combine (seq 0 (length l)) l)).
(** [a[n:] = False]. See decoders/entropy_bitwise_decoder.py:38-40, 148-150, 258-260. *)
Definition clear_from (n : nat) (l : list bool) : list bool := firstn n l ++ repeat false (length l - n).
(** [a[idx]] for an array of indices. See classifier_analysis.py:153-211. *)
Definition take {A} (l : list A) (idx : list nat) : res (list A) := map_res (index l) idx.
(** [a[idx] = v] for an array of indices and as many values. See decoders/classifiying_decoder.py:195-233. *)
Definition put {A} (l : list A) (idx : list nat) (vs : list A) : res (list A) :=
  if existsb (fun i => Nat.leb (length l) i) idx then Err IndexError
  else if Nat.eqb (length idx) (length vs) then Ok (fold_left (fun l iv => set_nth l (fst iv) (snd iv)) (combine idx vs) l)
  else Err ValueError.
(** [a[mask]] for a boolean mask: numpy accepts a mask of length 0 for every array, any other mask must have the length of the array.
    See decoders/classifiying_decoder.py:167-193. *)
Definition mask_index {A} (l : list A) (mask : list bool) : res (list A) :=
  match mask with
  | [] => Ok []
  | _ => if Nat.eqb (length mask) (length l) then Ok (map fst (filter snd (combine l mask))) else Err IndexError
  end.
(** [idx.any()] of an array of indices: is one of them not 0?. See decoders/classifiying_decoder.py:167-193. *)
Definition any_index (idx : list nat) : bool := existsb (fun i => negb (Nat.eqb i 0)) idx.

(** np.packbits(bits).tobytes(): eight bits per byte, the last byte filled up with zeros; a bit is anything but 0.
    See runs/Feb_2022/experimental_mavlink_based.py:121; runs/Feb_2023/experimental_mavlink_based.py:147; runs/Feb_2022/experimental_data_unified_decoder.py:129-137; runs/Feb_2023/experimental_data_unified_decoder.py:160-168. *)
Fixpoint packbits (fuel : nat) (l : list Z) : bytes :=
  match fuel, l with
  | S f, _ :: _ => bits_value (map (fun b => negb (Z.eqb b 0)) (firstn 8 (l ++ repeat 0%Z 7))) :: packbits f (skipn 8 l)
  | _, _ => []
  end.
(** Bits(auto=...).tobytes(); decoders/entropy_bitwise_decoder.py:70-75. *)
Definition pack (l : list Z) : bytes := packbits (length l) l.

(** model_bits_idx of the three entropy decoders; decoders/entropy_bitwise_decoder.py:38-40, 148-150, 258-260. *)
Definition model_index (info_idx : list bool) (model_length : nat) : list nat := flatnonzero (clear_from model_length info_idx).
(** model_bits_idx of the other decoders; decoders/classifiying_decoder.py:30-35, classifying_DUDE_decoder.py:31-36,
    mavlink_decoder.py:61-66, combined_decoder.py:45-50, combined_unified_decoder.py:54-59. *)
Definition model_index' (info_idx : list bool) (model_length : nat) : list nat :=
  if Nat.leb (length (filter (fun b => b) info_idx)) model_length then seq 0 model_length else model_index info_idx model_length.

Section Base.
Variable FO : fops.
Notation F := (F FO).

(** max(a) of Python: ValueError for an empty sequence. See decoders/classifiying_decoder.py:162-164. *)
Definition pymax (l : list F) : res F :=
  match l with [] => Err ValueError | x :: t => Ok (fold_left (fun m y => if flt FO m y then y else m) t x) end.
(** min of two floats; decoders/classifiying_decoder.py:162-164. *)
Definition pymin (l : list F) : res F :=
  match l with [] => Err ValueError | x :: t => Ok (fold_left (fun m y => if flt FO y m then y else m) t x) end.
(** [np.array(a < 0, dtype=int)]. See decoders/classifiying_decoder.py:195-233. *)
Definition hard (l : list F) : list Z := map (fun x => if flt FO x (fz FO 0) then 1%Z else 0%Z) l.
(** [a[idx] += v]. See decoders/classifiying_decoder.py:167-193. *)
Definition add_at (l : list F) (idx : list nat) (vs : list F) : res (list F) :=
  do! old <- take l idx in do! new <- broadcast (fadd FO) old vs in put l idx new.

(** The nested function model_confidence; decoders/entropy_bitwise_decoder.py:450-451, classifiying_decoder.py:168-169,
    classifying_DUDE_decoder.py:113-114, mavlink_decoder.py:182-183, combined_decoder.py:75-76 and 155-156,
    combined_unified_decoder.py. *)
Definition model_confidence (model_size : Z) (center slope : F) : F :=
  if (model_size <=? 1)%Z then fz FO 0
  else fdiv FO (fz FO 1) (fadd FO (fz FO 1) (fexp FO (fmul FO (fneg FO (fsub FO (fz FO model_size) center)) slope))).

(** The model of one stream of buffers: the stored buffers (the columns of model_data), the rows and the number of columns of the
    distribution, the entropies. See decoders/entropy_bitwise_decoder.py:43-52, 91-101. *)
Record entropy_model := EM { em_data : list (list Z); em_rows : list (list F); em_cols : nat; em_entropy : list F }.
(** Nothing stored yet; decoders/entropy_bitwise_decoder.py:43-52. *)
Definition em_new : entropy_model := EM [] [] 0 [].
(** data.size == 0. See decoders/entropy_bitwise_decoder.py:95-99; classifiying_decoder.py:149-156; combined_decoder.py:106-113. *)
Definition em_empty (data : list (list Z)) : bool := match data with [] => true | col :: _ => Nat.eqb (length col) 0 end.
(** data.shape[1] if data.size > 0 else 0. See decoders/classifiying_decoder.py:167-193. *)
Definition em_size (data : list (list Z)) : nat := if em_empty data then 0 else length data.

(** The new buffer is appended and the oldest ones are cut off; decoders/entropy_bitwise_decoder.py:95-99, classifiying_decoder.py:149-156,
    combined_decoder.py:106-113. *)
Definition append_buffer (window : option Z) (data : list (list Z)) (bits : list Z) : list (list Z) :=
  let data := if em_empty data then [bits] else data ++ [bits] in
  match window with
  | Some w => if (w <? Z.of_nat (length data))%Z then skipn (Z.to_nat (Z.of_nat (length data) - w)) data else data
  | None => data
  end.
(** The rows of the matrix whose columns are given. See decoders/entropy_bitwise_decoder.py:91-101, 201-211. *)
Definition data_rows (n : nat) (data : list (list Z)) : list (list Z) := map (fun i => map (fun col => nth i col 0%Z) data) (seq 0 n).

(** The distribution of the stored buffers, [prob(model_data)]; the buffers have [n] bits. See decoders/entropy_bitwise_decoder.py:91-101, 201-211. *)
Definition data_prob (n : nat) (data : list (list Z)) : res (list (list F) * nat) :=
  do! r <- prob_with_alphabet FO (DMat (data_rows n data) (length data)) in
  match fst r with FMat rows => Ok (rows, length (snd r)) | _ => Err ValueError end.

(** update_model of EntropyBitwiseDecoder and EntropyBitwiseFlippingDecoder; decoders/entropy_bitwise_decoder.py:91-101, 201-211. *)
Definition learn_plain (window : option Z) (model_length : nat) (m : entropy_model) (bits : list Z) : entropy_model * res unit :=
  if negb (Nat.eqb (length bits) model_length) then (m, Err IncorrectBufferLength)
  else
    let data := append_buffer window (em_data m) bits in
    match data_prob (length bits) data with
    | Err e => (EM data (em_rows m) (em_cols m) (em_entropy m), Err e)
    | Ok (rows, cols) =>
        match entropy FO (FMat rows) 2 with
        | Err e => (EM data rows cols (em_entropy m), Err e)
        | Ok h => (EM data rows cols h, Ok tt)
        end
    end.

(** The estimate corrected for the channel; decoders/classifiying_decoder.py:158-160, combined_decoder.py:115-117. *)
Definition corrected (bit_flip v : F) : F :=
  fclip FO (fdiv FO (fsub FO v bit_flip) (fsub FO (fz FO 1) (fmul FO (fz FO 2) bit_flip))) (fz FO 0) (fz FO 1).
(** [max(p1) > 1 or min(p1) < 0]; decoders/classifiying_decoder.py:162-164. *)
Definition check_probability (p1 : list F) : res unit :=
  do! mx <- pymax p1 in
  if flt FO (fz FO 1) mx then Err RuntimeError
  else do! mn <- pymin p1 in if flt FO mn (fz FO 0) then Err RuntimeError else Ok tt.

(** update_model of ClassifyingEntropyDecoder and update_entropy_model of the combined decoders; decoders/classifiying_decoder.py:145-165,
    combined_decoder.py:102-122, combined_unified_decoder.py. *)
Definition learn_corrected (window : option Z) (model_length : nat) (bit_flip : F) (m : entropy_model) (bits : list Z) : entropy_model * res unit :=
  if negb (Nat.eqb (length bits) model_length) then (m, Err IncorrectBufferLength)
  else
    let data := append_buffer window (em_data m) bits in
    let m := EM data (em_rows m) (em_cols m) (em_entropy m) in
    match (do! d <- data_prob (length bits) data in column (fst d) (snd d) 1 (fz FO 0)) with
    | Err e => (m, Err e)
    | Ok v =>
        let p1 := map (corrected bit_flip) v in
        let rows := map (fun p => [fsub FO (fz FO 1) p; p]) p1 in
        let m := EM data rows 2 (em_entropy m) in
        match (do! _ <- check_probability p1 in entropy FO (FMat rows) 2) with
        | Err e => (m, Err e)
        | Ok h => (EM data rows 2 h, Ok tt)
        end
    end.

(** [models_entropy < entropy_threshold]. See decoders/classifiying_decoder.py:167-193. *)
Definition low_entropy (threshold : F) (m : entropy_model) : list bool := map (fun h => flt FO h threshold) (em_entropy m).
(** [np.log((eps + distribution[:, 0]) / (distribution[:, 1] + eps))]. See decoders/classifiying_decoder.py:167-193. *)
Definition log_ratios (m : entropy_model) : res (list F) :=
  do! p0 <- column (em_rows m) (em_cols m) 0 (fz FO 0) in
  do! p1 <- column (em_rows m) (em_cols m) 1 (fz FO 0) in
  broadcast (fun a b => flog FO (fdiv FO (fadd FO (feps FO) a) (fadd FO b (feps FO)))) p0 p1.
End Base.
Arguments EM {FO}.
Arguments em_data {FO}.
Arguments em_rows {FO}.
Arguments em_cols {FO}.
Arguments em_entropy {FO}.
Arguments em_new {FO}.
