(** Model of decoders/entropy_bitwise_decoder.py: EntropyBitwiseDecoder and EntropyBitwiseFlippingDecoder. *)
From Coq Require Import List ZArith NArith Bool.
From Verif.Model Require Import Py Float InfoTheory Clustering Segmentation DecoderBase.
Import ListNotations.

Section Entropy.
Variable FO : fops.
Notation F := (F FO).
(** The parser handed to BufferSegmentation. *)
Context {D : Type}.
Variable parser : bytes -> res D.

(** The attributes that never change; decoders/entropy_bitwise_decoder.py:34-54, 144-164.  clipping_factor only exists in the first
    class. *)
Record ed_conf := EdConf { ed_idx : list nat; ed_length : nat; ed_threshold : F; ed_clip : F; ed_min : Z; ed_window : option Z; ed_given : bool }.
(** The attributes that change; structural_elements and structural_values are not kept: they are recomputed before each use.
    See decoders/entropy_bitwise_decoder.py:21-55. *)
Definition ed_init (info_idx : list bool) (model_length : nat) (threshold clip : F) (min_data : Z) (window : option Z)
  (model : option (list (list F) * nat)) : ed_conf * entropy_model FO :=
  let idx := model_index info_idx model_length in
  match model with
  | None => (EdConf idx model_length threshold clip min_data window false, em_new)
  | Some (rows, cols) =>
      let n := Nat.min (length rows) (length idx) in
      let rows := firstn n rows in
      (EdConf idx n threshold clip min_data window true, EM [] rows cols (map (row_entropy FO 2) rows))
  end.

Variable c : ed_conf.

(** update_model; decoders/entropy_bitwise_decoder.py:87-101, 197-211. *)
Definition ed_update (m : entropy_model FO) (bits : list Z) : entropy_model FO * res unit :=
  if ed_given c then (m, Ok tt) else learn_plain FO (ed_window c) (ed_length c) m bits.

(** EntropyBitwiseDecoder.model_prediction; decoders/entropy_bitwise_decoder.py:103-122. *)
Definition ed_predict (m : entropy_model FO) (observation : list F) : res (list F) :=
  do! structural <- mask_index (ed_idx c) (low_entropy FO (ed_threshold c) m) in
  if (ed_given c || (negb (em_empty (em_data m)) && (ed_min c <=? Z.of_nat (length (em_data m)))%Z))%bool
  then do! mx <- pymax FO observation in
       let clipping := fmul FO (ed_clip c) mx in
       do! r <- log_ratios FO m in
       do! r <- mask_index (map (fun x => fclip FO x (fneg FO clipping) clipping) r) (low_entropy FO (ed_threshold c) m) in
       add_at FO observation structural r
  else Ok observation.

(** EntropyBitwiseFlippingDecoder.model_prediction; decoders/entropy_bitwise_decoder.py:213-228.  The words are arrays of integers. *)
Definition ed_flip (m : entropy_model FO) (observation : list Z) : res (list Z) :=
  if (negb (ed_given c) && (em_empty (em_data m) || (Z.of_nat (length (em_data m)) <? ed_min c)%Z))%bool then Ok observation
  else
    do! structural <- mask_index (ed_idx c) (low_entropy FO (ed_threshold c) m) in
    do! p1 <- column (em_rows m) (em_cols m) 1 (fz FO 0) in
    do! values <- take (map (fun p => if flt FO (fdiv FO (fz FO 1) (fz FO 2)) p then 1%Z else 0%Z) p1) structural in
    put observation structural values.

(** What follows a run of the LDPC decoder: the model bits are segmented, and learned when no byte is unknown; the number of messages is
    returned; decoders/entropy_bitwise_decoder.py:70-75, 80-85, 180-185, 190-195. *)
Definition ed_finish {X} (m : entropy_model FO) (r : list Z * X * bool * Z) : entropy_model FO * res (list Z * X * bool * Z * nat) :=
  let '(estimate, llr, success, iterations) := r in
  match (do! bits <- take estimate (ed_idx c) in do! seg <- segment_buffer parser (pack bits) in Ok (bits, seg)) with
  | Err e => (m, Err e)
  | Ok (bits, (parts, _, structure)) =>
      let '(m, u) := if negb (existsb is_unknown parts) then ed_update m bits else (m, Ok tt) in
      (m, do! _ <- u in Ok (estimate, llr, success, iterations, length structure))
  end.

(** decode_buffer of both classes, for words of type [list W]; [ldpc] is LogSpaDecoder.decode (estimate, llr, success, iterations; the
    other two results are not used); decoders/entropy_bitwise_decoder.py:57-85, 167-195. *)
Definition ed_decode {W X} (predict : entropy_model FO -> list W -> res (list W)) (ldpc : list W -> res (list Z * X * bool * Z))
  (m : entropy_model FO) (word : list W) : entropy_model FO * res (list Z * X * bool * Z * nat) :=
  match ldpc word with
  | Err e => (m, Err e)
  | Ok r =>
      let '(_, _, success, _) := r in
      if success then ed_finish m r
      else match (do! w <- predict m word in ldpc w) with
           | Err e => (m, Err e)
           | Ok r => ed_finish m r
           end
  end.
End Entropy.
