(** Model of EntropyBitwiseWeightedDecoder; decoders/entropy_bitwise_decoder.py:231-505. *)
From Coq Require Import List ZArith NArith Bool.
From Verif.Model Require Import Py Float InfoTheory Clustering Segmentation DecoderBase.
Import ListNotations.

Section Weighted.
Variable FO : fops.
Notation F := (F FO).
(** The parser handed to BufferSegmentation. *)
Context {D : Type}.
Variable parser : bytes -> res D.

(** The attributes that never change; decoders/entropy_bitwise_decoder.py:254-284.  [w_bayes] is [estimator == "Bayes"]; window_length
    serves as min_size, and twice that as max_size, of the Bayes estimator. *)
Record w_conf := WConf { w_idx : list nat; w_length : nat; w_threshold : F; w_clip : F; w_window : option Z;
  w_a_center : F; w_a_slope : F; w_b_center : F; w_b_slope : F; w_scheme : Z; w_bayes : bool; w_flip : F; w_corrected : bool }.

(** x_normalized_variance: not set before the first buffer (MLE), the Python float 0.0 (Bayes), a numpy number. See decoders/entropy_bitwise_decoder.py:361-362, 412-414. *)
Inductive variance := VAbsent | VZero | VNum (v : F).
(** One of the two models: the stored buffers (MLE), the priors (Bayes), the distribution with its number of columns, the entropies and
    the variance. See decoders/entropy_bitwise_decoder.py:339-389. *)
Record w_model := WM { wm_data : list (list Z); wm_ones : list Z; wm_zeros : list Z; wm_rows : list (list F); wm_cols : nat; wm_entropy : list F; wm_var : variance }.

(** __init__, the models; decoders/entropy_bitwise_decoder.py:263-288.  2 * None is a TypeError. *)
Definition w_init (c : w_conf) : res (w_model * w_model) :=
  let n := length (w_idx c) in
  if w_bayes c
  then match w_window c with
       | None => Err TypeError
       | Some _ => let m := WM [] (repeat 1%Z n) (repeat 1%Z n) [] 0 [] VZero in Ok (m, m)
       end
  else let m := WM [] [] [] [] 0 [] VAbsent in Ok (m, m).

Variable c : w_conf.

(** The priors are reduced when they have grown too large, and enlarged again when they are too small then; the precedence of // and +
    is that of the code; decoders/entropy_bitwise_decoder.py:351-358, 403-410. *)
Definition w_reduce (size : Z) (ones zeros : list Z) : res (list Z * list Z) :=
  do! o <- index ones 0 in
  do! z <- index zeros 0 in
  if (2 * size <? o + z)%Z
  then let gcds := zip_with Z.gcd ones zeros in
       let ones := zip_with Z.div ones gcds in
       let zeros := zip_with Z.div zeros gcds in
       do! o <- index ones 0 in
       do! z <- index zeros 0 in
       if (o + z <? size)%Z
       then let m := (size / o + z)%Z in Ok (map (fun x => x * m)%Z ones, map (fun x => x * m)%Z zeros)
       else Ok (ones, zeros)
  else Ok (ones, zeros).
(** The mode of a Beta distribution; nan_to_num turns 0/0 into 0; decoders/entropy_bitwise_decoder.py:361-362, 412-414. *)
Definition w_mode (o z : Z) : F := if Z.eqb (o + z) 2 then fz FO 0 else fdiv FO (fz FO (o - 1)) (fz FO (o + z - 2)).
(** The mean variance relative to that of the uniform distribution; decoders/entropy_bitwise_decoder.py:364-368, 416-420. *)
Definition w_bayes_variance (ones zeros : list Z) : F :=
  let k := fdiv FO (fz FO 1) (fsub FO (fz FO 1) (fmul FO (fz FO 2) (w_flip c))) in
  fmul FO (fz FO 12) (fmul FO (fmul FO k k)
    (fmean FO (zip_with (fun o z => fdiv FO (fz FO (o * z)) (fz FO ((o + z + 1) * ((o + z) * (o + z))))) ones zeros))).

(** The end of update_model_a and update_model_b; decoders/entropy_bitwise_decoder.py:386-389, 438-441. *)
Definition w_finish (m : w_model) (p1 : list F) : w_model * res unit :=
  match (do! _ <- check_probability FO p1 in entropy FO (FMat (wm_rows m)) 2) with
  | Err e => (m, Err e)
  | Ok h => (WM (wm_data m) (wm_ones m) (wm_zeros m) (wm_rows m) (wm_cols m) h (wm_var m), Ok tt)
  end.

(** update_model_a and update_model_b, which are alike; decoders/entropy_bitwise_decoder.py:339-389, 391-441.  The Bayes estimator divides
    Python numbers by 1 - 2 * bit_flip, which raises for a bit_flip of 1/2; the other one divides numpy numbers (not a number then). *)
Definition w_update (m : w_model) (bits : list Z) : w_model * res unit :=
  if negb (Nat.eqb (length bits) (w_length c)) then (m, Err IncorrectBufferLength)
  else if w_bayes c then
    let size := match w_window c with Some w => w | None => 0%Z end in
    match broadcast Z.add (wm_ones m) bits, broadcast Z.add (wm_zeros m) (map (fun b => 1 - b)%Z bits) with
    | Ok ones, Ok zeros =>
        match w_reduce size ones zeros with
        | Err e => (WM (wm_data m) ones zeros (wm_rows m) (wm_cols m) (wm_entropy m) (wm_var m), Err e)
        | Ok (ones, zeros) =>
            if feq FO (fsub FO (fz FO 1) (fmul FO (fz FO 2) (w_flip c))) (fz FO 0)
            then (WM (wm_data m) ones zeros (wm_rows m) (wm_cols m) (wm_entropy m) (wm_var m), Err ZeroDivision)
            else
            let p1 := map (corrected FO (w_flip c)) (zip_with w_mode ones zeros) in
            w_finish (WM (wm_data m) ones zeros (map (fun p => [fsub FO (fz FO 1) p; p]) p1) 2 (wm_entropy m) (VNum (w_bayes_variance ones zeros))) p1
        end
    | _, _ => (m, Err ValueError)
    end
  else
    let data := append_buffer (w_window c) (wm_data m) bits in
    match data_prob FO (length bits) data with
    | Err e => (WM data (wm_ones m) (wm_zeros m) (wm_rows m) (wm_cols m) (wm_entropy m) (wm_var m), Err e)
    | Ok (rows, cols) =>
        match column rows cols 1 (fz FO 0) with
        | Err e => (WM data (wm_ones m) (wm_zeros m) rows cols (wm_entropy m) (wm_var m), Err e)
        | Ok v =>
            let p1 := if w_corrected c then map (corrected FO (w_flip c)) v else v in
            let rows := if w_corrected c then map (fun p => [fsub FO (fz FO 1) p; p]) p1 else rows in
            let cols := if w_corrected c then 2 else cols in
            let var := fmul FO (fz FO 2) (fmean FO (map (fun p => fsub FO p (fmul FO p p)) p1)) in
            w_finish (WM data (wm_ones m) (wm_zeros m) rows cols (wm_entropy m) (VNum var)) p1
        end
    end.

(** [x_entropy < entropy_threshold]. See decoders/entropy_bitwise_decoder.py:496-503. *)
Definition w_low (m : w_model) : list bool := map (fun h => flt FO h (w_threshold c)) (wm_entropy m).
(** a_size, b_size; decoders/entropy_bitwise_decoder.py:462-467. *)
Definition w_size (m : w_model) : res Z :=
  if w_bayes c
  then do! o <- index (wm_ones m) 0 in do! z <- index (wm_zeros m) 0 in Ok (o + z - 2)%Z
  else Ok (Z.of_nat (em_size (wm_data m))).
(** [1 - np.exp(-0.1 / variance)]; decoders/entropy_bitwise_decoder.py:487-488.  A numpy zero gives -inf, whose exponential is 0. *)
Definition w_variance_factor (v : variance) : res F :=
  match v with
  | VAbsent => Err AttributeError
  | VZero => Err ZeroDivision
  | VNum v => Ok (if feq FO v (fz FO 0) then fz FO 1
                  else fsub FO (fz FO 1) (fexp FO (fdiv FO (fdiv FO (fz FO (-1)) (fz FO 10)) v)))
  end.
(** The confidence schemes; decoders/entropy_bitwise_decoder.py:473-491.  The third branch tests for scheme 1 again and is never taken. *)
Definition w_schemes (a b : w_model) (ac bc : F) : res (F * F) :=
  if Z.eqb (w_scheme c) 0 then Ok (ac, bc)
  else if Z.eqb (w_scheme c) 1 then
    let s := fadd FO ac bc in
    if flt FO (fz FO 0) s then Ok (fmul FO ac (fdiv FO ac s), fmul FO bc (fdiv FO bc s)) else Ok (ac, bc)
  else if Z.eqb (w_scheme c) 1 then
    let s := fadd FO (fmul FO (fz FO 2) ac) bc in
    if flt FO (fz FO 0) s then Ok (fmul FO ac (fdiv FO (fmul FO (fz FO 2) ac) s), fmul FO bc (fdiv FO bc s)) else Ok (ac, bc)
  else if Z.eqb (w_scheme c) 3 then Ok (ac, fz FO 0)
  else if Z.eqb (w_scheme c) 4 then
    do! fa <- w_variance_factor (wm_var a) in
    do! fb <- w_variance_factor (wm_var b) in
    Ok (fmul FO ac fa, fmul FO bc fb)
  else if Z.eqb (w_scheme c) 5 then Ok (fz FO 0, bc)
  else Ok (ac, bc).
(** The model llr is added; decoders/entropy_bitwise_decoder.py:496-503. *)
Definition w_add (m : w_model) (confidence : F) (structural : list nat) (llr : list F) : res (list F) :=
  if flt FO (fz FO 0) confidence
  then do! p0 <- column (wm_rows m) (wm_cols m) 0 (fz FO 0) in
       do! p1 <- column (wm_rows m) (wm_cols m) 1 (fz FO 0) in
       do! r <- broadcast (fun a b => flog FO (fdiv FO (fadd FO (feps FO) a) (fadd FO b (feps FO)))) p0 p1 in
       do! r <- mask_index r (w_low m) in
       add_at FO llr structural (map (fmul FO confidence) r)
  else Ok llr.
(** model_prediction; decoders/entropy_bitwise_decoder.py:443-505. *)
Definition w_predict (a b : w_model) (observation : list F) : res (list F) :=
  do! sa <- mask_index (w_idx c) (w_low a) in
  do! sb <- mask_index (w_idx c) (w_low b) in
  if (negb (any_index sa) && negb (any_index sb))%bool then Ok observation
  else
    do! na <- w_size a in
    do! nb <- w_size b in
    do! conf <- w_schemes a b (model_confidence FO na (w_a_center c) (w_a_slope c)) (model_confidence FO nb (w_b_center c) (w_b_slope c)) in
    do! mx <- pymax FO observation in
    let clipping := fmul FO (w_clip c) mx in
    do! llr <- w_add a (fst conf) sa observation in
    do! llr <- w_add b (snd conf) sb llr in
    Ok (map (fun x => fclip FO x (fneg FO clipping) clipping) llr).

(** The answer of decode_buffer; the estimate, the other results of the LDPC decoder, the number of messages, both distributions and the
    structural positions according to both models; decoders/entropy_bitwise_decoder.py:318-321, 335-337. *)
Definition w_answer {X} (a b : w_model) (estimate : list Z) (other : X) (messages : nat)
  : res (list Z * X * nat * (list (list F) * list (list F)) * (list nat * list nat)) :=
  do! sa <- mask_index (w_idx c) (w_low a) in
  do! sb <- mask_index (w_idx c) (w_low b) in
  Ok (estimate, other, messages, (wm_rows a, wm_rows b), (sa, sb)).

(** decode_buffer; decoders/entropy_bitwise_decoder.py:290-337.  [ldpc] gives the estimate, the success and all other results. *)
Definition w_decode {X} (ldpc : list F -> res (list Z * X * bool)) (ab : w_model * w_model) (word : list F)
  : w_model * w_model * res (list Z * X * nat * (list (list F) * list (list F)) * (list nat * list nat)) :=
  let '(a, b) := ab in
  match ldpc word with
  | Err e => (a, b, Err e)
  | Ok (estimate, other, true) =>
      match (do! bits <- take estimate (w_idx c) in do! seg <- segment_buffer parser (pack bits) in Ok (bits, seg)) with
      | Err e => (a, b, Err e)
      | Ok (bits, (parts, _, structure)) =>
          let '(a, u) := if negb (existsb is_unknown parts) then w_update a bits else (a, Ok tt) in
          match u with
          | Err e => (a, b, Err e)
          | Ok _ =>
              let '(b, u) := w_update b bits in
              match u with
              | Err e => (a, b, Err e)
              | Ok _ => (a, b, w_answer a b estimate other (length structure))
              end
          end
      end
  | Ok (_, _, false) =>
      match (do! w <- w_predict a b word in
             do! r <- ldpc w in
             let '(estimate, other, _) := r in
             do! bits <- take estimate (w_idx c) in
             do! seg <- segment_buffer parser (pack bits) in
             Ok (estimate, other, bits, seg)) with
      | Err e => (a, b, Err e)
      | Ok (estimate, other, bits, (parts, _, structure)) =>
          if negb (existsb is_unknown parts) then
            let '(a, u) := w_update a bits in
            match u with
            | Err e => (a, b, Err e)
            | Ok _ =>
                let '(b, u) := w_update b bits in
                match u with
                | Err e => (a, b, Err e)
                | Ok _ => (a, b, w_answer a b estimate other (length structure))
                end
            end
          else
            match take (hard FO word) (w_idx c) with
            | Err e => (a, b, Err e)
            | Ok bits =>
                let '(b, u) := w_update b bits in
                match u with
                | Err e => (a, b, Err e)
                | Ok _ => (a, b, w_answer a b estimate other (length structure))
                end
            end
      end
  end.
End Weighted.
