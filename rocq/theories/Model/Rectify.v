(** The part that MavlinkRectifyingDecoder, CombinedDecoder and CombinedUnifiedDecoder have in common: weighting a received word with the
    statistics of the MAVLink fields, learning these statistics, and the analysis made when debugging.
    decoders/mavlink_decoder.py:137-273, combined_decoder.py:124-245, combined_unified_decoder.py:132-287.
    Simplified throughout: bits are 0 or 1; when a call raises, statistics that were refreshed on the way are taken as not refreshed (which
    cannot be observed). *)
From Coq Require Import String List ZArith NArith Bool.
From Verif.Model Require Import Py Float ProtocolMeta Segmentation StatModels InfoTheory Perf DecoderBase.
Import ListNotations.

Section Rectify.
Variable FO : fops.
Notation F := (F FO).
Variable f32_pack : F -> res N.
Variable erf : F -> F.
(** The MAVLink parser given to BufferSegmentation. *)
Context {D : Type}.
Variable parser : bytes -> res D.
(** [ldpc_decoder.info_bits(bits).tobytes()]: the information bytes of a code word (package sim-ldpc). *)
Variable info_bytes : list Z -> res bytes.

(** The thresholds and factors given to the constructors; mavlink_decoder.py:52-80.  [rc_learning]: no data model was given. *)
Record rect_conf := RectConf {
  rc_valid_thr : F; rc_invalid_thr : F; rc_valid_factor : F; rc_invalid_factor : F; rc_center : F; rc_slope : F; rc_learning : bool
}.
(** What model_prediction returns, in the order of the code.  The forced positions are None for [np.array([])], an empty array of floats.
    See mavlink_decoder.py:100-125. *)
Record prediction := Pred {
  pr_llr : list F; pr_good : list bool; pr_bad : list bool; pr_good_fields : list nat; pr_bad_fields : list nat; pr_fields : nat;
  pr_forced : option (list nat); pr_segmented : list bool
}.

Variable c : rect_conf.

(** Comparisons of an array that holds nan (None): false for nan. See mavlink_decoder.py:161-230; combined_decoder.py:134-203. *)
Definition above (t : F) (x : option F) : bool := match x with Some v => flt FO t v | None => false end.
(** p < threshold; decoders/mavlink_decoder.py:161-230. *)
Definition below (t : F) (x : option F) : bool := match x with Some v => flt FO v t | None => false end.
(** p <= threshold; decoders/mavlink_decoder.py:206. *)
Definition at_most (t : F) (x : option F) : bool := match x with Some v => fle FO v t | None => false end.
(** p == value; decoders/mavlink_decoder.py:206. *)
Definition equals (t : F) (x : option F) : bool := match x with Some v => feq FO v t | None => false end.

(** [idx for idx, vfp in enumerate(valid_field_p) if test(vfp[1])]; mavlink_decoder.py:178-179.  A field without model has no vfp[1]. *)
Definition fields_where (test : option F -> bool) (vf : list (option (string * F * F))) : res (list nat) :=
  do! l <- map_res (fun e : option (string * F * F) => match e with Some (_, v, _) => Ok (test (Some v)) | None => Err TypeError end) vf in
  Ok (flatnonzero l).

(** The two factors; mavlink_decoder.py:181-190. *)
Definition factor_of (factor : F) (size : Z) : F :=
  if rc_learning c then fadd FO (fmul FO (fsub FO factor (fz FO 1)) (model_confidence FO size (rc_center c) (rc_slope c))) (fz FO 1) else factor.

(** [modified_llr[:len(mask)][mask] *= factor]; mavlink_decoder.py:201-202. *)
Definition scale_where (mask : list bool) (factor : F) (l : list F) : res (list F) :=
  if Nat.leb (length mask) (length l)
  then Ok (map (fun mx : bool * F => if fst mx then fmul FO (snd mx) factor else snd mx) (combine mask l) ++ skipn (length mask) l)
  else Err IndexError.

(** The rectification; mavlink_decoder.py:191-202, combined_decoder.py:165-175. *)
Definition scale_plain (good bad : list bool) (valid_factor invalid_factor : F) (obs : list F) : res (list bool * list bool * list F) :=
  do! l <- scale_where good valid_factor obs in do! l <- scale_where bad invalid_factor l in Ok (good, bad, l).

(** Which positions are forced, given the probability and the deviation of each; mavlink_decoder.py:206, combined_decoder.py:179. *)
Definition forced_wrong (vb sd : list (option F)) : list nat :=
  flatnonzero (map (fun xy => (at_most (fz FO 0) (fst xy) && equals (fz FO 0) (snd xy))%bool) (combine vb sd)).

(** Forcing; mavlink_decoder.py:207-211, combined_decoder.py:180-184. *)
Definition force (m : buffer_model FO) (s : structure) (valid_factor : F) (forced : list nat) (obs l : list F) : res (buffer_model FO * list F) :=
  match forced with
  | [] => Ok (m, l)
  | _ =>
      do! (m, bits) <- bitwise_model_mean FO f32_pack m (map Z.of_nat forced) (Nat.div (length obs) 8) s in
      do! mx <- pymax FO (map (fabs FO) obs) in
      do! l <- put l forced (map (fun b : bool => fmul FO (fmul FO (fz FO (if b then -1 else 1)) mx) (if flt FO valid_factor (fz FO 1) then fz FO 1 else valid_factor)) bits) in
      Ok (m, l)
  end.

(** [np.where(valid == 1)[0]]. See mavlink_decoder.py:215-227; combined_decoder.py:188-200. *)
Definition ones (valid : list Z) : list nat := flatnonzero (map (Z.eqb 1) valid).

(** Reinforcement of the messages found; mavlink_decoder.py:215-227, combined_decoder.py:188-200. *)
Definition confirm (valid_factor : F) (obs l : list F) : res (list F * list Z) :=
  do! b <- info_bytes (hard FO obs) in
  do! (_, valid, found) <- segment_buffer parser b in
  match found with
  | _ :: _ =>
      do! xs <- take obs (ones valid) in
      do! l <- put l (ones valid) (map (fun x => fmul FO (fmul FO x (fz FO 2)) valid_factor) xs) in Ok (l, valid)
  | [] =>
      do! b <- info_bytes (hard FO l) in
      do! (_, valid, found) <- segment_buffer parser b in
      match found with
      | _ :: _ => do! xs <- take l (ones valid) in do! l <- put l (ones valid) (map (fun x => fmul FO x (fz FO 2)) xs) in Ok (l, valid)
      | [] => Ok (l, valid)
      end
  end.

(** np.pad(valid, (0, n - len(valid))).astype(bool): numpy refuses a negative padding; decoders/mavlink_decoder.py:230. *)
Definition pad_valid (valid : list Z) (n : nat) : res (list bool) :=
  if Nat.leb (length valid) n then Ok (map (fun x => negb (Z.eqb x 0)) valid ++ repeat false (n - length valid)) else Err ValueError.

(** model_prediction, for the structure of the cluster; mavlink_decoder.py:161-230, combined_decoder.py:134-203.  [scale] and [choose] are the
    rectification and the choice of the forced positions, which differ in the unified decoder. *)
Definition rectify (scale : list bool -> list bool -> F -> F -> list F -> res (list bool * list bool * list F)) (choose : list (option F) -> list (option F) -> list nat)
  (m : buffer_model FO) (st : option structure) (obs : list F) : res (buffer_model FO * prediction) :=
  match st with
  | None => Ok (m, Pred obs [] [] [] [] 0 None [])
  | Some s =>
      do! (m, vf, vb, sd) <- predict FO erf m (BBits (map (Z.eqb 1) (hard FO obs))) s in
      let good := map (above (fsub FO (fz FO 1) (rc_valid_thr c))) vb in
      let bad := map (below (rc_invalid_thr c)) vb in
      do! good_fields <- fields_where (above (fsub FO (fz FO 1) (rc_valid_thr c))) vf in
      do! bad_fields <- fields_where (below (rc_invalid_thr c)) vf in
      let valid_factor := factor_of (rc_valid_factor c) (bm_size FO m) in
      let invalid_factor := factor_of (rc_invalid_factor c) (bm_size FO m) in
      do! (good, bad, l) <- scale good bad valid_factor invalid_factor obs in
      let forced := choose vb sd in
      do! (m, l) <- force m s valid_factor forced obs l in
      do! (l, valid) <- confirm valid_factor obs l in
      do! segmented <- pad_valid valid (length l) in
      Ok (m, Pred l good bad good_fields bad_fields (length vf) (Some forced) segmented)
  end.

(** The learning step for the structure and the model, after the LDPC decoder answered; mavlink_decoder.py:140-148,
    combined_decoder.py:288-296.  The structure and the model after the step, also when it raises. *)
Definition learn_fields (m : buffer_model FO) (st : option structure) (ok : bool) (estimate channel_bits : list Z) : option structure * buffer_model FO * res unit :=
  if rc_learning c then
    if ok then
      match (match st with
             | Some s => Ok s
             | None => do! b <- info_bytes estimate in do! (_, _, s) <- segment_buffer parser b in Ok s
             end) with
      | Err e => (st, m, Err e)
      | Ok s => let '(m, r) := add_buffer FO m (BBits (map (Z.eqb 1) estimate)) s in (Some s, m, r)
      end
    else
      match st with
      | None => (st, m, Ok tt)
      | Some s => let '(m, r) := add_buffer FO m (BBits (map (Z.eqb 1) channel_bits)) s in (st, m, r)
      end
  else (st, m, Ok tt).

(** classifier_analysis; mavlink_decoder.py:232-244, combined_decoder.py:205-217.  None is the empty dict; [n] is ldpc_decoder.n.  The fields
    are a set, here the list of its elements. *)
Definition classifier_analysis (st : option structure) (good_fields bad_fields : list nat) (errors : list Z) (n_fields n : nat) : res (option (nat * nat * list Z * list Z)) :=
  match st with
  | None => Ok None
  | Some s =>
      do! damaged <- find_damaged_fields errors s (Nat.div n 8) in
      match damaged with
      | None | Some [] => Ok None
      | Some l =>
          let fields := unique (map (fun nf => Z.of_nat (snd nf)) l) in
          let count := Z.of_nat (length l) in
          let bad_performance := confusion (map Z.of_nat bad_fields) fields (Z.of_nat n_fields - count) in
          let actual_good := filter (fun i => negb (existsb (Z.eqb i) fields)) (map Z.of_nat (seq 0 n_fields)) in
          let good_performance := confusion (map Z.of_nat good_fields) actual_good count in
          Ok (Some (n_fields, length fields, good_performance, bad_performance))
      end
  end.

(** [a[errors] = True] for an array of zeros of length [n]; numpy's negative indices. See mavlink_decoder.py:246-273; combined_decoder.py:219-246. *)
Definition error_mask (n : nat) (errors : list Z) : res (list bool) :=
  fold_res (fun l e => do! _ <- index_z l e in Ok (set_nth l (Z.to_nat (if (e <? 0)%Z then e + Z.of_nat n else e)) true)) errors (repeat false n).

(** forcing_analysis; mavlink_decoder.py:246-273, combined_decoder.py:219-246.  An unknown structure has no .items(); an empty array of
    floats cannot be used as indices. *)
Definition forcing_analysis (m : buffer_model FO) (st : option structure) (forced : option (list nat)) (errors : list Z) (rx : list Z) : res (list Z * list Z * list F) :=
  let n := length rx in
  let negative := (Z.of_nat n - Z.of_nat (length errors))%Z in
  let idx := match forced with Some l => l | None => [] end in
  let bits_confusion := confusion (map Z.of_nat idx) errors negative in
  match st with
  | None => Err AttributeError
  | Some s =>
      do! (_, model_bits) <- bitwise_model_mean FO f32_pack m (map Z.of_nat idx) (Nat.div n 8) s in
      match forced with
      | None => Err IndexError
      | Some l =>
          do! received <- take rx l in
          let changed := map (fun br : bool * Z => negb (Z.eqb (snd br) (if fst br then 1 else 0)%Z)) (combine model_bits received) in
          let flipped := map fst (filter snd (combine l changed)) in
          let flipping := confusion (map Z.of_nat flipped) errors negative in
          do! mask <- error_mask n errors in
          do! wrong <- take mask l in
          let tx := map (fun re : Z * bool => if snd re then (1 - fst re)%Z else fst re) (combine received wrong) in
          let bad := length (filter (fun bt : bool * Z => negb (Z.eqb (snd bt) (if fst bt then 1 else 0)%Z)) (combine model_bits tx)) in
          let last := match l with [] => fz FO 0 | _ => fdiv FO (fz FO (Z.of_nat bad)) (fz FO (Z.of_nat (length l))) end in
          Ok (bits_confusion, flipping,
              [fz FO (Z.of_nat (length errors)); fz FO (Z.of_nat (length l)); fz FO (Z.of_nat (length flipped)); fz FO (nth 0 flipping 0%Z); fz FO (nth 1 flipping 0%Z); last])
      end
  end.
End Rectify.
Arguments Pred {FO}.
Arguments RectConf {FO}.
Arguments pr_llr {FO}.
Arguments pr_good {FO}.
Arguments pr_bad {FO}.
Arguments pr_good_fields {FO}.
Arguments pr_bad_fields {FO}.
Arguments pr_fields {FO}.
Arguments pr_forced {FO}.
Arguments pr_segmented {FO}.
Arguments rc_learning {FO}.
Arguments rc_valid_thr {FO}.
Arguments rc_invalid_thr {FO}.
Arguments rc_valid_factor {FO}.
Arguments rc_invalid_factor {FO}.
Arguments rc_center {FO}.
Arguments rc_slope {FO}.
