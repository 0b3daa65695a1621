(** Model of decoders/combined_decoder.py: CombinedDecoder, and decoders/combined_unified_decoder.py: CombinedUnifiedDecoder.
    The two classes differ in a few lines, which is the field [co_unified]. *)
From Coq Require Import List ZArith NArith Bool.
From Verif.Model Require Import Py Float InfoTheory Segmentation StatModels Clustering DecoderBase Rectify MavlinkDecoder.
Import ListNotations.

Section CombinedDecoder.
Variable FO : fops.
Notation F := (F FO).
Variable f32_pack : F -> res N.
Variable erf : F -> F.
(** scipy's Kullback-Leibler divergence, used by the classifier. *)
Variable kl : list F -> list F -> F.
Context {D : Type}.
Variable parser : bytes -> res D.
Variable info_bytes : list Z -> res bytes.
(** Syndrome and vnode_validity, which decode_buffer drops; here they stay in the answer. *)
Context {X : Type}.
(** The decode method of the LDPC decoder: estimate, soft output, success, number of iterations, the rest. *)
Notation ldpc_answer := (list Z * list F * bool * Z * X)%type.

(** The attributes that never change; combined_decoder.py:38-70, combined_unified_decoder.py:47-81.  Those shared with MavlinkRectifyingDecoder
    are in [co_md] (its number of rounds is not used).  [co_unified] is None for CombinedDecoder, else the flag flip. *)
Record co_conf := CoConf { co_md : md_conf FO; co_length : nat; co_threshold : F; co_clip : F; co_window : option Z; co_bit_flip : F; co_unified : option bool }.
(** The attributes that change: those shared with MavlinkRectifyingDecoder, and entropy_models_data, distributions and models_entropy
    of each cluster. See decoders/combined_decoder.py:38-70. *)
Record co_state := CoState { co_fields : md_state FO; co_entropies : list (entropy_model FO) }.

(** The constructors; combined_decoder.py:28-72, combined_unified_decoder.py:37-82.  Simplified as for MavlinkRectifyingDecoder. *)
Definition co_new (unified : option bool) (info_idx : list bool) (n model_length : nat) (valid_thr invalid_thr : F) (n_clusters : nat) (valid_factor invalid_factor threshold clip : F)
  (classifier_training : Z) (cluster : bool) (window : option Z) (data_model : option (buffer_model FO)) (center slope : F) (debug : bool) (bit_flip : F)
  : co_conf * co_state :=
  let '(c, s) := md_new FO info_idx n model_length valid_thr invalid_thr n_clusters valid_factor invalid_factor classifier_training cluster window data_model center slope debug 1 in
  (CoConf c model_length threshold clip window bit_flip unified, CoState s (repeat em_new n_clusters)).

Variable c : co_conf.

(** set_buffer_structures; combined_decoder.py:124-132, combined_unified_decoder.py:134-142. *)
Definition co_set_structures (s : co_state) (l : list (option structure)) : co_state * res unit :=
  let '(f, r) := md_set_structures FO (co_md c) (co_fields s) l in (CoState f (co_entropies s), r).

(** entropy_model_prediction, for the model of the cluster; combined_decoder.py:74-96, combined_unified_decoder.py:84-106. *)
Definition co_opinion (m : entropy_model FO) : res (option (list F * list nat)) :=
  let low := low_entropy FO (co_threshold c) m in
  do! structural <- mask_index (md_idx (co_md c)) low in
  if any_index structural then
    let confidence := model_confidence FO (Z.of_nat (em_size (em_data m))) (rc_center (md_rect (co_md c))) (rc_slope (md_rect (co_md c))) in
    if flt FO (fz FO 0) confidence then
      do! ratios <- log_ratios FO m in
      do! ratios <- mask_index ratios low in
      Ok (Some (map (fmul FO confidence) ratios, structural))
    else Ok None
  else Ok None.

(** The rectification of the unified decoder; combined_unified_decoder.py:185-199.  np.around rounds halves to even. *)
Definition scale_low (flip : bool) (m : entropy_model FO) (good bad : list bool) (valid_factor invalid_factor : F) (obs : list F) : res (list bool * list bool * list F) :=
  if flt FO (rc_center (md_rect (co_md c))) (fz FO (Z.of_nat (em_size (em_data m)))) then
    let low := low_entropy FO (co_threshold c) m in
    do! good <- broadcast andb (firstn (co_length c) good) low in
    do! l <- scale_where FO good valid_factor obs in
    do! bad <- broadcast andb (firstn (co_length c) bad) low in
    do! p1 <- column (em_rows m) (em_cols m) 1 (fz FO 0) in
    do! r <- map_res (fround FO) p1 in
    do! wrong <- broadcast xorb (map (fun z => negb (Z.eqb z 0)) r) (firstn (co_length c) (map (fun x => flt FO x (fz FO 0)) obs)) in
    do! bad <- broadcast andb wrong bad in
    do! l <- scale_where FO bad (fmul FO invalid_factor (fz FO (if flip then -1 else 1))) l in
    Ok (good, bad, l)
  else Ok (good, bad, obs).

(** The forced positions of the unified decoder; combined_unified_decoder.py:206-209. *)
Definition forced_unified (vb sd : list (option F)) : list nat :=
  if rc_learning (md_rect (co_md c)) then forced_wrong FO vb sd else flatnonzero (map (equals FO (fz FO 0)) sd).

(** mavlink_model_prediction; combined_decoder.py:134-203, combined_unified_decoder.py:144-233. *)
Definition co_predict (s : co_state) (obs : list F) (label : Z) : co_state * res (prediction FO) :=
  let f := co_fields s in
  match (do! st <- index_z (md_structs f) label in
         match co_unified c with
         | None => rectify FO f32_pack erf parser info_bytes (md_rect (co_md c)) (scale_plain FO) (forced_wrong FO) (md_model f) st obs
         | Some flip => rectify FO f32_pack erf parser info_bytes (md_rect (co_md c))
                          (fun good bad vf inf l => do! m <- index_z (co_entropies s) label in scale_low flip m good bad vf inf l) forced_unified (md_model f) st obs
         end) with
  | Err e => (s, Err e)
  | Ok (m, p) => (CoState (MdState FO (md_structs f) m (md_running f) (md_classifier f)) (co_entropies s), Ok p)
  end.

(** What the entropy model learns from a word; combined_decoder.py:297-300, combined_unified_decoder.py:327-330. *)
Definition co_lesson (bits : list Z) : list Z := match co_unified c with None => bits | Some _ => firstn (co_length c) bits end.

(** decode_and_update_model; combined_decoder.py:285-301, combined_unified_decoder.py:315-331. *)
Definition co_update (ldpc : list F -> res ldpc_answer) (s : co_state) (llr : list F) (label : Z) (channel_bits : list Z) : co_state * res ldpc_answer :=
  if (label <? 0)%Z then (s, ldpc llr)
  else
    let '(f, r) := md_update FO parser info_bytes (co_md c) ldpc (co_fields s) llr label channel_bits in
    let s := CoState f (co_entropies s) in
    match r with
    | Err e => (s, Err e)
    | Ok ((((estimate, _), ok), _), _) as answer =>
        match index_z (co_entropies s) label with
        | Err e => (s, Err e)
        | Ok m =>
            let '(m, r) := learn_corrected FO (co_window c) (co_length c) (co_bit_flip c) m (co_lesson (if ok then estimate else channel_bits)) in
            (CoState f (set_z (co_entropies s) label m), do! _ <- r in answer)
        end
    end.

(** Adding the opinion of the entropy model; combined_decoder.py:277-281, combined_unified_decoder.py:307-311. *)
Definition co_add (m : entropy_model FO) (channel_llr input : list F) : res (list F) :=
  do! opinion <- co_opinion m in
  match opinion with
  | None => Ok input
  | Some (ratios, structural) =>
      do! mx <- pymax FO (map (fabs FO) channel_llr) in
      let clipping := fmul FO (co_clip c) mx in
      add_at FO input structural (map (fun x => fclip FO x (fneg FO clipping) clipping) ratios)
  end.

(** The two analyses, made before decoding when debugging; their results are dropped.  combined_decoder.py:272-275,
    combined_unified_decoder.py:302-305. *)
Definition co_analyses (s : co_state) (label : Z) (p : prediction FO) (channel_bits : list Z) (errors : option (list Z)) : res unit :=
  match errors with
  | Some errors =>
      if md_debug (co_md c) then
        do! st <- index_z (md_structs (co_fields s)) label in
        do! _ <- classifier_analysis st (pr_good_fields p) (pr_bad_fields p) errors (pr_fields p) (md_n (co_md c)) in
        do! _ <- forcing_analysis FO f32_pack (md_model (co_fields s)) st (pr_forced p) errors channel_bits in
        Ok tt
      else Ok tt
  | None => Ok tt
  end.

(** decode_buffer; combined_decoder.py:248-283, combined_unified_decoder.py:278-313: the answer and the label.  Simplified: error_idx (always
    given to CombinedDecoder) is an array. *)
Definition co_decode (ldpc : list F -> res ldpc_answer) (s : co_state) (channel_llr : list F) (errors : option (list Z)) : co_state * res (ldpc_answer * Z) :=
  let channel_bits := hard FO channel_llr in
  let '(f, lab) := md_label FO kl (co_md c) (co_fields s) channel_bits in
  let s := CoState f (co_entropies s) in
  match lab with
  | Err e => (s, Err e)
  | Ok label =>
      if (label <? 0)%Z
      then let '(s, r) := co_update ldpc s channel_llr label channel_bits in (s, do! a <- r in Ok (a, label))
      else
        let '(s, p) := co_predict s channel_llr label in
        match p with
        | Err e => (s, Err e)
        | Ok p =>
            match (do! _ <- co_analyses s label p channel_bits errors in do! m <- index_z (co_entropies s) label in co_add m channel_llr (pr_llr p)) with
            | Err e => (s, Err e)
            | Ok input => let '(s, r) := co_update ldpc s input label channel_bits in (s, do! a <- r in Ok (a, label))
            end
        end
  end.
End CombinedDecoder.
Arguments co_md {FO}.
Arguments co_length {FO}.
Arguments co_threshold {FO}.
Arguments co_clip {FO}.
Arguments co_window {FO}.
Arguments co_bit_flip {FO}.
Arguments co_unified {FO}.
Arguments co_fields {FO}.
Arguments co_entropies {FO}.
