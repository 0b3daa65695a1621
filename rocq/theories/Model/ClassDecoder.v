(** Model of decoders/classifiying_decoder.py: ClassifyingEntropyDecoder. *)
From Coq Require Import List ZArith Bool.
From Verif.Model Require Import Py Float InfoTheory Clustering DecoderBase.
Import ListNotations.

Section Classifying.
Variable FO : fops.
Notation F := (F FO).
(** scipy's Kullback-Leibler divergence, used by the classifier. *)
Variable kl : list F -> list F -> F.
(** Number of iterations, syndrome and vnode_validity, which are passed on. *)
Context {X : Type}.

(** The decode methods of the three LDPC decoders of package sim-ldpc: estimate, soft output (first class only), success, the rest.
    The priors of the second one are optional. See decoders/classifiying_decoder.py:81-94, 108-128. *)
Inductive ldpc_decoder :=
| LogSpa (decode : list F -> res (list Z * list F * bool * X))
| Wbf (decode : list F -> option (list F) -> res (list Z * bool * X))
| GalBf (decode : list Z -> res (list Z * bool * X)).

(** The attributes that never change; decoders/classifiying_decoder.py:27-57.  [cd_degree] is the mean of the row sums of the parity check
    matrix. *)
Record cd_conf := CdConf {
  cd_idx : list nat; cd_length : nat; cd_threshold : F; cd_clip : F; cd_window : option Z; cd_center : F; cd_slope : F; cd_flip : F;
  cd_cluster : bool; cd_n : nat; cd_train : bool; cd_method : Z; cd_degree : F
}.
(** The attributes that change: one model per cluster, the classifier, running_idx. See decoders/classifiying_decoder.py:27-57. *)
Record cd_state := CdState { cd_models : list (entropy_model FO); cd_classifier : classifier; cd_running : Z }.

(** The constructor; decoders/classifiying_decoder.py:12-57.  [data_model] is given by its rows and its number of columns.  The
    classifier has the default metrics of inference/clustering.py:42-43. *)
Definition cd_new (info_idx : list bool) (model_length : nat) (threshold clip : F) (classifier_training : Z) (n_clusters : nat)
  (window : option Z) (center slope bit_flip : F) (cluster : Z) (data_model : option (list (list F) * nat)) (method : Z) (degree : F)
  : cd_conf * cd_state :=
  let train := match data_model with None => true | Some _ => false end in
  let model := match data_model with
               | None => em_new
               | Some (rows, cols) => EM [] (firstn model_length rows) cols (map (row_entropy FO 2) (firstn model_length rows))
               end in
  (CdConf (model_index' info_idx model_length) model_length threshold clip window center slope bit_flip (negb (Z.eqb cluster 0)) n_clusters train
          method degree,
   CdState (repeat model n_clusters) (classifier_new classifier_training (Z.of_nat n_clusters) CLogLikelihood MHellinger WLinear) (-1)).

Variable c : cd_conf.

(** The label of a buffer; decoders/classifiying_decoder.py:78-101. *)
Definition cd_label (s : cd_state) (bits : list Z) : cd_state * res Z :=
  if Nat.ltb 1 (cd_n c)
  then if cd_cluster c
       then let '(k, r) := classify FO kl (cd_classifier s) bits in (CdState (cd_models s) k (cd_running s), r)
       else let i := ((cd_running s + 1) mod Z.of_nat (cd_n c))%Z in (CdState (cd_models s) (cd_classifier s) i, Ok i)
  else (s, Ok 0%Z).

(** update_model; decoders/classifiying_decoder.py:138-165, for the model of the cluster. *)
Definition cd_update (m : entropy_model FO) (bits : list Z) : entropy_model FO * res unit :=
  if cd_train c then learn_corrected FO (cd_window c) (cd_length c) (cd_flip c) m bits else (m, Ok tt).

(** model_prediction; decoders/classifiying_decoder.py:167-193, for the model of the cluster. *)
Definition cd_predict (m : entropy_model FO) (size : nat) : res (list F) :=
  let zeros := repeat (fz FO 0) size in
  do! structural <- mask_index (cd_idx c) (low_entropy FO (cd_threshold c) m) in
  if negb (any_index structural) then Ok zeros
  else
    let confidence := if cd_train c then model_confidence FO (Z.of_nat (em_size (em_data m))) (cd_center c) (cd_slope c) else fz FO 1 in
    if flt FO (fz FO 0) confidence
    then do! r <- log_ratios FO m in
         do! r <- mask_index r (low_entropy FO (cd_threshold c) m) in
         add_at FO zeros structural (map (fmul FO confidence) r)
    else Ok zeros.

(** Samples for a bit flipping decoder: floats, or bits. See decoders/classifiying_decoder.py:195-233. *)
Inductive samples := SReal (l : list F) | SBits (l : list Z).

(** np.sign. See decoders/classifiying_decoder.py:195-233. *)
Definition fsign (x : F) : F := if flt FO (fz FO 0) x then fz FO 1 else if flt FO x (fz FO 0) then fz FO (-1) else fz FO 0.
(** [a *= limit / max(abs(a))] when [max(abs(a)) > 0 and max(abs(a)) > limit]; decoders/classifiying_decoder.py:220-223. *)
Definition scale_down (limit : F) (l : list F) : res (list F) :=
  do! mx <- pymax FO (map (fabs FO) l) in
  if (flt FO (fz FO 0) mx && flt FO limit mx)%bool then Ok (map (fun x => fmul FO x (fdiv FO limit mx)) l) else Ok l.

(** _sample_and_priors; decoders/classifiying_decoder.py:195-233.  The parts of method 3 read the model of cluster 0. *)
Definition cd_samples (models : list (entropy_model FO)) (channel model : list F) : res (samples * list F) :=
  do! max_sample <- pymax FO (map (fabs FO) channel) in
  let zeros := map (fun _ => fz FO 0) channel in
  do! mm <- pymax FO (map (fabs FO) model) in
  if flt FO (fz FO 0) mm
  then if Z.eqb (cd_method c) 0
       then let s := if flt FO max_sample mm then zip_with (fun x m => fadd FO x (fdiv FO (fmul FO m max_sample) mm)) channel model
                     else zip_with (fadd FO) channel model in
            do! ms <- pymax FO (map (fabs FO) s) in
            Ok (SReal (map (fun x => fmul FO x (fdiv FO max_sample ms)) s), zeros)
       else
         let coefficient := if Z.eqb (cd_method c) 2
                            then fdiv FO (fsqrt FO (fmean FO (map (fun x => fmul FO x x) channel))) (cd_degree c) else fz FO 1 in
         do! priors <- (if (Z.eqb (cd_method c) 1 || Z.eqb (cd_method c) 2)%bool
                        then do! p <- scale_down max_sample (zip_with (fun x m => fmul FO (fneg FO (fsign (fmul FO x m))) (fabs FO m)) channel model) in
                             scale_down coefficient p
                        else Ok zeros) in
         if Z.eqb (cd_method c) 3
         then let bits := hard FO channel in
              do! m0 <- index models 0 in
              match cd_window c with
              | None => Err TypeError
              | Some w =>
                  if (w <=? Z.of_nat (em_size (em_data m0)))%Z
                  then do! structural <- mask_index (cd_idx c) (low_entropy FO (cd_threshold c) m0) in
                       if any_index structural
                       then do! forced <- take (hard FO model) structural in
                            do! bits <- put bits structural forced in Ok (SBits bits, priors)
                       else Ok (SBits bits, priors)
                  else Ok (SBits bits, priors)
              end
         else Ok (SReal channel, priors)
  else Ok (SReal channel, zeros).

(** Samples as floats, and as bits; decoders/classifiying_decoder.py:122-125. *)
Definition as_floats (s : samples) : list F := match s with SReal l => l | SBits l => map (fz FO) l end.
(** Samples as the bits a Gallager decoder takes; decoders/classifiying_decoder.py:122-125. *)
Definition as_bits (s : samples) : list Z := match s with SReal l => hard FO l | SBits l => l end.

(** The LDPC decoder on the received word alone; decoders/classifiying_decoder.py:82-96. *)
Definition cd_plain (d : ldpc_decoder) (word : list F) : res (list Z * list F * bool * X) :=
  match d with
  | LogSpa f => f word
  | Wbf f => do! (e, ok, x) <- f word None in Ok (e, [], ok, x)
  | GalBf f => do! (e, ok, x) <- f (hard FO word) in Ok (e, [], ok, x)
  end.

(** The LDPC decoder aided by the model of a cluster; decoders/classifiying_decoder.py:108-128. *)
Definition cd_aided (d : ldpc_decoder) (models : list (entropy_model FO)) (m : entropy_model FO) (word : list F) : res (list Z * list F * bool * X) :=
  do! model <- cd_predict m (length word) in
  match d with
  | LogSpa f =>
      do! mx <- pymax FO word in
      let clipping := fmul FO (cd_clip c) mx in
      f (map (fun x => fclip FO x (fneg FO clipping) clipping) (zip_with (fadd FO) word model))
  | Wbf f => do! (s, priors) <- cd_samples models word model in do! (e, ok, x) <- f (as_floats s) (Some priors) in Ok (e, [], ok, x)
  | GalBf f => do! (s, _) <- cd_samples models word model in do! (e, ok, x) <- f (as_bits s) in Ok (e, [], ok, x)
  end.

(** decode_buffer; decoders/classifiying_decoder.py:59-136.  The last three results are the distribution of the cluster (rows and number of
    columns), the structural positions and the label. *)
Definition cd_decode (d : ldpc_decoder) (s : cd_state) (word : list F)
  : cd_state * res (list Z * list F * bool * X * (list (list F) * nat) * list nat * Z) :=
  match take (hard FO word) (cd_idx c) with
  | Err e => (s, Err e)
  | Ok bits =>
      let '(s, lab) := cd_label s bits in
      match lab with
      | Err e => (s, Err e)
      | Ok label =>
          if (label <? 0)%Z
          then (s, do! (e, llr, ok, x) <- cd_plain d word in Ok (e, llr, ok, x, ([], 0), [], label))
          else
            match (do! m <- index (cd_models s) (Z.to_nat label) in
                   do! r <- cd_aided d (cd_models s) m word in
                   do! model_bits <- take (fst (fst (fst r))) (cd_idx c) in Ok (m, r, model_bits)) with
            | Err e => (s, Err e)
            | Ok (m, (e, llr, ok, x), model_bits) =>
                let '(m, u) := cd_update m (if ok then model_bits else bits) in
                (CdState (set_nth (cd_models s) (Z.to_nat label) m) (cd_classifier s) (cd_running s),
                 do! _ <- u in
                 do! structural <- mask_index (cd_idx c) (low_entropy FO (cd_threshold c) m) in
                 Ok (e, llr, ok, x, (em_rows m, em_cols m), structural, label))
            end
      end
  end.
End Classifying.
