(** Notions used to state the properties of the combined decoders. *)
From Coq Require Import List ZArith NArith Reals Bool.
From Verif.Model Require Import Py Float Segmentation StatModels DecoderBase Rectify MavlinkDecoder CombinedDecoder.
From Verif.Spec Require Import RealOps Bytes Info Cluster Stats EmleSpec DecoderSpec WeightedSpec ClassSpec FlipSpec RectifySpec MavDecSpec.
Import ListNotations.

(** A word after a model of probabilities [ps] gave its opinion: where it is sure of a bit the weighted and limited log ratio is added, unless
    no sure bit has a position other than 0. *)
Definition advised (idx : list nat) (thr : R) (ps : list R) (weight limit : R) (word sum : list R) : Prop :=
  shifted idx (fun j => structural thr ps j /\ (0 < weight)%R /\ exists k, structural thr ps k /\ nth k idx 0 <> 0)
          (fun j => limited limit (weight * log_ratio (nth j ps 0))%R) word sum.

(** The entropy model of a cluster of a decoder: buffers of the right length, as many as the window allows, and probabilities for all model
    bits (those of the buffers stored when it last learned without raising), or none. *)
Definition sound (c : co_conf Rops) (m : entropy_model Rops) : Prop :=
  Forall (bits_of_length (co_length c)) (em_data m) /\ em_data m = kept (co_window c) (em_data m) /\ exists ps, holds m ps /\ (ps = [] \/ length ps = co_length c) /\ Forall (fun p => (0 <= p <= 1)%R) ps.

(** Decoders whose model bits are as many as they should be, each within a word of [n] bits. *)
Definition fitting (c : co_conf Rops) (n : nat) : Prop :=
  1 <= co_length c /\ length (md_idx (co_md c)) = co_length c /\ NoDup (md_idx (co_md c)) /\ Forall (fun i => i < n) (md_idx (co_md c)).

(** Proper states of a decoder: one entropy model for each cluster. *)
Definition co_well (c : co_conf Rops) (s : co_state Rops) : Prop :=
  well Rops (co_md c) (co_fields s) /\ length (co_entropies s) = md_clusters (co_md c) /\ Forall (sound c) (co_entropies s).

(** The model [m] stores one more buffer of [n] bits and becomes [m']: both bit values occur among the stored bits, and [m'] knows the
    shares of ones, corrected for the channel. *)
Definition taught_one (window : option Z) (n : nat) (flip : R) (m : entropy_model Rops) (bits : list Z) (m' : entropy_model Rops) : Prop :=
  let data := kept window (em_data m ++ [bits]) in
  length bits = n /\ mixed data /\ em_data m' = data /\ knows m' (map (fun i => unflipped flip (share data 1 i)) (seq 0 n)).

(** When debugging with known error positions both analyses must succeed. *)
Definition analysed (pack : R -> res N) (c : co_conf Rops) (st : option structure) (m : buffer_model Rops) (p : prediction Rops) (bits : list Z) (errors : option (list Z)) : Prop :=
  forall e, errors = Some e -> md_debug (co_md c) = true ->
    (exists ca, classifier_analysis st (pr_good_fields p) (pr_bad_fields p) e (pr_fields p) (md_n (co_md c)) = Ok ca) /\
    (exists fa, forcing_analysis Rops pack m st (pr_forced p) e bits = Ok fa).

(** Every answer of the LDPC decoder is a word of [n] bits. *)
Definition answers_bits {X} (n : nat) (ldpc : list R -> res (list Z * list R * bool * Z * X)) : Prop :=
  forall w a, ldpc w = Ok a -> bits_of_length n (an_estimate (FO := Rops) a).

(** A labelled call: the rectified word [input] is completed with the opinion of the entropy model of the label and decoded; the field
    statistics and the entropy model learn. *)
Definition labelled {X} pack erf text info (c : co_conf Rops) (lesson : list Z -> list Z) (input : entropy_model Rops -> option structure -> list R -> res (buffer_model Rops * prediction Rops))
  (ldpc : list R -> res (list Z * list R * bool * Z * X)) (s : co_state Rops) (word : list R) (errs : option (list Z)) (label : nat) (a : list Z * list R * bool * Z * X) (s' : co_state Rops) : Prop :=
  exists st m1 p em ps mx w st' adds em',
    nth_error (md_structs (co_fields s)) label = Some st /\ nth_error (co_entropies s) label = Some em /\
    input em st word = Ok (m1, p) /\ analysed pack c st m1 p (map sign_bit word) errs /\
    holds em ps /\ largest (map Rabs word) mx /\
    advised (md_idx (co_md c)) (co_threshold c) ps (trust (rc_center (md_rect (co_md c))) (rc_slope (md_rect (co_md c))) (Z.of_nat (length (em_data em)))) (co_clip c * mx)%R (pr_llr p) w /\
    ldpc w = Ok a /\ learned Rops text info (co_md c) st a (map sign_bit word) st' adds /\ takes m1 adds /\
    taught_one (co_window c) (co_length c) (co_bit_flip c) em (lesson (if an_ok (FO := Rops) a then an_estimate (FO := Rops) a else map sign_bit word)) em' /\
    md_structs (co_fields s') = set_nth (md_structs (co_fields s)) label st' /\ md_model (co_fields s') = bm_run Rops pack erf m1 adds /\
    co_entropies s' = set_nth (co_entropies s) label em'.

(** The answers of calls, one after the other: the label of each and what its entropy model was taught. *)
Definition buffers_of {X} (lesson : list Z -> list Z) (v : Z) (words : list (list R)) (outs : list (res (list Z * list R * bool * Z * X * Z))) : list (list Z) :=
  flat_map (fun wo => match snd wo with
                      | Ok (a, label) => if Z.eqb label v then [lesson (if an_ok (FO := Rops) a then an_estimate (FO := Rops) a else map sign_bit (fst wo))] else []
                      | Err _ => []
                      end) (combine words outs).

(** An entropy model after the lessons [h]: it stores the last ones, and knows their corrected shares of ones. *)
Definition after_lessons (window : option Z) (n : nat) (flip : R) (h : list (list Z)) (m : entropy_model Rops) : Prop :=
  let data := kept window h in
  em_data m = data /\ (h = [] -> m = em_new) /\ (h <> [] -> mixed data /\ knows m (map (fun i => unflipped flip (share data 1 i)) (seq 0 n))).

(** ** The unified decoder *)
(** A bit that is set to the model's picture: while learning an impossible one, with a given model any bit whose field never varied. *)
Definition decided (learning : bool) (v d : option R) : Prop := if learning then impossible v d else d = Some 0%R.

(** The weight of a bit whose field has the given plausibility, where the entropy model expects [expected]: implausible bits have a weight
    only if another value than the expected one was received. *)
Definition unified_weight (valid_thr invalid_thr valid invalid : R) (v : option R) (expected received : Z) : R :=
  match v with
  | None => 1%R
  | Some x => ((if Rlt_dec (1 - valid_thr) x then valid else 1) * (if Rlt_dec x invalid_thr then if Z.eq_dec expected received then 1 else invalid else 1))%R
  end.

(** [w] is [obs] with the sure bits of an entropy model of probabilities [ps] weighted, if that model stores more buffers than the centre, and
    the decided bits set to the value of [picture] with the largest magnitude received. *)
Definition unified (c : co_conf Rops) (flip : bool) (stored : nat) (ps : list R) (size : Z) (vb sd : list (option R)) (picture : list bool) (obs w : list R) : Prop :=
  let rc := md_rect (co_md c) in
  let valid := approached rc (rc_valid_factor rc) size in
  let invalid := (approached rc (rc_invalid_factor rc) size * (if flip then -1 else 1))%R in
  length w = length obs /\
  forall p, p < length obs ->
    (decided (rc_learning rc) (nth p vb None) (nth p sd None) ->
       forall pk, peak obs pk -> nth p w 0%R = ((if nth p picture false then -1 else 1) * pk * Rmax valid 1)%R) /\
    (~ decided (rc_learning rc) (nth p vb None) (nth p sd None) ->
       ((rc_center rc < INR stored)%R -> structural (co_threshold c) ps p ->
          nth p w 0%R = (nth p obs 0 * unified_weight (rc_valid_thr rc) (rc_invalid_thr rc) valid invalid (nth p vb None) (rounded (nth p ps 0)) (sign_bit (nth p obs 0)))%R) /\
       (~ ((rc_center rc < INR stored)%R /\ structural (co_threshold c) ps p) -> nth p w 0%R = nth p obs 0%R)).
