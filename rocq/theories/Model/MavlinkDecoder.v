(** Model of decoders/mavlink_decoder.py: MavlinkRectifyingDecoder. *)
From Coq Require Import List ZArith NArith Bool.
From Verif.Model Require Import Py Float Segmentation StatModels Clustering DecoderBase Rectify.
Import ListNotations.

(** [l[i] = v] with Python's negative indices, for an index that exists. See mavlink_decoder.py:137-149. *)
Definition set_z {A} (l : list A) (i : Z) (v : A) : list A := set_nth l (Z.to_nat (if (i <? 0)%Z then i + Z.of_nat (length l) else i)) v.

Section MavlinkDecoder.
Variable FO : fops.
Notation F := (F FO).
Variable f32_pack : F -> res N.
Variable erf : F -> F.
(** scipy's Kullback-Leibler divergence, used by the classifier. *)
Variable kl : list F -> list F -> F.
Context {D : Type}.
Variable parser : bytes -> res D.
Variable info_bytes : list Z -> res bytes.
(** Syndrome and vnode_validity, which are passed on. *)
Context {X : Type}.
(** The decode method of the LDPC decoder: estimate, soft output, success, number of iterations, the rest. *)
Notation ldpc_answer := (list Z * list F * bool * Z * X)%type.

(** The attributes that never change; mavlink_decoder.py:52-80.  [md_n] is ldpc_decoder.n. *)
Record md_conf := MdConf { md_rect : rect_conf FO; md_idx : list nat; md_clusters : nat; md_cluster : bool; md_debug : bool; md_rounds : nat; md_n : nat }.
(** The attributes that change. See decoders/mavlink_decoder.py:52-80. *)
Record md_state := MdState { md_structs : list (option structure); md_model : buffer_model FO; md_running : Z; md_classifier : classifier }.

(** The constructor; mavlink_decoder.py:30-81.  The classifier (absent without clustering, when it is not used) has the default metrics of
    inference/clustering.py:42-43.  Simplified: classifier_training_size is a number; segmentation_iterations is not negative (a
    negative number acts like 0). *)
Definition md_new (info_idx : list bool) (n model_length : nat) (valid_thr invalid_thr : F) (n_clusters : nat) (valid_factor invalid_factor : F)
  (classifier_training : Z) (cluster : bool) (window : option Z) (data_model : option (buffer_model FO)) (center slope : F) (debug : bool) (rounds : nat)
  : md_conf * md_state :=
  (MdConf (RectConf valid_thr invalid_thr valid_factor invalid_factor center slope (match data_model with None => true | Some _ => false end))
          (model_index' info_idx model_length) n_clusters cluster debug rounds n,
   MdState (repeat None n_clusters) (match data_model with Some m => m | None => bm_init FO [] window end) (-1)
           (classifier_new classifier_training (Z.of_nat n_clusters) CLogLikelihood MHellinger WLinear)).

Variable c : md_conf.

(** set_buffer_structures; mavlink_decoder.py:151-159. *)
Definition md_set_structures (s : md_state) (l : list (option structure)) : md_state * res unit :=
  if Nat.eqb (length l) (md_clusters c) then (MdState l (md_model s) (md_running s) (md_classifier s), Ok tt) else (s, Err ValueError).

(** The label; mavlink_decoder.py:101-110. *)
Definition md_label (s : md_state) (channel_bits : list Z) : md_state * res Z :=
  if Nat.ltb 1 (md_clusters c)
  then if md_cluster c
       then match take channel_bits (md_idx c) with
            | Err e => (s, Err e)
            | Ok bits => let '(k, r) := classify FO kl (md_classifier s) bits in (MdState (md_structs s) (md_model s) (md_running s) k, r)
            end
       else let i := ((md_running s + 1) mod Z.of_nat (md_clusters c))%Z in (MdState (md_structs s) (md_model s) i (md_classifier s), Ok i)
  else (s, Ok 0%Z).

(** decode_and_update_model; mavlink_decoder.py:137-149.  Label -1 addresses the last structure. *)
Definition md_update (ldpc : list F -> res ldpc_answer) (s : md_state) (llr : list F) (label : Z) (channel_bits : list Z) : md_state * res ldpc_answer :=
  match ldpc llr with
  | Err e => (s, Err e)
  | Ok ((((estimate, _), ok), _), _) as answer =>
      if rc_learning (md_rect c) then
        match index_z (md_structs s) label with
        | Err e => (s, Err e)
        | Ok st =>
            let '(st, m, r) := learn_fields FO parser info_bytes (md_rect c) (md_model s) st ok estimate channel_bits in
            (MdState (set_z (md_structs s) label st) m (md_running s) (md_classifier s), do! _ <- r in answer)
        end
      else (s, answer)
  end.

(** model_prediction; mavlink_decoder.py:161-230. *)
Definition md_predict (s : md_state) (obs : list F) (label : Z) : md_state * res (prediction FO) :=
  match (do! st <- index_z (md_structs s) label in
         rectify FO f32_pack erf parser info_bytes (md_rect c) (scale_plain FO) (forced_wrong FO) (md_model s) st obs) with
  | Err e => (s, Err e)
  | Ok (m, p) => (MdState (md_structs s) m (md_running s) (md_classifier s), Ok p)
  end.

(** What a call of decode_buffer returns: the answer of the LDPC decoder (iterations of all rounds), the label, the segmented bits, the good
    and the bad fields, the two analyses (None for an empty dict). *)
Notation md_answer := (ldpc_answer * Z * list bool * list nat * list nat * option (nat * nat * list Z * list Z) * option (list Z * list Z * list F))%type.

(** The loop; mavlink_decoder.py:100-125: the variables it leaves behind, or the answer returned while the classifier is trained. *)
Inductive md_exit := Returned (a : md_answer) | Left (p : prediction FO) (a : ldpc_answer) (label : Z).
(** The loop; decoders/mavlink_decoder.py:100-125. *)
Fixpoint md_loop (ldpc : list F -> res ldpc_answer) (rounds : nat) (channel_llr : list F) (channel_bits : list Z)
  (s : md_state) (input : list F) (all_iterations : Z) (last : option md_exit) : md_state * res md_exit :=
  match rounds with
  | O => (s, match last with Some x => Ok x | None => Err UnboundLocal end)
  | S rounds' =>
      let '(s, lab) := md_label s channel_bits in
      match lab with
      | Err e => (s, Err e)
      | Ok label =>
          if (label <? 0)%Z
          then let '(s, r) := md_update ldpc s channel_llr label channel_bits in
               (s, do! a <- r in Ok (Returned (a, label, [], [], [], None, None)))
          else
            let '(s, p) := md_predict s input label in
            match p with
            | Err e => (s, Err e)
            | Ok p =>
                let '(s, r) := md_update ldpc s (pr_llr p) label channel_bits in
                match r with
                | Err e => (s, Err e)
                | Ok (estimate, soft, ok, iterations, x) =>
                    let total := (all_iterations + iterations)%Z in
                    let out := Left p (estimate, soft, ok, total, x) label in
                    if ok then (s, Ok out) else md_loop ldpc rounds' channel_llr channel_bits s soft total (Some out)
                end
            end
      end
  end.

(** decode_buffer; mavlink_decoder.py:83-135. *)
Definition md_decode (ldpc : list F -> res ldpc_answer) (s : md_state) (channel_llr : list F) (error_idx : list Z) : md_state * res md_answer :=
  let channel_bits := hard FO channel_llr in
  let '(s, r) := md_loop ldpc (md_rounds c) channel_llr channel_bits s channel_llr 0 None in
  match r with
  | Err e => (s, Err e)
  | Ok (Returned a) => (s, Ok a)
  | Ok (Left p a label) =>
      if md_debug c then
        (s, do! st <- index_z (md_structs s) label in
            do! ca <- classifier_analysis st (pr_good_fields p) (pr_bad_fields p) error_idx (pr_fields p) (md_n c) in
            do! fa <- forcing_analysis FO f32_pack (md_model s) st (pr_forced p) error_idx channel_bits in
            Ok (a, label, pr_segmented p, pr_good_fields p, pr_bad_fields p, ca, Some fa))
      else (s, Ok (a, label, pr_segmented p, pr_good_fields p, pr_bad_fields p, None, None))
  end.
End MavlinkDecoder.
Arguments md_rect {FO}.
Arguments md_idx {FO}.
Arguments md_clusters {FO}.
Arguments md_cluster {FO}.
Arguments md_debug {FO}.
Arguments md_rounds {FO}.
Arguments md_n {FO}.
Arguments md_structs {FO}.
Arguments md_model {FO}.
Arguments md_running {FO}.
Arguments md_classifier {FO}.
