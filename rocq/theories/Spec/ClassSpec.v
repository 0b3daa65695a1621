(** Notions used to state the properties of ClassifyingEntropyDecoder. *)
From Coq Require Import List ZArith Reals Bool.
From Verif.Model Require Import Py Float DecoderBase ClassDecoder.
From Verif.Spec Require Import RealOps Info Cluster Stats EmleSpec DecoderSpec WeightedSpec.
Import ListNotations.

(** The answer of a call: estimate, soft output, success, the rest of the LDPC answer, distribution, structural positions, label. *)
Notation cd_answer X := (list Z * list R * bool * X * (list (list R) * nat) * list nat * Z)%type.
Definition label_of {X} (a : cd_answer X) : Z := snd a.
Definition estimate_of {X} (a : cd_answer X) : list Z := let '(e, _, _, _, _, _, _) := a in e.
Definition success_of {X} (a : cd_answer X) : bool := let '(_, _, ok, _, _, _, _) := a in ok.

(** The bits received at the given positions. *)
Definition received (idx : list nat) (word : list R) : list Z := picked (map sign_bit word) idx.
(** What a call teaches the model of its label: the decoded bits if decoding succeeded, else the received ones. *)
Definition lesson {X} (idx : list nat) (word : list R) (a : cd_answer X) : list Z :=
  if success_of a then picked (estimate_of a) idx else received idx word.
(** What the calls of a history labelled [u] teach. *)
Definition lessons {X} (idx : list nat) (u : Z) (words : list (list R)) (outs : list (res (cd_answer X))) : list (list Z) :=
  flat_map (fun wo => match snd wo with Ok a => if Z.eqb (label_of a) u then [lesson idx (fst wo) a] else [] | Err _ => [] end) (combine words outs).

(** A model holds the probabilities [ps]; none before it was taught. *)
Definition holds (m : entropy_model Rops) (ps : list R) : Prop := (ps = [] /\ em_entropy m = []) \/ (ps <> [] /\ knows m ps).

(** The channel word helped by a model of probabilities [ps] with a given weight: where the model is sure of a bit the weighted log ratio is
    added, unless no sure bit has a position other than 0. *)
Definition helped (idx : list nat) (thr : R) (ps : list R) (weight : R) (word sum : list R) : Prop :=
  shifted idx (fun j => structural thr ps j /\ (0 < weight)%R /\ exists k, structural thr ps k /\ nth k idx 0 <> 0)
          (fun j => (weight * log_ratio (nth j ps 0))%R) word sum.
(** The weight of the model of a decoder with the given configuration. *)
Definition model_weight (c : cd_conf Rops) (m : entropy_model Rops) : R :=
  if cd_train Rops c then trust (cd_center Rops c) (cd_slope Rops c) (Z.of_nat (length (em_data m))) else 1%R.

(** A sequence of calls, each with its own LDPC decoder behaviour. *)
Definition cd_history {X} kl (c : cd_conf Rops) (s : cd_state Rops) (calls : list (ldpc_decoder Rops (X := X) * list R))
  : cd_state Rops * list (res (cd_answer X)) :=
  in_turn (fun s call => cd_decode Rops kl c (fst call) s (snd call)) s calls.
