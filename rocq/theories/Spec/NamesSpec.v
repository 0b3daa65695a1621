(** Specification of C114: which names the files may read unbound, and with which options. *)
From Coq Require Import String ZArith NArith List Bool.
From Verif Require Import Model.Names Model.NamesTable.
Import ListNotations.
Local Open Scope string_scope.
Local Open Scope list_scope.

(** Nothing fails, and no loop is over nothing. *)
Definition calm (l : luck) : Prop := Forall (fun b => b = false) (fails l) /\ Forall (fun n => 1 <= n) (turns l).

(** The run stops at a read of the name x, which is not bound. *)
Definition reads_unbound (opts : string -> value) (f : file) (l : luck) (x : string) : Prop :=
  exists i, run_file opts f l = Unbound i /\ nth_error (f_vars f) (N.to_nat i) = Some x.

(** Conditions on options. *)
Fixpoint one_of (o : string) (v : value) (vs : list value) : cond := match vs with [] => Is o v | w :: vs => Or (Is o v) (one_of o w vs) end.
Definition And (c d : cond) : cond := Not (Or (Not c) (Not d)).
Definition clusters_known : cond := one_of "n_clusters" (VInt 1) [VInt 2; VInt 3].
Definition type_known : cond := one_of "msg_type" (VInt 0) [VInt 1; VInt 2; VInt 3].

(** A file, a name and the options with which a run of it stops there though nothing fails and no loop is over nothing. *)
Definition option_faults : list (string * string * list cond) :=
  [("runs/Feb_2023/experimental_data_run_feb_23.py", "h", [Is "msg_type" (VInt 3)]);
   ("runs/Feb_2023/experimental_data_run_feb_23.py", "msg_type", [Not type_known]);
   ("runs/Feb_2023/experimental_mavlink_based.py", "h", [Is "msg_type" (VInt 3)]);
   ("runs/Feb_2023/experimental_mavlink_based.py", "msg_type", [Not type_known]);
   ("runs/Feb_2023/experimental_data_unified_decoder.py", "msg_type", [Not type_known]);
   ("runs/HC_eilat_July_2018/simulated_data_classifying_dude_decoder.py", "spec", [Not clusters_known]);
   ("runs/HC_eilat_July_2018/simulated_data_classifying_entropy_decoder.py", "spec", [Not clusters_known]);
   ("runs/HC_eilat_July_2018/simulated_data_mavlink_decoding.py", "data_model", [clusters_known; Truthy "cluster"; Truthy "learn"]);
   ("scripts/classifier_analysis.py", "spec", [Not clusters_known])].

(** A file, a name and the options with which a run of it stops there after a failure which was caught or a loop over nothing. *)
Definition other_faults : list (string * string * list cond) :=
  [("runs/HC_eilat_July_2018/simulated_data_combined_decoder.py", "binary_data", [clusters_known]);
   ("runs/HC_eilat_July_2018/simulated_data_mavlink_decoding.py", "binary_data", [clusters_known; Not (Truthy "cluster")]);
   ("runs/HC_eilat_July_2018/simulated_data_entropy_bitwise_decoder_weighted_model_averaged.py", "timestamp", []);
   ("runs/clsutering_analysis/clustering_analysis.py", "path", []);
   ("scripts/classifier_analysis.py", "binary_data", [clusters_known])].

(** The names methods and functions may read unbound as far as what the conditions there have in common is left out (encode_data.i, say, is read after a
    loop over range(len // k) which is reached for len > k only). *)
Definition library_faults : list (string * list string) :=
  [("decoders/classifiying_decoder.py", map (append "ClassifyingEntropyDecoder.decode_buffer.") ["estimate"; "llr"; "vnode_validity"; "iterations"; "syndrome"; "decode_success"]);
   ("decoders/mavlink_decoder.py", map (append "MavlinkRectifyingDecoder.decode_buffer.")
      ["decode_success"; "bad_fields_idx"; "forced_bits"; "label"; "segmented_bits"; "n_fields"; "vnode_validity"; "estimate"; "syndrome"; "good_fields_idx"]);
   ("decoders/turbo.py", map (append "TurboDecoder.decode_buffer.") ["decode_success2"; "estimate2"; "err2"; "llr2"]);
   ("inference/clustering.py", ["BufferClassifier.merge_clusters.pair"; "BufferClassifier.classify.closest"]);
   ("runs/HC_eilat_July_2018/ecncoding_data.py", ["encode_data.i"])].
(** Those of them which need no failure. *)
Definition library_calm_faults : list (string * list string) :=
  [("decoders/classifiying_decoder.py", map (append "ClassifyingEntropyDecoder.decode_buffer.") ["estimate"; "llr"; "vnode_validity"; "iterations"; "syndrome"; "decode_success"]);
   ("decoders/turbo.py", ["TurboDecoder.decode_buffer.err2"]);
   ("inference/clustering.py", ["BufferClassifier.merge_clusters.pair"; "BufferClassifier.classify.closest"])].

Definition listed (opts : string -> value) (t : list (string * string * list cond)) (file name : string) : Prop :=
  exists cs, In (file, name, cs) t /\ forall c, In c cs -> test opts c = Some true.
Definition listed_in (t : list (string * list string)) (file name : string) : Prop := exists xs, In (file, xs) t /\ In name xs.

(** A file and the options with which it does not get to its end. *)
Definition no_end : list (string * cond) :=
  [("runs/Feb_2023/experimental_data_run_feb_23.py", Not (one_of "msg_type" (VInt 0) [VInt 1; VInt 2]));
   ("runs/Feb_2023/experimental_mavlink_based.py", Not (one_of "msg_type" (VInt 0) [VInt 1; VInt 2]));
   ("runs/Feb_2023/experimental_data_unified_decoder.py", Not type_known);
   ("runs/HC_eilat_July_2018/classifying_entropy_decoder_over_awgn_channel.py", Or (Not clusters_known) (Not (one_of "snr_scale" (VStr "db") [VStr "linear"])));
   ("runs/HC_eilat_July_2018/simulated_data_classifying_dude_decoder.py", Not clusters_known);
   ("runs/HC_eilat_July_2018/simulated_data_classifying_entropy_decoder.py", Or (Not clusters_known) (Not (one_of "dec_type" (VStr "BP") [VStr "MS"; VStr "BF"])));
   ("runs/HC_eilat_July_2018/simulated_data_combined_decoder.py", Not clusters_known);
   ("runs/HC_eilat_July_2018/simulated_data_mavlink_decoding.py", Or (Not clusters_known) (And (Truthy "cluster") (Truthy "learn")));
   ("scripts/classifier_analysis.py", Not clusters_known);
   ("scripts/train_estimator.py", Not clusters_known)].
