(** What the files of the code import and which names they bind, in order.
    Generated by tools/gen_imports.py from the text of the files: all but the tests.  The number before a statement is its line. *)
From Coq Require Import String List.
From Verif Require Import Model.Imports.
Import ListNotations.
Local Open Scope string_scope.
Local Open Scope list_scope.

(** data_generation/__init__.py:1-1. *)
Definition mo_data_generation : modl := {| m_name := "data_generation"; m_parent := None; m_last := "data_generation";
  m_body :=
   [] |}.

(** data_generation/mission_profile.py:1-68. *)
Definition mo_data_generation_mission_profile : modl := {| m_name := "data_generation.mission_profile"; m_parent := Some "data_generation";
      m_last := "mission_profile";
  m_body :=
   [(* 1 *) Import "mavlink_utils.minimal_dialect" "mav";
    (* 2 *) Other ["np"; "rng"; "file"; "mav_obj"; "number_of_messages"; "diving_angle"; "velocity"; "message_interval"; "range_noise_sig";
      "initial_range"; "first_leg_final_range"; "second_leg_final_range"; "third_leg_final_range"; "range_noise"; "pinger_range";
      "azimuth_noise_sig"; "azimuth_noise"; "azimuth"; "hc_mode"; "hc_system_status"; "hc_err"; "chamber_pressure"; "camber_temperature";
      "depth_noise_sig"; "depth_noise"; "depth"; "water_temp_noise"; "water_temp"; "pressure"]] |}.

(** data_generation/random_test_data_generation.py:1-21. *)
Definition mo_data_generation_random_test_data_generation : modl := {| m_name := "data_generation.random_test_data_generation";
      m_parent := Some "data_generation"; m_last := "random_test_data_generation";
  m_body :=
   [(* 1 *) Other ["random"; "bitstring"];
    (* 4 *) From "protocol_meta.protocol_meta" [("dialect_meta", "meta")];
    (* 7 *) Other ["rand_uint8"; "rand_msg"; "rand_bitstring"]] |}.

(** decoders/__init__.py:1-9. *)
Definition mo_decoders : modl := {| m_name := "decoders"; m_parent := None; m_last := "decoders";
  m_body :=
   [(* 1 *) Other [];
    (* 2 *) From "decoders.decoder" [("Decoder", "Decoder"); ("DecoderType", "DecoderType")];
    (* 3 *) From "decoders.mavlink_decoder" [("MavlinkRectifyingDecoder", "MavlinkRectifyingDecoder")];
    (* 4 *) From "decoders.combined_decoder" [("CombinedDecoder", "CombinedDecoder")];
    (* 5 *) From "decoders.classifiying_decoder" [("ClassifyingEntropyDecoder", "ClassifyingEntropyDecoder")];
    (* 6 *) From "decoders.combined_unified_decoder" [("CombinedUnifiedDecoder", "CombinedUnifiedDecoder")];
    (* 7 *) From "decoders.classifying_DUDE_decoder" [("ClassifyingDudeDecoder", "ClassifyingDudeDecoder")];
    (* 8 *) Other ["__all__"]] |}.

(** decoders/classifiying_decoder.py:1-235. *)
Definition mo_decoders_classifiying_decoder : modl := {| m_name := "decoders.classifiying_decoder"; m_parent := Some "decoders";
      m_last := "classifiying_decoder";
  m_body :=
   [(* 1 *) From "decoders" [("Decoder", "Decoder"); ("DecoderType", "DecoderType")];
    (* 2 *) From "inference" [("BufferClassifier", "BufferClassifier")];
    (* 3 *) Other ["LogSpaDecoder"; "WbfDecoder"; "GalBfDecoder"; "NDArray"; "np"; "Optional"];
    (* 7 *) From "utils.custom_exceptions" [("IncorrectBufferLength", "IncorrectBufferLength")];
    (* 8 *) From "utils.information_theory" [("prob", "prob"); ("entropy", "entropy")];
    (* 11 *) Other ["ClassifyingEntropyDecoder"; "__all__"]] |}.

(** decoders/classifying_DUDE_decoder.py:1-131. *)
Definition mo_decoders_classifying_DUDE_decoder : modl := {| m_name := "decoders.classifying_DUDE_decoder"; m_parent := Some "decoders";
      m_last := "classifying_DUDE_decoder";
  m_body :=
   [(* 1 *) From "decoders" [("Decoder", "Decoder"); ("DecoderType", "DecoderType")];
    (* 2 *) From "inference" [("BufferClassifier", "BufferClassifier"); ("OnlineDude", "OnlineDude")];
    (* 3 *) Other ["Sequence"; "LogSpaDecoder"; "NDArray"; "np"; "ClassifyingDudeDecoder"; "__all__"]] |}.

(** decoders/combined_decoder.py:1-301. *)
Definition mo_decoders_combined_decoder : modl := {| m_name := "decoders.combined_decoder"; m_parent := Some "decoders"; m_last := "combined_decoder";
  m_body :=
   [(* 1 *) From "inference" [("BufferSegmentation", "BufferSegmentation"); ("BufferModel", "BufferModel"); ("BufferClassifier", "BufferClassifier")];
    (* 2 *) From "protocol_meta" [("dialect_meta", "meta")];
    (* 3 *) From "decoders" [("Decoder", "Decoder"); ("DecoderType", "DecoderType")];
    (* 4 *) Other ["Sequence"; "LogSpaDecoder"; "NDArray"; "ArrayLike"; "np"; "Any"];
    (* 9 *) From "utils.custom_exceptions" [("IncorrectBufferLength", "IncorrectBufferLength")];
    (* 10 *) From "utils.information_theory" [("prob", "prob"); ("entropy", "entropy")];
    (* 13 *) Other ["confusion"; "CombinedDecoder"]] |}.

(** decoders/combined_unified_decoder.py:1-331. *)
Definition mo_decoders_combined_unified_decoder : modl := {| m_name := "decoders.combined_unified_decoder"; m_parent := Some "decoders";
      m_last := "combined_unified_decoder";
  m_body :=
   [(* 1 *) From "inference" [("BufferSegmentation", "BufferSegmentation"); ("BufferModel", "BufferModel"); ("BufferClassifier", "BufferClassifier")];
    (* 2 *) From "protocol_meta" [("dialect_meta", "meta")];
    (* 3 *) From "decoders" [("Decoder", "Decoder"); ("DecoderType", "DecoderType")];
    (* 4 *) Other ["Sequence"; "LogSpaDecoder"; "NDArray"; "ArrayLike"; "np"; "Any"];
    (* 9 *) From "utils.custom_exceptions" [("IncorrectBufferLength", "IncorrectBufferLength")];
    (* 10 *) From "utils.information_theory" [("prob", "prob"); ("entropy", "entropy")];
    (* 13 *) Other ["confusion"; "CombinedUnifiedDecoder"]] |}.

(** decoders/decoder.py:1-35. *)
Definition mo_decoders_decoder : modl := {| m_name := "decoders.decoder"; m_parent := Some "decoders"; m_last := "decoder";
  m_body :=
   [(* 1 *) Other ["ABC"; "abstractmethod"; "Enum"; "auto"; "NDArray"; "np"; "DecoderType"; "Decoder"]] |}.

(** decoders/entropy_bitwise_decoder.py:1-508. *)
Definition mo_decoders_entropy_bitwise_decoder : modl := {| m_name := "decoders.entropy_bitwise_decoder"; m_parent := Some "decoders";
      m_last := "entropy_bitwise_decoder";
  m_body :=
   [(* 1 *) From "decoders" [("Decoder", "Decoder"); ("DecoderType", "DecoderType")];
    (* 2 *) From "inference" [("BufferSegmentation", "BufferSegmentation"); ("MsgParts", "MsgParts")];
    (* 3 *) From "protocol_meta" [("dialect_meta", "meta")];
    (* 4 *) Other ["Sequence"; "LogSpaDecoder"; "NDArray"; "np"; "Optional"];
    (* 9 *) From "utils.custom_exceptions" [("IncorrectBufferLength", "IncorrectBufferLength")];
    (* 10 *) From "utils.information_theory" [("prob", "prob"); ("entropy", "entropy")];
    (* 13 *) Other ["EntropyBitwiseDecoder"; "EntropyBitwiseFlippingDecoder"; "EntropyBitwiseWeightedDecoder"; "__all__"]] |}.

(** decoders/mavlink_decoder.py:1-273. *)
Definition mo_decoders_mavlink_decoder : modl := {| m_name := "decoders.mavlink_decoder"; m_parent := Some "decoders"; m_last := "mavlink_decoder";
  m_body :=
   [(* 1 *) Other ["Any"];
    (* 3 *) From "decoders" [("Decoder", "Decoder"); ("DecoderType", "DecoderType")];
    (* 4 *) Other ["Sequence"; "LogSpaDecoder"; "NDArray"; "ArrayLike"; "np"];
    (* 8 *) From "inference" [("BufferSegmentation", "BufferSegmentation"); ("BufferModel", "BufferModel"); ("BufferClassifier", "BufferClassifier")];
    (* 9 *) From "protocol_meta" [("dialect_meta", "meta")];
    (* 12 *) Other ["confusion"; "MavlinkRectifyingDecoder"]] |}.

(** decoders/turbo.py:1-57. *)
Definition mo_decoders_turbo : modl := {| m_name := "decoders.turbo"; m_parent := Some "decoders"; m_last := "turbo";
  m_body :=
   [(* 1 *) Other ["np"; "NDArray"];
    (* 3 *) From "decoders" [("Decoder", "Decoder"); ("DecoderType", "DecoderType")];
    (* 4 *) Other ["LogSpaDecoder"; "track_errors"; "TurboDecoder"]] |}.

(** runs/clsutering_analysis/functions.py:1-43. *)
Definition mo_functions : modl := {| m_name := "functions"; m_parent := None; m_last := "functions";
  m_body :=
   [(* 1 *) Other ["np"; "relabel"]] |}.

(** inference/__init__.py:1-9. *)
Definition mo_inference : modl := {| m_name := "inference"; m_parent := None; m_last := "inference";
  m_body :=
   [(* 1 *) Other [];
    (* 2 *) From "inference.statistical_models" [("FieldModel", "FieldModel"); ("BufferModel", "BufferModel")];
    (* 3 *) From "inference.buffer_segmentation" [("MsgParts", "MsgParts"); ("BufferStructure", "BufferStructure");
      ("BufferSegmentation", "BufferSegmentation")];
    (* 4 *) From "inference.clustering" [("Cluster", "Cluster"); ("BufferClassifier", "BufferClassifier")];
    (* 5 *) From "inference.bmm" [("BMM", "BMM")];
    (* 6 *) From "inference.dude" [("OnlineDude", "OnlineDude"); ("DUDE", "DUDE")];
    (* 7 *) From "inference.entropy_mle" [("EMLE", "EMLE")];
    (* 8 *) Other ["__all__"]] |}.

(** inference/bmm.py:1-107. *)
Definition mo_inference_bmm : modl := {| m_name := "inference.bmm"; m_parent := Some "inference"; m_last := "bmm";
  m_body :=
   [(* 1 *) Other ["logsumexp"; "np"; "BMM"; "__all__"]] |}.

(** inference/buffer_segmentation.py:1-214. *)
Definition mo_inference_buffer_segmentation : modl := {| m_name := "inference.buffer_segmentation"; m_parent := Some "inference";
      m_last := "buffer_segmentation";
  m_body :=
   [(* 1 *) Other ["contextlib"; "Enum"];
    (* 4 *) From "protocol_meta" [("dialect_meta", "meta")];
    (* 5 *) From "protocol_meta" [("FrameHeader", "FrameHeader"); ("is_valid_header", "is_valid_header"); ("MAVError", "MAVError")];
    (* 6 *) Other ["Callable"; "Union"; "Any"; "array"; "np"; "npt"; "MutableSequence"];
    (* 11 *) From "inference.statistical_models" [("BufferModel", "BufferModel")];
    (* 14 *) Other ["MsgParts"; "BufferStructure"; "BufferSegmentation"]] |}.

(** inference/clustering.py:1-124. *)
Definition mo_inference_clustering : modl := {| m_name := "inference.clustering"; m_parent := Some "inference"; m_last := "clustering";
  m_body :=
   [(* 1 *) Other ["combinations"; "Bits"; "NDArray"; "np"];
    (* 5 *) From "utils.information_theory" [("prob", "prob"); ("hellinger", "hellinger")];
    (* 6 *) From "utils.bit_operations" [("hamming_distance", "hamming_distance")];
    (* 7 *) Other ["entropy"; "Cluster"; "BufferClassifier"; "__all__"]] |}.

(** inference/dude.py:1-238. *)
Definition mo_inference_dude : modl := {| m_name := "inference.dude"; m_parent := Some "inference"; m_last := "dude";
  m_body :=
   [(* 1 *) Other ["np"; "OnlineDude"; "DUDE"; "__all__"]] |}.

(** inference/entropy_mle.py:1-112. *)
Definition mo_inference_entropy_mle : modl := {| m_name := "inference.entropy_mle"; m_parent := Some "inference"; m_last := "entropy_mle";
  m_body :=
   [(* 1 *) Other ["np"; "NDArray"; "Callable"];
    (* 4 *) From "utils.information_theory" [("entropy", "entropy")];
    (* 7 *) Other ["bsc_llr"; "EMLE"; "__all__"]] |}.

(** inference/statistical_models.py:1-380. *)
Definition mo_inference_statistical_models : modl := {| m_name := "inference.statistical_models"; m_parent := Some "inference";
      m_last := "statistical_models";
  m_body :=
   [(* 1 *) Other ["Any"; "ndarray"; "norm"; "erf"];
    (* 5 *) From "protocol_meta" [("field_lengths", "field_lengths"); ("dialect_meta", "dialect_meta"); ("format_strings", "format_strings");
      ("inv_format_strings", "inv_format_strings")];
    (* 6 *) Other ["json"; "NDArray"; "np"];
    (* 9 *) From "mavlink_utils.HC_dialect" [("mavlink_map", "mavlink_map")];
    (* 10 *) Other ["Sequence"; "struct"; "num2bits"; "FieldModel"; "BufferModel"; "__all__"]] |}.

(** mavlink_utils/__init__.py:1-1. *)
Definition mo_mavlink_utils : modl := {| m_name := "mavlink_utils"; m_parent := None; m_last := "mavlink_utils";
  m_body :=
   [] |}.

(** mavlink_utils/HC_dialect.py:1-14255. *)
Definition mo_mavlink_utils_HC_dialect : modl := {| m_name := "mavlink_utils.HC_dialect"; m_parent := Some "mavlink_utils"; m_last := "HC_dialect";
  m_body :=
   [(* 1 *) Other ["mavlink_map"; "MAVError"]] |}.

(** mavlink_utils/minimal_dialect.py:1-2869. *)
Definition mo_mavlink_utils_minimal_dialect : modl := {| m_name := "mavlink_utils.minimal_dialect"; m_parent := Some "mavlink_utils";
      m_last := "minimal_dialect";
  m_body :=
   [(* 1 *) Other ["mavlink_map"; "MAVError"]] |}.

(** mavlink_utils/utils.py:1-27. *)
Definition mo_mavlink_utils_utils : modl := {| m_name := "mavlink_utils.utils"; m_parent := Some "mavlink_utils"; m_last := "utils";
  m_body :=
   [(* 1 *) Other ["mavgen"; "mavparse"; "dialect_creator"; "path"; "getcwd"; "xml_defs_path"; "output_path"]] |}.

(** protocol_meta/__init__.py:1-6. *)
Definition mo_protocol_meta : modl := {| m_name := "protocol_meta"; m_parent := None; m_last := "protocol_meta";
  m_body :=
   [(* 1 *) Other [];
    (* 2 *) From "protocol_meta.protocol_meta" [("MAVError", "MAVError"); ("field_lengths", "field_lengths"); ("format_strings", "format_strings");
      ("inv_format_strings", "inv_format_strings")];
    (* 3 *) From "protocol_meta.protocol_meta" [("dialect_meta", "dialect_meta")];
    (* 4 *) From "protocol_meta.msg_header" [("hamming_distance_2_valid_header", "hamming_distance_2_valid_header"); ("FrameHeader", "FrameHeader");
      ("is_valid_header", "is_valid_header"); ("NonExistentMsdId", "NonExistentMsdId")];
    (* 5 *) Other ["__all__"]] |}.

(** protocol_meta/msg_header.py:1-138. *)
Definition mo_protocol_meta_msg_header : modl := {| m_name := "protocol_meta.msg_header"; m_parent := Some "protocol_meta"; m_last := "msg_header";
  m_body :=
   [(* 1 *) Other ["annotations"];
    (* 3 *) From "protocol_meta" [("dialect_meta", "meta")];
    (* 4 *) Other ["bitstring"];
    (* 5 *) From "utils.custom_exceptions" [("NonUint8", "NonUint8")];
    (* 6 *) From "utils.bit_operations" [("hamming_distance", "hamming_distance")];
    (* 7 *) Other ["Optional"; "HeaderLength"; "NonExistentMsdId"; "is_valid_header"; "hamming_distance_2_valid_header"; "FrameHeader"]] |}.

(** protocol_meta/protocol_meta.py:1-64. *)
Definition mo_protocol_meta_protocol_meta : modl := {| m_name := "protocol_meta.protocol_meta"; m_parent := Some "protocol_meta";
      m_last := "protocol_meta";
  m_body :=
   [(* 1 *) Other [];
    (* 2 *) Import "mavlink_utils.HC_dialect" "dialect";
    (* 3 *) From "mavlink_utils.HC_dialect" [("MAVError", "MAVError")];
    (* 4 *) Other ["Callable"; "MutableSequence"; "STX"; "field_lengths"; "format_strings"; "inv_format_strings"; "msg_ids"; "header_length";
      "crc_length"; "protocol_overhead"; "MavlinkDialectMeta"; "mav_obj"; "dialect_meta"; "__all__"]] |}.

(** utils/__init__.py:1-2. *)
Definition mo_utils : modl := {| m_name := "utils"; m_parent := None; m_last := "utils";
  m_body :=
   [(* 1 *) Other [];
    (* 2 *) From "utils.common_logging" [("setup_logger", "setup_logger")]] |}.

(** utils/bit_operations.py:1-36. *)
Definition mo_utils_bit_operations : modl := {| m_name := "utils.bit_operations"; m_parent := Some "utils"; m_last := "bit_operations";
  m_body :=
   [(* 1 *) Other ["bitstring"; "Union"; "NDArray"; "np"; "hamming_distance"; "__all__"]] |}.

(** utils/common_logging.py:1-27. *)
Definition mo_utils_common_logging : modl := {| m_name := "utils.common_logging"; m_parent := Some "utils"; m_last := "common_logging";
  m_body :=
   [(* 1 *) Other ["logging"; "sys"; "setup_logger"; "__all__"]] |}.

(** utils/custom_exceptions.py:1-24. *)
Definition mo_utils_custom_exceptions : modl := {| m_name := "utils.custom_exceptions"; m_parent := Some "utils"; m_last := "custom_exceptions";
  m_body :=
   [(* 1 *) Other ["Any"; "NonUint8"; "IncorrectBufferLength"; "UnsupportedDtype"; "__all__"]] |}.

(** utils/information_theory.py:1-108. *)
Definition mo_utils_information_theory : modl := {| m_name := "utils.information_theory"; m_parent := Some "utils"; m_last := "information_theory";
  m_body :=
   [(* 1 *) Other ["np"; "scipy_ent"; "Any"; "Optional"];
    (* 5 *) From "utils.custom_exceptions" [("UnsupportedDtype", "UnsupportedDtype")];
    (* 6 *) Other ["npt"; "prob_with_alphabet"; "prob"; "entropy"; "typical_set_cardinality"; "hellinger"; "__all__"]] |}.

(** utils/performance_analysis.py:1-45. *)
Definition mo_utils_performance_analysis : modl := {| m_name := "utils.performance_analysis"; m_parent := Some "utils";
      m_last := "performance_analysis";
  m_body :=
   [(* 1 *) Other ["np"; "confusion_matrix"; "stats"; "ber"; "__all__"]] |}.

(** utils/random_sources.py:1-56. *)
Definition mo_utils_random_sources : modl := {| m_name := "utils.random_sources"; m_parent := Some "utils"; m_last := "random_sources";
  m_body :=
   [(* 1 *) Other ["np"; "generate_markov_samples"; "__all__"]] |}.

(** The modules of the code; decoders/__init__.py:1. *)
Definition modules : list modl :=
  [mo_data_generation;
   mo_data_generation_mission_profile;
   mo_data_generation_random_test_data_generation;
   mo_decoders;
   mo_decoders_classifiying_decoder;
   mo_decoders_classifying_DUDE_decoder;
   mo_decoders_combined_decoder;
   mo_decoders_combined_unified_decoder;
   mo_decoders_decoder;
   mo_decoders_entropy_bitwise_decoder;
   mo_decoders_mavlink_decoder;
   mo_decoders_turbo;
   mo_functions;
   mo_inference;
   mo_inference_bmm;
   mo_inference_buffer_segmentation;
   mo_inference_clustering;
   mo_inference_dude;
   mo_inference_entropy_mle;
   mo_inference_statistical_models;
   mo_mavlink_utils;
   mo_mavlink_utils_HC_dialect;
   mo_mavlink_utils_minimal_dialect;
   mo_mavlink_utils_utils;
   mo_protocol_meta;
   mo_protocol_meta_msg_header;
   mo_protocol_meta_protocol_meta;
   mo_utils;
   mo_utils_bit_operations;
   mo_utils_common_logging;
   mo_utils_custom_exceptions;
   mo_utils_information_theory;
   mo_utils_performance_analysis;
   mo_utils_random_sources].

(** analysis/MLE_noisy_Bernoulli.py:1-46. *)
Definition sc_analysis_MLE_noisy_Bernoulli : string * list istmt := ("analysis/MLE_noisy_Bernoulli.py",
   [(* 1 *) Other ["bernoulli"; "np"; "pd"; "rng"; "N_MLE"; "p1_vec"; "f_vec"; "results"; "p1"; "f"; "x_n"; "noise"; "l"; "_"; "x"; "w"; "v_hat";
      "ignorant_error"; "p1_hat"; "ml_error"; "data"; "px"; "mse_data"; "fig"]]).

(** runs/Feb_2022/data/ship_log_reader.py:1-39. *)
Definition sc_runs_Feb_2022_data_ship_log_reader : string * list istmt := ("runs/Feb_2022/data/ship_log_reader.py",
   [(* 1 *) Other ["glob"; "os"; "datetime"; "break_down"; "folder_name"; "rx_files"; "acquisitions"; "f_name"; "f"; "log_file"; "temp_acquisitions";
      "acquisitions_14"; "acquisitions_15"; "acquisitions_16"]]).

(** runs/Feb_2022/experimental_data_run.py:1-174. *)
Definition sc_runs_Feb_2022_experimental_data_run : string * list istmt := ("runs/Feb_2022/experimental_data_run.py",
   [(* 1 *) Other ["pickle"; "np"; "AList"; "LogSpaDecoder"];
    (* 5 *) From "decoders" [("ClassifyingEntropyDecoder", "ClassifyingEntropyDecoder")];
    (* 6 *) From "utils.bit_operations" [("hamming_distance", "hamming_distance")];
    (* 7 *) Other ["Any"; "argparse"; "datetime"; "os"; "savemat"; "lzma"; "pd"];
    (* 14 *) From "utils" [("setup_logger", "setup_logger")];
    (* 17 *) Other ["parser"; "args"; "ldpc_iterations"; "thr"; "clipping_factor"; "tx"; "rx"; "temp"; "h"; "number_of_messages"; "n"; "k";
      "window_len"; "model_length"; "timestamp"; "path"; "logger"; "cmd"; "f"; "ldpc_decoder"; "entropy_decoder"; "decoded_ldpc"; "decoded_entropy";
      "errors"; "tx_idx"; "d"; "ldpc_success"; "hamm"; "entropy_success"; "good_tx"; "bad_tx"; "input_ber"; "info_errors"; "parity_errors"; "zipped";
      "results"; "decoded_entropy_df"; "decoded_ldpc_df"; "summary_txt"]]).

(** runs/Feb_2022/experimental_data_unified_decoder.py:1-202. *)
Definition sc_runs_Feb_2022_experimental_data_unified_decoder : string * list istmt := ("runs/Feb_2022/experimental_data_unified_decoder.py",
   [(* 1 *) Other ["pickle"; "AList"; "LogSpaDecoder"];
    (* 4 *) From "decoders" [("CombinedUnifiedDecoder", "CombinedUnifiedDecoder")];
    (* 5 *) From "inference" [("BufferSegmentation", "BufferSegmentation"); ("BufferModel", "BufferModel")];
    (* 6 *) From "protocol_meta" [("dialect_meta", "meta")];
    (* 7 *) From "utils.bit_operations" [("hamming_distance", "hamming_distance")];
    (* 8 *) Other ["Any"; "argparse"; "datetime"; "os"; "savemat"; "lzma"; "pd"];
    (* 15 *) From "utils" [("setup_logger", "setup_logger")];
    (* 16 *) Other ["np"; "parser"; "args"; "ldpc_iterations"; "thr"; "clipping_factor"; "tx"; "rx"; "temp"; "k"; "bs"; "_"; "buffer_structure"; "h";
      "number_of_messages"; "n"; "window_len"; "data_model"; "model_length"; "timestamp"; "path"; "logger"; "cmd"; "f"; "ldpc_decoder"; "nr_decoder";
      "decoded_ldpc"; "decoded_nr"; "errors"; "tx_idx"; "d"; "ldpc_success"; "hamm"; "errors_idx"; "nr_success"; "good_tx"; "bad_tx"; "input_ber";
      "info_errors"; "parity_errors"; "zipped"; "results"; "decoded_nr_df"; "decoded_ldpc_df"; "summary_txt"]]).

(** runs/Feb_2022/experimental_mavlink_based.py:1-188. *)
Definition sc_runs_Feb_2022_experimental_mavlink_based : string * list istmt := ("runs/Feb_2022/experimental_mavlink_based.py",
   [(* 1 *) Other ["pickle"; "np"; "AList"; "LogSpaDecoder"];
    (* 5 *) From "decoders" [("MavlinkRectifyingDecoder", "MavlinkRectifyingDecoder")];
    (* 6 *) From "inference" [("BufferSegmentation", "BufferSegmentation"); ("BufferModel", "BufferModel")];
    (* 7 *) From "protocol_meta" [("dialect_meta", "meta")];
    (* 8 *) From "utils.bit_operations" [("hamming_distance", "hamming_distance")];
    (* 9 *) Other ["Any"; "argparse"; "datetime"; "os"; "savemat"; "lzma"; "pd"];
    (* 16 *) From "utils" [("setup_logger", "setup_logger")];
    (* 18 *) Other ["parser"; "args"; "ldpc_iterations"; "tx"; "rx"; "temp"; "k"; "bs"; "_"; "buffer_structure"; "data_model"; "h";
      "number_of_messages"; "n"; "window_len"; "timestamp"; "path"; "logger"; "cmd"; "f"; "model_length"; "ldpc_decoder"; "rectify_decoder";
      "decoded_ldpc"; "decoded_rect"; "errors"; "tx_idx"; "d"; "ldpc_success"; "hamm"; "mavlink_success"; "good_tx"; "bad_tx"; "input_ber";
      "info_errors"; "parity_errors"; "zipped"; "results"; "decoded_rect_df"; "decoded_ldpc_df"; "summary_txt"]]).

(** runs/Feb_2022/simulation_rafael_code.py:1-240. *)
Definition sc_runs_Feb_2022_simulation_rafael_code : string * list istmt := ("runs/Feb_2022/simulation_rafael_code.py",
   [(* 1 *) Other ["pickle"; "Bits"; "BitArray"; "np"; "bsc_llr"; "LogSpaDecoder"; "AList"];
    (* 6 *) From "decoders" [("ClassifyingEntropyDecoder", "ClassifyingEntropyDecoder")];
    (* 7 *) From "utils.bit_operations" [("hamming_distance", "hamming_distance")];
    (* 8 *) Other ["Any"; "plt"; "argparse"; "datetime"; "os"; "Pool"; "savemat"; "lzma"; "pd"];
    (* 17 *) From "utils" [("setup_logger", "setup_logger")];
    (* 18 *) Other ["shutil"; "parser"; "args"; "ldpc_iterations"; "thr"; "clipping_factor"; "processes"; "hc_tx"; "encoded"; "n"; "window_len";
      "rng"; "bit_flip_p"; "_"; "k"; "word_len"; "model_length"; "logger"; "cmd"; "h"; "simulation_step"; "timestamp"; "path"; "f"; "pool";
      "results"; "raw_ber"; "ldpc_ber"; "entropy_ber"; "fig"; "figure"; "ldpc_buffer_success_rate"; "entropy_buffer_success_rate"; "summary";
      "step"]]).

(** runs/Feb_2022/train_buffer_model.py:1-19. *)
Definition sc_runs_Feb_2022_train_buffer_model : string * list istmt := ("runs/Feb_2022/train_buffer_model.py",
   [(* 1 *) From "inference" [("BufferSegmentation", "BufferSegmentation"); ("BufferModel", "BufferModel")];
    (* 2 *) From "protocol_meta" [("dialect_meta", "meta")];
    (* 3 *) Other ["np"; "tx"; "temp"; "bs"; "buffer_model"; "parts"; "validity"; "structure"; "bad_idx"; "tx_idx"]]).

(** runs/Feb_2023/experimental_data_run_feb_23.py:1-201. *)
Definition sc_runs_Feb_2023_experimental_data_run_feb_23 : string * list istmt := ("runs/Feb_2023/experimental_data_run_feb_23.py",
   [(* 1 *) Other ["pickle"; "np"; "AList"; "LogSpaDecoder"];
    (* 5 *) From "decoders" [("ClassifyingEntropyDecoder", "ClassifyingEntropyDecoder")];
    (* 6 *) From "utils.bit_operations" [("hamming_distance", "hamming_distance")];
    (* 7 *) Other ["Any"; "argparse"; "datetime"; "os"; "savemat"; "lzma"; "pd"];
    (* 14 *) From "utils" [("setup_logger", "setup_logger")];
    (* 16 *) Other ["parser"; "args"; "ldpc_iterations"; "thr"; "clipping_factor"; "msg_type"; "h"; "k"; "n_clusters"; "tx"; "rx"; "temp";
      "number_of_messages"; "n"; "window_len"; "model_length"; "timestamp"; "path"; "logger"; "cmd"; "f"; "ldpc_decoder"; "entropy_decoder";
      "decoded_ldpc"; "decoded_entropy"; "errors"; "tx_idx"; "d"; "ldpc_success"; "hamm"; "entropy_success"; "good_tx"; "bad_tx"; "input_ber";
      "info_errors"; "parity_errors"; "zipped"; "results"; "decoded_entropy_df"; "decoded_ldpc_df"; "summary_txt"]]).

(** runs/Feb_2023/experimental_data_unified_decoder.py:1-233. *)
Definition sc_runs_Feb_2023_experimental_data_unified_decoder : string * list istmt := ("runs/Feb_2023/experimental_data_unified_decoder.py",
   [(* 1 *) Other ["pickle"; "AList"; "LogSpaDecoder"];
    (* 4 *) From "decoders" [("CombinedUnifiedDecoder", "CombinedUnifiedDecoder")];
    (* 5 *) From "inference" [("BufferSegmentation", "BufferSegmentation"); ("BufferModel", "BufferModel")];
    (* 6 *) From "protocol_meta" [("dialect_meta", "meta")];
    (* 7 *) From "utils.bit_operations" [("hamming_distance", "hamming_distance")];
    (* 8 *) Other ["Any"; "argparse"; "datetime"; "os"; "savemat"; "lzma"; "pd"];
    (* 15 *) From "utils" [("setup_logger", "setup_logger")];
    (* 16 *) Other ["np"; "parser"; "args"; "ldpc_iterations"; "thr"; "clipping_factor"; "msg_type"; "h"; "k"; "n_clusters"; "tx"; "rx"; "temp";
      "bs"; "_"; "buffer_structure"; "number_of_messages"; "n"; "window_len"; "data_model"; "model_length"; "timestamp"; "path"; "logger"; "cmd";
      "f"; "ldpc_decoder"; "nr_decoder"; "decoded_ldpc"; "decoded_nr"; "errors"; "tx_idx"; "d"; "ldpc_success"; "hamm"; "errors_idx"; "nr_success";
      "good_tx"; "bad_tx"; "input_ber"; "info_errors"; "parity_errors"; "zipped"; "results"; "decoded_nr_df"; "decoded_ldpc_df"; "summary_txt"]]).

(** runs/Feb_2023/experimental_mavlink_based.py:1-211. *)
Definition sc_runs_Feb_2023_experimental_mavlink_based : string * list istmt := ("runs/Feb_2023/experimental_mavlink_based.py",
   [(* 1 *) Other ["pickle"; "np"; "AList"; "LogSpaDecoder"];
    (* 5 *) From "decoders" [("MavlinkRectifyingDecoder", "MavlinkRectifyingDecoder")];
    (* 6 *) From "inference" [("BufferSegmentation", "BufferSegmentation"); ("BufferModel", "BufferModel")];
    (* 7 *) From "protocol_meta" [("dialect_meta", "meta")];
    (* 8 *) From "utils.bit_operations" [("hamming_distance", "hamming_distance")];
    (* 9 *) Other ["Any"; "argparse"; "datetime"; "os"; "savemat"; "lzma"; "pd"];
    (* 16 *) From "utils" [("setup_logger", "setup_logger")];
    (* 18 *) Other ["parser"; "args"; "ldpc_iterations"; "msg_type"; "h"; "k"; "n_clusters"; "tx"; "rx"; "temp"; "bs"; "_"; "buffer_structure";
      "data_model"; "number_of_messages"; "n"; "window_len"; "model_length"; "timestamp"; "path"; "logger"; "cmd"; "f"; "ldpc_decoder";
      "rectify_decoder"; "decoded_ldpc"; "decoded_rect"; "errors"; "tx_idx"; "d"; "ldpc_success"; "hamm"; "mavlink_success"; "good_tx"; "bad_tx";
      "input_ber"; "info_errors"; "parity_errors"; "zipped"; "results"; "decoded_rect_df"; "decoded_ldpc_df"; "summary_txt"]]).

(** runs/Feb_2023/train_buffer_model.py:1-19. *)
Definition sc_runs_Feb_2023_train_buffer_model : string * list istmt := ("runs/Feb_2023/train_buffer_model.py",
   [(* 1 *) From "inference" [("BufferSegmentation", "BufferSegmentation"); ("BufferModel", "BufferModel")];
    (* 2 *) From "protocol_meta" [("dialect_meta", "meta")];
    (* 3 *) Other ["np"; "msg_type"; "tx"; "temp"; "bs"; "buffer_model"; "parts"; "validity"; "structure"; "bad_idx"; "tx_idx"]]).

(** runs/HC_eilat_July_2018/analysis/analysis.py:1-45. *)
Definition sc_runs_HC_eilat_July_2018_analysis_analysis : string * list istmt := ("runs/HC_eilat_July_2018/analysis/analysis.py",
   [(* 1 *) Other ["os"; "pickle"];
    (* 3 *) From "utils.information_theory" [("prob", "prob"); ("entropy", "entropy")];
    (* 4 *) Other ["np"; "plt"; "results_path"; "summary_results"; "dirs"; "dir"; "files"; "file"; "f"; "encoded"; "p"; "buffer_ent"; "figure";
      "bit_dist"; "bit_ent"]]).

(** runs/HC_eilat_July_2018/analysis/analyze_resutls.py:1-35. *)
Definition sc_runs_HC_eilat_July_2018_analysis_analyze_resutls : string * list istmt := ("runs/HC_eilat_July_2018/analysis/analyze_resutls.py",
   [(* 1 *) Other ["pickle"; "plt"; "pd"; "sns"; "result_file"; "summary_file"; "f"; "results"; "summary"; "ber_df"; "ber_df_m"; "decoding_df";
      "decoding_df_m"]]).

(** runs/HC_eilat_July_2018/analysis/bit_flips_distribution.py:1-25. *)
Definition sc_runs_HC_eilat_July_2018_analysis_bit_flips_distribution : string * list istmt := ("runs/HC_eilat_July_2018/analysis/bit_flips_distribution.py",
   [(* 1 *) Other ["np"; "plt"; "sns"; "pd"; "n"; "n_bits"; "flip_p"; "rng"; "error_idx"; "df"]]).

(** runs/HC_eilat_July_2018/analysis/bsc_capacity.py:1-14. *)
Definition sc_runs_HC_eilat_July_2018_analysis_bsc_capacity : string * list istmt := ("runs/HC_eilat_July_2018/analysis/bsc_capacity.py",
   [(* 1 *) Other ["np"; "plt"; "c"; "f"; "capacity"; "r"; "nr_capacity"]]).

(** runs/HC_eilat_July_2018/analysis/entropy_with_flips.py:1-9. *)
Definition sc_runs_HC_eilat_July_2018_analysis_entropy_with_flips : string * list istmt := ("runs/HC_eilat_July_2018/analysis/entropy_with_flips.py",
   [(* 1 *) Other ["np"; "p0"; "p1"; "p_flip"; "ent_real"; "p0_measured"; "p1_measured"; "ent_measured"]]).

(** runs/HC_eilat_July_2018/classifying_entropy_decoder_over_awgn_channel.py:1-319. *)
Definition sc_runs_HC_eilat_July_2018_classifying_entropy_decoder_over_awgn_channel : string * list istmt := ("runs/HC_eilat_July_2018/classifying_entropy_decoder_over_awgn_channel.py",
   [(* 1 *) Other ["pickle"; "Bits"; "np"; "EncoderWiFi"; "WiFiSpecCode"; "DecoderWiFi"];
    (* 7 *) From "decoders" [("ClassifyingEntropyDecoder", "ClassifyingEntropyDecoder")];
    (* 8 *) From "utils.bit_operations" [("hamming_distance", "hamming_distance")];
    (* 9 *) Other ["Any"; "plt"; "argparse"; "datetime"; "os"; "Pool"; "savemat"; "lzma"; "pd"];
    (* 18 *) From "utils" [("setup_logger", "setup_logger")];
    (* 19 *) Other ["erfc"; "shutil"; "awgn_llr"; "parser"; "args"; "ldpc_iterations"; "thr"; "clipping_factor"; "processes"; "f"; "hc_tx";
      "hc_bin_data"; "n"; "window_len"; "rng"; "spec"; "encoder"; "encoded"; "binary_data"; "pad_len"; "padded"; "_"; "model_length"; "logger";
      "simulation_step"; "timestamp"; "path"; "cmd"; "snr_list"; "pool"; "results"; "x_label"; "ldpc_ber"; "entropy_ber"; "fig"; "figure";
      "ldpc_buffer_success_rate"; "entropy_buffer_success_rate"; "summary"; "step"]]).

(** runs/HC_eilat_July_2018/data/msg_creator.py:1-126. *)
Definition sc_runs_HC_eilat_July_2018_data_msg_creator : string * list istmt := ("runs/HC_eilat_July_2018/data/msg_creator.py",
   [(* 1 *) Other ["scipy"];
    (* 3 *) Import "mavlink_utils.HC_dialect" "dialect";
    (* 4 *) Other ["pickle"; "np"; "savemat"; "mat"; "mav"; "global_position_int"; "global_position_int_time"; "global_position_int_lat";
      "global_position_int_lon"; "global_position_int_alt"; "global_position_int_relative_alt"; "global_position_int_bottom_distance";
      "global_position_int_depth"; "global_position_int_vx"; "global_position_int_vy"; "global_position_int_vz"; "global_position_int_hdg";
      "initial_time"; "final_time"; "delays"; "time_vecs"; "pinger_data"; "pinger_time"; "pinger_range"; "pinger_azimuth"; "attitude";
      "attitude_time"; "attitude_roll"; "attitude_pitch"; "attitude_yaw"; "attitude_roll_speed"; "attitude_pitch_speed"; "attitude_yaw_speed"; "svs";
      "svs_time"; "svs_speed"; "svs_depth"; "svs_reserved"; "svs_temp"; "svs_status"; "chamber_status"; "chamber_status_time"; "chamber_status_temp";
      "chamber_status_hum"; "chamber_status_num"; "chamber_status_press"; "all_msgs"; "delay"; "time_vec"; "msgs"; "t"; "d"; "buffer"; "idx"; "pos";
      "ping"; "att"; "sv"; "chamber"; "file_b"; "two_sec_bin"; "five_sec_bin"; "ten_sec_bin"; "twenty_sec_bin"; "thirty_sec_bin"]]).

(** runs/HC_eilat_July_2018/ecncoding_data.py:1-34. *)
Definition sc_runs_HC_eilat_July_2018_ecncoding_data : string * list istmt := ("runs/HC_eilat_July_2018/ecncoding_data.py",
   [(* 1 *) Other ["pickle"; "Bits"; "EncoderWiFi"; "random"; "encode_data"; "WiFiSpecCode"; "enc"; "data"]]).

(** runs/HC_eilat_July_2018/simluated_data_entropy_bf_decoders.py:1-355. *)
Definition sc_runs_HC_eilat_July_2018_simluated_data_entropy_bf_decoders : string * list istmt := ("runs/HC_eilat_July_2018/simluated_data_entropy_bf_decoders.py",
   [(* 1 *) Other ["pickle"; "Bits"; "np"; "EncoderWiFi"; "WiFiSpecCode"; "DecoderWiFi"; "WbfDecoder"; "WbfVariant"; "awgn_llr"];
    (* 7 *) From "decoders" [("ClassifyingEntropyDecoder", "ClassifyingEntropyDecoder")];
    (* 8 *) From "utils.bit_operations" [("hamming_distance", "hamming_distance")];
    (* 9 *) Other ["Any"; "plt"; "argparse"; "datetime"; "os"; "Pool"; "savemat"; "lzma"; "pd"];
    (* 18 *) From "utils" [("setup_logger", "setup_logger")];
    (* 19 *) Other ["shutil"; "erfc"; "parser"; "args"; "ldpc_iterations"; "thr"; "processes"; "f"; "hc_tx"; "hc_bin_data"; "n"; "window_len"; "rng";
      "spec"; "encoder"; "h"; "encoded"; "binary_data"; "pad_len"; "padded"; "_"; "model_length"; "logger"; "simulation_step"; "timestamp"; "path";
      "cmd"; "snr_db"; "snr_linear"; "pool"; "results"; "raw_ber"; "ms_ber"; "wbf_decoder_ber"; "mwbf_decoder_ber"; "mwbf_no_loop_decoder_ber";
      "entropy_wbf_decoder_ber"; "entropy_mwbf_decoder_ber"; "entropy_mwbf_no_loop_decoder_ber"; "fig"; "figure"; "ms_buffer_success_rate";
      "wbf_buffer_success_rate"; "mwbf_buffer_success_rate"; "mwbf_no_loop_buffer_success_rate"; "entropy_wbf_buffer_success_rate";
      "entropy_mwbf_buffer_success_rate"; "entropy_mwbf_no_loop_buffer_success_rate"; "summary"; "step"]]).

(** runs/HC_eilat_July_2018/simulate_gallager_bf.py:1-261. *)
Definition sc_runs_HC_eilat_July_2018_simulate_gallager_bf : string * list istmt := ("runs/HC_eilat_July_2018/simulate_gallager_bf.py",
   [(* 1 *) Other ["pickle"; "Bits"; "np"; "EncoderWiFi"; "WiFiSpecCode"; "GalBfDecoder"; "bsc_llr"];
    (* 7 *) From "decoders" [("ClassifyingEntropyDecoder", "ClassifyingEntropyDecoder")];
    (* 8 *) From "utils.bit_operations" [("hamming_distance", "hamming_distance")];
    (* 9 *) Other ["Any"; "plt"; "argparse"; "datetime"; "os"; "Pool"; "savemat"; "lzma"; "pd"];
    (* 18 *) From "utils" [("setup_logger", "setup_logger")];
    (* 19 *) Other ["shutil"; "parser"; "args"; "ldpc_iterations"; "thr"; "f"; "hc_tx"; "hc_bin_data"; "n"; "window_len"; "rng"; "spec"; "encoder";
      "h"; "encoded"; "binary_data"; "pad_len"; "padded"; "_"; "model_length"; "logger"; "simulation_step"; "timestamp"; "path"; "cmd"; "bit_flip_p";
      "results"; "raw_ber"; "galbf_decoder_ber"; "galbf_entropy_decoder_ber"; "galbf_entropy_forcing_decoder_ber"; "fig"; "figure";
      "galbf_buffer_success_rate"; "galbf_entropy_buffer_success_rate"; "galbf_entropy_forcing_buffer_success_rate"; "summary"; "step"]]).

(** runs/HC_eilat_July_2018/simulated_data_classifying_dude_decoder.py:1-281. *)
Definition sc_runs_HC_eilat_July_2018_simulated_data_classifying_dude_decoder : string * list istmt := ("runs/HC_eilat_July_2018/simulated_data_classifying_dude_decoder.py",
   [(* 1 *) Other ["pickle"; "Bits"; "BitArray"; "np"; "EncoderWiFi"; "WiFiSpecCode"; "bsc_llr"; "DecoderWiFi"];
    (* 7 *) From "decoders" [("ClassifyingDudeDecoder", "ClassifyingDudeDecoder")];
    (* 8 *) From "utils.bit_operations" [("hamming_distance", "hamming_distance")];
    (* 9 *) Other ["Any"; "plt"; "argparse"; "datetime"; "os"; "Pool"; "savemat"; "lzma"; "pd"];
    (* 18 *) From "utils" [("setup_logger", "setup_logger")];
    (* 19 *) Other ["shutil"; "parser"; "args"; "ldpc_iterations"; "thr"; "clipping_factor"; "processes"; "f"; "hc_tx"; "hc_bin_data"; "n"; "rng";
      "bit_flip_p"; "spec"; "encoder"; "encoded"; "binary_data"; "pad_len"; "padded"; "_"; "model_length"; "logger"; "simulation_step"; "timestamp";
      "path"; "cmd"; "pool"; "results"; "raw_ber"; "ldpc_ber"; "dude_ber"; "fig"; "figure"; "ldpc_buffer_success_rate"; "dude_buffer_success_rate";
      "summary"; "step"]]).

(** runs/HC_eilat_July_2018/simulated_data_classifying_entropy_decoder.py:1-344. *)
Definition sc_runs_HC_eilat_July_2018_simulated_data_classifying_entropy_decoder : string * list istmt := ("runs/HC_eilat_July_2018/simulated_data_classifying_entropy_decoder.py",
   [(* 1 *) Other ["pickle"; "Bits"; "np"; "EncoderWiFi"; "WiFiSpecCode"; "bsc_llr"; "DecoderWiFi"; "WbfDecoder"; "WbfVariant"; "awgn_llr"];
    (* 7 *) From "decoders" [("ClassifyingEntropyDecoder", "ClassifyingEntropyDecoder")];
    (* 8 *) From "utils.bit_operations" [("hamming_distance", "hamming_distance")];
    (* 9 *) Other ["Any"; "plt"; "argparse"; "datetime"; "os"; "Pool"; "savemat"; "lzma"; "pd"];
    (* 18 *) From "utils" [("setup_logger", "setup_logger")];
    (* 19 *) Other ["shutil"; "erfc"; "parser"; "args"; "ldpc_iterations"; "thr"; "clipping_factor"; "processes"; "f"; "hc_tx"; "hc_bin_data"; "n";
      "window_len"; "rng"; "spec"; "encoder"; "h"; "encoded"; "binary_data"; "pad_len"; "padded"; "_"; "model_length"; "logger"; "simulation_step";
      "timestamp"; "path"; "cmd"; "bit_flip_p"; "map_arg"; "snr_db"; "snr_linear"; "pool"; "results"; "raw_ber"; "ldpc_ber"; "entropy_ber"; "fig";
      "figure"; "ldpc_buffer_success_rate"; "entropy_buffer_success_rate"; "summary"; "step"]]).

(** runs/HC_eilat_July_2018/simulated_data_combined_decoder.py:1-363. *)
Definition sc_runs_HC_eilat_July_2018_simulated_data_combined_decoder : string * list istmt := ("runs/HC_eilat_July_2018/simulated_data_combined_decoder.py",
   [(* 1 *) Other ["pickle"; "Bits"; "BitArray"; "np"; "EncoderWiFi"; "WiFiSpecCode"; "bsc_llr"; "DecoderWiFi"];
    (* 7 *) From "decoders" [("CombinedDecoder", "CombinedDecoder"); ("ClassifyingEntropyDecoder", "ClassifyingEntropyDecoder");
      ("MavlinkRectifyingDecoder", "MavlinkRectifyingDecoder"); ("CombinedUnifiedDecoder", "CombinedUnifiedDecoder")];
    (* 8 *) From "inference" [("BufferSegmentation", "BufferSegmentation"); ("BufferModel", "BufferModel")];
    (* 9 *) From "protocol_meta" [("dialect_meta", "meta")];
    (* 10 *) From "utils.bit_operations" [("hamming_distance", "hamming_distance")];
    (* 11 *) Other ["Any"; "plt"; "argparse"; "datetime"; "os"; "Pool"; "savemat"; "lzma"; "pd"];
    (* 20 *) From "utils" [("setup_logger", "setup_logger")];
    (* 21 *) Other ["shutil"; "parser"; "args"; "ldpc_iterations"; "thr"; "clipping_factor"; "processes"; "f"; "hc_tx"; "hc_bin_data"; "n";
      "window_len"; "rng"; "bit_flip_p"; "spec"; "encoder"; "encoded"; "binary_data"; "pad_len"; "padded"; "_"; "data_model"; "bs";
      "buffer_structure"; "buffer_structures"; "model_length"; "logger"; "simulation_step"; "timestamp"; "path"; "cmd"; "pool"; "results"; "raw_ber";
      "ldpc_ber"; "nr_ber"; "entropy_ber"; "rectify_ber"; "fig"; "figure"; "ldpc_buffer_success_rate"; "nr_buffer_success_rate";
      "entropy_buffer_success_rate"; "rectify_buffer_success_rate"; "summary"; "step"]]).

(** runs/HC_eilat_July_2018/simulated_data_entropy_bitwise_decoder_predefined_model.py:1-204. *)
Definition sc_runs_HC_eilat_July_2018_simulated_data_entropy_bitwise_decoder_predefined_model : string * list istmt := ("runs/HC_eilat_July_2018/simulated_data_entropy_bitwise_decoder_predefined_model.py",
   [(* 1 *) Other ["pickle"; "Bits"; "BitArray"; "np"; "EncoderWiFi"; "WiFiSpecCode"; "bsc_llr"; "DecoderWiFi"];
    (* 7 *) From "decoders" [("EntropyBitwiseDecoder", "EntropyBitwiseDecoder"); ("EntropyBitwiseFlippingDecoder", "EntropyBitwiseFlippingDecoder")];
    (* 8 *) From "inference" [("BufferSegmentation", "BufferSegmentation")];
    (* 9 *) From "protocol_meta" [("dialect_meta", "meta")];
    (* 10 *) Other ["random"];
    (* 11 *) From "utils.bit_operations" [("hamming_distance", "hamming_distance")];
    (* 12 *) Other ["Any"; "plt"; "argparse"; "datetime"; "os"; "Pool"; "NDArray"; "parser"; "args"; "ldpc_iterations"; "thr"; "clipping_factor";
      "encoder"; "bs"; "f"; "hc_tx"; "five_sec_bin"; "n"; "rng"; "bit_flip_p"; "encoded"; "binary_data"; "pad_len"; "padded"; "_"; "dist_model";
      "model_length"; "cmd"; "simulation_step"; "pool"; "results"; "timestamp"; "path"; "raw_ber"; "ldpc_ber"; "entropy_ber"; "flipping_ber"; "fig";
      "figure"; "ldpc_buffer_success_rate"; "entropy_buffer_success_rate"; "flipping_buffer_success_rate"; "summary"]]).

(** runs/HC_eilat_July_2018/simulated_data_entropy_bitwise_decoder_script.py:1-195. *)
Definition sc_runs_HC_eilat_July_2018_simulated_data_entropy_bitwise_decoder_script : string * list istmt := ("runs/HC_eilat_July_2018/simulated_data_entropy_bitwise_decoder_script.py",
   [(* 1 *) Other ["pickle"; "Bits"; "BitArray"; "np"; "EncoderWiFi"; "WiFiSpecCode"; "bsc_llr"; "DecoderWiFi"];
    (* 7 *) From "decoders" [("EntropyBitwiseDecoder", "EntropyBitwiseDecoder"); ("EntropyBitwiseFlippingDecoder", "EntropyBitwiseFlippingDecoder")];
    (* 8 *) From "inference" [("BufferSegmentation", "BufferSegmentation")];
    (* 9 *) From "protocol_meta" [("dialect_meta", "meta")];
    (* 10 *) Other ["random"];
    (* 11 *) From "utils.bit_operations" [("hamming_distance", "hamming_distance")];
    (* 12 *) Other ["Any"; "plt"; "argparse"; "datetime"; "os"; "parser"; "args"; "ldpc_iterations"; "thr"; "clipping_factor"; "encoder"; "bs"; "f";
      "hc_tx"; "five_sec_bin"; "n"; "window_len"; "rng"; "bit_flip_p"; "results"; "encoded"; "binary_data"; "pad_len"; "padded"; "model_length";
      "cmd"; "p"; "channel"; "ldpc_decoder"; "entropy_decoder"; "entropy_flipping_decoder"; "no_errors"; "rx"; "decoded_ldpc"; "decoded_entropy";
      "decoded_flipping"; "tx_idx"; "corrupted"; "error_idx"; "idx"; "channel_llr"; "d"; "b"; "parts"; "v"; "s"; "timestamp"; "path"; "raw_ber";
      "ldpc_ber"; "entropy_ber"; "flipping_ber"; "fig"; "figure"; "ldpc_buffer_success_rate"; "entropy_buffer_success_rate";
      "flipping_buffer_success_rate"; "summary"]]).

(** runs/HC_eilat_July_2018/simulated_data_entropy_bitwise_decoder_script_mp.py:1-202. *)
Definition sc_runs_HC_eilat_July_2018_simulated_data_entropy_bitwise_decoder_script_mp : string * list istmt := ("runs/HC_eilat_July_2018/simulated_data_entropy_bitwise_decoder_script_mp.py",
   [(* 1 *) Other ["pickle"; "Bits"; "BitArray"; "np"; "EncoderWiFi"; "WiFiSpecCode"; "bsc_llr"; "DecoderWiFi"];
    (* 7 *) From "decoders" [("EntropyBitwiseDecoder", "EntropyBitwiseDecoder"); ("EntropyBitwiseFlippingDecoder", "EntropyBitwiseFlippingDecoder")];
    (* 8 *) From "inference" [("BufferSegmentation", "BufferSegmentation")];
    (* 9 *) From "protocol_meta" [("dialect_meta", "meta")];
    (* 10 *) Other ["random"];
    (* 11 *) From "utils.bit_operations" [("hamming_distance", "hamming_distance")];
    (* 12 *) Other ["Any"; "plt"; "argparse"; "datetime"; "os"; "Pool"; "parser"; "args"; "ldpc_iterations"; "thr"; "clipping_factor"; "encoder";
      "bs"; "f"; "hc_tx"; "five_sec_bin"; "n"; "window_len"; "rng"; "bit_flip_p"; "encoded"; "binary_data"; "pad_len"; "padded"; "model_length";
      "cmd"; "simulation_step"; "pool"; "results"; "timestamp"; "path"; "raw_ber"; "ldpc_ber"; "entropy_ber"; "flipping_ber"; "fig"; "figure";
      "ldpc_buffer_success_rate"; "entropy_buffer_success_rate"; "flipping_buffer_success_rate"; "summary"]]).

(** runs/HC_eilat_July_2018/simulated_data_entropy_bitwise_decoder_weighted_model.py:1-260. *)
Definition sc_runs_HC_eilat_July_2018_simulated_data_entropy_bitwise_decoder_weighted_model : string * list istmt := ("runs/HC_eilat_July_2018/simulated_data_entropy_bitwise_decoder_weighted_model.py",
   [(* 1 *) Other ["pickle"; "Bits"; "BitArray"; "np"; "EncoderWiFi"; "WiFiSpecCode"; "bsc_llr"; "DecoderWiFi"];
    (* 7 *) From "decoders" [("EntropyBitwiseWeightedDecoder", "EntropyBitwiseWeightedDecoder")];
    (* 8 *) From "inference" [("BufferSegmentation", "BufferSegmentation")];
    (* 9 *) From "protocol_meta" [("dialect_meta", "meta")];
    (* 10 *) Other ["random"];
    (* 11 *) From "utils.bit_operations" [("hamming_distance", "hamming_distance")];
    (* 12 *) Other ["Any"; "plt"; "argparse"; "datetime"; "os"; "Pool"; "savemat"; "lzma"; "pd"; "parser"; "args"; "ldpc_iterations"; "thr";
      "clipping_factor"; "processes"; "encoder"; "bs"; "f"; "hc_tx"; "five_sec_bin"; "n"; "window_len"; "rng"; "bit_flip_p"; "encoded";
      "binary_data"; "pad_len"; "padded"; "_"; "model_length"; "cmd"; "simulation_step"; "pool"; "results"; "timestamp"; "path"; "raw_ber";
      "ldpc_ber"; "entropy_ber"; "fig"; "figure"; "ldpc_buffer_success_rate"; "entropy_buffer_success_rate"; "summary"; "step"]]).

(** runs/HC_eilat_July_2018/simulated_data_entropy_bitwise_decoder_weighted_model_averaged.py:1-231. *)
Definition sc_runs_HC_eilat_July_2018_simulated_data_entropy_bitwise_decoder_weighted_model_averaged : string * list istmt := ("runs/HC_eilat_July_2018/simulated_data_entropy_bitwise_decoder_weighted_model_averaged.py",
   [(* 1 *) Other ["pickle"; "Bits"; "BitArray"; "np"; "EncoderWiFi"; "WiFiSpecCode"; "bsc_llr"; "DecoderWiFi"];
    (* 7 *) From "decoders" [("EntropyBitwiseWeightedDecoder", "EntropyBitwiseWeightedDecoder")];
    (* 8 *) From "inference" [("BufferSegmentation", "BufferSegmentation")];
    (* 9 *) From "protocol_meta" [("dialect_meta", "meta")];
    (* 10 *) Other ["random"];
    (* 11 *) From "utils.bit_operations" [("hamming_distance", "hamming_distance")];
    (* 12 *) Other ["Any"; "plt"; "argparse"; "datetime"; "os"; "Pool"; "parser"; "args"; "ldpc_iterations"; "thr"; "clipping_factor"; "processes";
      "encoder"; "bs"; "f"; "hc_tx"; "five_sec_bin"; "n"; "window_len"; "rng"; "bit_flip_p"; "encoded"; "binary_data"; "pad_len"; "padded"; "_";
      "model_length"; "error_idx"; "cmd"; "simulation_step"; "overall_stats"; "run_idx"; "pool"; "results"; "timestamp"; "path"; "raw_ber";
      "ldpc_ber"; "entropy_ber"; "fig"; "figure"; "ldpc_buffer_success_rate"; "entropy_buffer_success_rate"; "summary"]]).

(** runs/HC_eilat_July_2018/simulated_data_mavlink_decoding.py:1-319. *)
Definition sc_runs_HC_eilat_July_2018_simulated_data_mavlink_decoding : string * list istmt := ("runs/HC_eilat_July_2018/simulated_data_mavlink_decoding.py",
   [(* 1 *) Other ["pickle"; "Bits"; "BitArray"; "np"; "EncoderWiFi"; "WiFiSpecCode"; "bsc_llr"; "DecoderWiFi"];
    (* 7 *) From "decoders" [("MavlinkRectifyingDecoder", "MavlinkRectifyingDecoder")];
    (* 8 *) From "inference" [("BufferSegmentation", "BufferSegmentation"); ("BufferModel", "BufferModel")];
    (* 9 *) From "protocol_meta" [("dialect_meta", "meta")];
    (* 10 *) From "utils.bit_operations" [("hamming_distance", "hamming_distance")];
    (* 11 *) Other ["Any"; "plt"; "argparse"; "datetime"; "os"; "Pool"; "savemat"; "lzma"; "pd"];
    (* 20 *) From "utils" [("setup_logger", "setup_logger")];
    (* 21 *) Other ["shutil"; "parser"; "args"; "ldpc_iterations"; "processes"; "f"; "hc_tx"; "hc_bin_data"; "n"; "window_len"; "rng"; "bit_flip_p";
      "spec"; "encoder"; "encoded"; "binary_data"; "pad_len"; "padded"; "_"; "data_model"; "bs"; "buffer_structure"; "buffer_structures";
      "model_length"; "logger"; "simulation_step"; "timestamp"; "path"; "cmd"; "pool"; "results"; "raw_ber"; "ldpc_ber"; "rect_ber"; "fig"; "figure";
      "ldpc_buffer_success_rate"; "rect_buffer_success_rate"; "summary"; "step"]]).

(** runs/HC_eilat_July_2018/simulated_data_pretrained_model.py:1-283. *)
Definition sc_runs_HC_eilat_July_2018_simulated_data_pretrained_model : string * list istmt := ("runs/HC_eilat_July_2018/simulated_data_pretrained_model.py",
   [(* 1 *) Other ["pickle"; "Bits"; "BitArray"; "np"; "EncoderWiFi"; "WiFiSpecCode"; "bsc_llr"; "DecoderWiFi"];
    (* 7 *) From "decoders" [("ClassifyingEntropyDecoder", "ClassifyingEntropyDecoder")];
    (* 8 *) From "utils.bit_operations" [("hamming_distance", "hamming_distance")];
    (* 9 *) Other ["Any"; "plt"; "argparse"; "datetime"; "os"; "Pool"; "savemat"; "lzma"; "pd"];
    (* 18 *) From "utils" [("setup_logger", "setup_logger")];
    (* 19 *) Other ["shutil"; "json"; "parser"; "args"; "ldpc_iterations"; "thr"; "clipping_factor"; "processes"; "f"; "hc_tx"; "hc_bin_data"; "n";
      "window_len"; "rng"; "bit_flip_p"; "spec"; "encoder"; "encoded"; "binary_data"; "pad_len"; "padded"; "_"; "model_length"; "data_model";
      "logger"; "simulation_step"; "timestamp"; "path"; "cmd"; "pool"; "results"; "raw_ber"; "ldpc_ber"; "entropy_ber"; "pre_trained_ber"; "fig";
      "figure"; "ldpc_buffer_success_rate"; "entropy_buffer_success_rate"; "pre_trained_buffer_success_rate"; "summary"; "step"]]).

(** runs/clsutering_analysis/cluster_mnist.py:1-33. *)
Definition sc_runs_clsutering_analysis_cluster_mnist : string * list istmt := ("runs/clsutering_analysis/cluster_mnist.py",
   [(* 1 *) Other ["datasets"; "train_test_split"];
    (* 3 *) From "inference" [("BufferClassifier", "BufferClassifier"); ("BMM", "BMM")];
    (* 4 *) Other ["np"; "pickle"];
    (* 6 *) From "functions" [("relabel", "relabel")];
    (* 8 *) Other ["digits"; "n_samples"; "data"; "X_train"; "X_test"; "y_train"; "y_test"; "classifier"; "labels"; "buffer"; "label"; "f"; "idx";
      "y_predict"]]).

(** runs/clsutering_analysis/clustering_analysis.py:1-156. *)
Definition sc_runs_clsutering_analysis_clustering_analysis : string * list istmt := ("runs/clsutering_analysis/clustering_analysis.py",
   [(* 1 *) Other ["argparse"; "datetime"; "os"; "Any"; "shutil"; "np"; "train_test_split"];
    (* 8 *) From "inference" [("BufferClassifier", "BufferClassifier"); ("BMM", "BMM")];
    (* 9 *) Other ["savemat"];
    (* 10 *) From "functions" [("relabel", "relabel")];
    (* 11 *) Other ["Pool"];
    (* 12 *) From "utils" [("setup_logger", "setup_logger")];
    (* 13 *) From "utils.performance_analysis" [("stats", "stats")];
    (* 15 *) Other ["parser"; "args"; "n_classes"; "p"; "n_training"; "train_with_errors"; "shuffle"; "number_of_runs"; "n_jobs"; "logger";
      "analyze_mine"; "analyze"; "timestamp"; "path"; "cmd"; "f"; "results"; "pool"; "clustering_results"; "clustering_cm"; "clustering_recall";
      "clustering_precision"; "clustering_f1"; "clustering_accuracy"; "bmm_results"; "bmm_cm"; "bmm_recall"; "bmm_precision"; "bmm_f1";
      "bmm_accuracy"]]).

(** scripts/buffer_segmentation_example.py:1-78. *)
Definition sc_scripts_buffer_segmentation_example : string * list istmt := ("scripts/buffer_segmentation_example.py",
   [(* 1 *) From "inference" [("BufferSegmentation", "BufferSegmentation"); ("BufferModel", "BufferModel")];
    (* 2 *) From "protocol_meta" [("dialect_meta", "meta")];
    (* 3 *) Other ["np"; "pickle"; "Bits"; "BitArray"; "good_buffer"; "bad_buffer"; "bs"; "msg_parts"; "bit_validity"; "buffer_structure";
      "msg_fields"; "buffer_description"; "buffer_model"; "fieldname"; "vals"; "buffer_model2"; "bit_arr"; "field_prediction"; "bitwise_prediction";
      "window_size"; "f"; "hc_tx"; "hc_bin_data"; "parts"; "validity"; "structure"; "tx"; "p_good_field"; "p_good_bits"; "corrupt_tx"; "no_errors";
      "rng"; "error_indices"; "p_bad_field"; "p_bad_bits"; "damaged_fields"; "idx"]]).

(** scripts/classifier_analysis.py:1-435. *)
Definition sc_scripts_classifier_analysis : string * list istmt := ("scripts/classifier_analysis.py",
   [(* 1 *) Other ["pickle"; "Any"; "Bits"; "BitArray"; "np"; "EncoderWiFi"; "WiFiSpecCode"; "NDArray"];
    (* 8 *) From "inference" [("BufferSegmentation", "BufferSegmentation"); ("BufferModel", "BufferModel")];
    (* 9 *) From "protocol_meta" [("dialect_meta", "meta")];
    (* 10 *) Other ["argparse"; "datetime"; "os"; "Pool"; "savemat"; "pd"];
    (* 16 *) From "utils" [("setup_logger", "setup_logger")];
    (* 17 *) Other ["shutil"; "parser"; "args"; "processes"; "f"; "hc_tx"; "hc_bin_data"; "n"; "window_len"; "rng"; "bit_flip_p"; "spec"; "encoder";
      "encoded"; "binary_data"; "pad_len"; "padded"; "_"; "bs"; "buffer_structure"; "buffer_structures"; "model_length"; "logger";
      "classifier_characterization"; "forcing_characterization"; "simulation_step"; "timestamp"; "path"; "cmd"; "pool"; "results";
      "good_fields_performance"; "bad_fields_performance"; "forced_fields_performance"; "forced_bits_performance"; "forcing_quality";
      "flipped_bits_performance"; "summary"; "step"]]).

(** scripts/clustering_trials.py:1-97. *)
Definition sc_scripts_clustering_trials : string * list istmt := ("scripts/clustering_trials.py",
   [(* 1 *) Other ["pickle"; "Bits"; "BitArray"; "np"];
    (* 4 *) From "inference" [("BufferClassifier", "BufferClassifier")];
    (* 5 *) Other ["savemat"; "f"; "hc_tx"; "rng"; "two_sec_bin"; "weight_scheme"; "buffers"; "n"; "r"; "p"; "k"; "pad_len"; "no_errors";
      "n_classes"; "n_training"; "b"; "errors"; "corrupted"; "idx"; "classifier"; "actual_classes"; "labels"; "result_1"; "result_2"]]).

(** scripts/estimators_comparison/compare_denoisers.py:1-98. *)
Definition sc_scripts_estimators_comparison_compare_denoisers : string * list istmt := ("scripts/estimators_comparison/compare_denoisers.py",
   [(* 1 *) Other ["np"];
    (* 3 *) From "inference" [("OnlineDude", "OnlineDude"); ("EMLE", "EMLE")];
    (* 4 *) From "utils.performance_analysis" [("stats", "stats"); ("ber", "ber")];
    (* 5 *) Other ["default_rng"];
    (* 6 *) From "utils.random_sources" [("generate_markov_samples", "generate_markov_samples")];
    (* 9 *) Other ["compare_denoisers"; "rng"; "n"; "f"; "model_length"; "window_length"; "k"; "source"; "noise"; "noisy_source"; "p";
      "transition_matrix"; "i"; "initial_state"]]).

(** scripts/estimators_comparison/dude_example.py:1-156. *)
Definition sc_scripts_estimators_comparison_dude_example : string * list istmt := ("scripts/estimators_comparison/dude_example.py",
   [(* 1 *) From "inference" [("OnlineDude", "OnlineDude"); ("DUDE", "DUDE"); ("EMLE", "EMLE")];
    (* 2 *) Other ["np"];
    (* 3 *) From "utils.random_sources" [("generate_markov_samples", "generate_markov_samples")];
    (* 5 *) Other ["bit_flip_p"; "n"; "channel_transition_matrix"; "loss_matrix"; "window_length"; "thr"; "k"; "online_dude"; "dude"; "emle";
      "sequence"; "estimate"; "cost"; "estimates"; "costs"; "noise"; "noisy_sequence"; "p"; "transition_matrix"; "i"; "initial_states";
      "soft_estimates"; "erroneous_flips"; "good_flips"]]).

(** scripts/fix_results.py:1-43. *)
Definition sc_scripts_fix_results : string * list istmt := ("scripts/fix_results.py",
   [(* 2 *) Other ["pickle"; "lzma"; "savemat"; "os"; "path"; "timestamp"; "dec_type"; "f"; "summary"; "results"; "step"; "decoded_entropy";
      "decoded_ldpc"]]).

(** scripts/train_estimator.py:1-64. *)
Definition sc_scripts_train_estimator : string * list istmt := ("scripts/train_estimator.py",
   [(* 1 *) Other ["np"; "pickle"; "Bits"; "argparse"; "WiFiSpecCode"; "EncoderWiFi"; "json"; "plt"; "parser"; "args"; "rng"; "f"; "hc_tx";
      "hc_bin_data"; "spec"; "n"; "encoder"; "encoded"; "binary_data"; "pad_len"; "padded"; "data"; "i"; "encoded_bits"; "p"; "dist"]]).

(** scripts/unify_results.py:1-58. *)
Definition sc_scripts_unify_results : string * list istmt := ("scripts/unify_results.py",
   [(* 2 *) Other ["os"; "pickle"; "datetime"; "plt"; "np"; "search_dir"; "results_file_name"; "last_results_file"; "resuls_dir"; "timestamp";
      "path"; "files"; "f"; "last_summary"; "args"; "results"; "file"; "step_res"; "raw_ber"; "ldpc_ber"; "entropy_ber"; "fig"; "figure";
      "ldpc_buffer_success_rate"; "entropy_buffer_success_rate"; "summary"]]).

(** The scripts; runs/ and scripts/, e.g. scripts/unify_results.py:1. *)
Definition import_scripts : list (string * list istmt) :=
  [sc_analysis_MLE_noisy_Bernoulli;
   sc_runs_Feb_2022_data_ship_log_reader;
   sc_runs_Feb_2022_experimental_data_run;
   sc_runs_Feb_2022_experimental_data_unified_decoder;
   sc_runs_Feb_2022_experimental_mavlink_based;
   sc_runs_Feb_2022_simulation_rafael_code;
   sc_runs_Feb_2022_train_buffer_model;
   sc_runs_Feb_2023_experimental_data_run_feb_23;
   sc_runs_Feb_2023_experimental_data_unified_decoder;
   sc_runs_Feb_2023_experimental_mavlink_based;
   sc_runs_Feb_2023_train_buffer_model;
   sc_runs_HC_eilat_July_2018_analysis_analysis;
   sc_runs_HC_eilat_July_2018_analysis_analyze_resutls;
   sc_runs_HC_eilat_July_2018_analysis_bit_flips_distribution;
   sc_runs_HC_eilat_July_2018_analysis_bsc_capacity;
   sc_runs_HC_eilat_July_2018_analysis_entropy_with_flips;
   sc_runs_HC_eilat_July_2018_classifying_entropy_decoder_over_awgn_channel;
   sc_runs_HC_eilat_July_2018_data_msg_creator;
   sc_runs_HC_eilat_July_2018_ecncoding_data;
   sc_runs_HC_eilat_July_2018_simluated_data_entropy_bf_decoders;
   sc_runs_HC_eilat_July_2018_simulate_gallager_bf;
   sc_runs_HC_eilat_July_2018_simulated_data_classifying_dude_decoder;
   sc_runs_HC_eilat_July_2018_simulated_data_classifying_entropy_decoder;
   sc_runs_HC_eilat_July_2018_simulated_data_combined_decoder;
   sc_runs_HC_eilat_July_2018_simulated_data_entropy_bitwise_decoder_predefined_model;
   sc_runs_HC_eilat_July_2018_simulated_data_entropy_bitwise_decoder_script;
   sc_runs_HC_eilat_July_2018_simulated_data_entropy_bitwise_decoder_script_mp;
   sc_runs_HC_eilat_July_2018_simulated_data_entropy_bitwise_decoder_weighted_model;
   sc_runs_HC_eilat_July_2018_simulated_data_entropy_bitwise_decoder_weighted_model_averaged;
   sc_runs_HC_eilat_July_2018_simulated_data_mavlink_decoding;
   sc_runs_HC_eilat_July_2018_simulated_data_pretrained_model;
   sc_runs_clsutering_analysis_cluster_mnist;
   sc_runs_clsutering_analysis_clustering_analysis;
   sc_scripts_buffer_segmentation_example;
   sc_scripts_classifier_analysis;
   sc_scripts_clustering_trials;
   sc_scripts_estimators_comparison_compare_denoisers;
   sc_scripts_estimators_comparison_dude_example;
   sc_scripts_fix_results;
   sc_scripts_train_estimator;
   sc_scripts_unify_results].

(** __all__ of the packages; decoders/__init__.py:8, inference/__init__.py:8, protocol_meta/__init__.py:5. *)
Definition exports : list (string * list string) :=
  [("decoders", ["Decoder"; "DecoderType"; "MavlinkRectifyingDecoder"; "CombinedDecoder"; "ClassifyingEntropyDecoder"; "CombinedUnifiedDecoder";
      "ClassifyingDudeDecoder"]);
   ("decoders.classifiying_decoder", ["ClassifyingEntropyDecoder"]);
   ("decoders.classifying_DUDE_decoder", ["ClassifyingDudeDecoder"]);
   ("decoders.entropy_bitwise_decoder", ["EntropyBitwiseDecoder"; "EntropyBitwiseFlippingDecoder"; "EntropyBitwiseWeightedDecoder"]);
   ("inference", ["MsgParts"; "BufferStructure"; "BufferSegmentation"; "Cluster"; "BufferClassifier"; "FieldModel"; "BufferModel"; "BMM";
      "OnlineDude"; "DUDE"; "EMLE"]);
   ("inference.bmm", ["BMM"]);
   ("inference.clustering", ["Cluster"; "BufferClassifier"]);
   ("inference.dude", ["OnlineDude"; "DUDE"]);
   ("inference.entropy_mle", ["EMLE"]);
   ("inference.statistical_models", ["FieldModel"; "BufferModel"; "num2bits"]);
   ("protocol_meta", ["MAVError"; "dialect_meta"; "hamming_distance_2_valid_header"; "FrameHeader"; "is_valid_header"; "NonExistentMsdId";
      "field_lengths"; "format_strings"; "inv_format_strings"]);
   ("protocol_meta.protocol_meta", ["MAVError"; "dialect_meta"; "field_lengths"; "format_strings"; "inv_format_strings"]);
   ("utils.bit_operations", ["hamming_distance"]);
   ("utils.common_logging", ["setup_logger"]);
   ("utils.custom_exceptions", ["NonUint8"; "IncorrectBufferLength"; "UnsupportedDtype"]);
   ("utils.information_theory", ["prob_with_alphabet"; "prob"; "entropy"; "typical_set_cardinality"; "hellinger"]);
   ("utils.performance_analysis", ["stats"; "ber"]);
   ("utils.random_sources", ["generate_markov_samples"])].
