(** Generated by tools/gen_cmd.py: the options of the scripts and the commands they record. *)
From Coq Require Import String List ZArith.
From Verif.Model Require Import Cmd.
Import ListNotations.
Local Open Scope string_scope.
Local Open Scope Z_scope.

(** runs/Feb_2022/experimental_data_run.py:18-27 (options), 75-81 (command). *)
Definition s_feb_2022_experimental_data_run : script := Script "runs/Feb_2022/experimental_data_run.py"
  [Opt "ldpciterations" TInt (DInt 130);
   Opt "ent_threshold" TFloat (DFloat "0.36");
   Opt "window_len" TInt (DInt 50);
   Opt "clipping_factor" TInt (DInt 2);
   Opt "conf_center" TInt (DInt 40);
   Opt "conf_slope" TFloat (DFloat "0.35");
   Opt "dec_type" TStr (DStr "BP");
   Opt "model_length" TStr (DStr "all");
   Opt "experiment_date" TStr (DStr "14");
   Opt "raw_ber" TFloat (DInt 0)]
  false
  [Lit "python ";
   Val File;
   Lit " --ldpciterations ";
   Val (Arg "ldpciterations");
   Lit " --ent_threshold ";
   Val (Arg "ent_threshold");
   Lit " --clipping_factor ";
   Val (Arg "clipping_factor");
   Lit " --conf_center ";
   Val (Arg "conf_center");
   Lit " --conf_slope ";
   Val (Arg "conf_slope");
   Lit " --dec_type ";
   Val (Arg "dec_type");
   Lit " --model_length ";
   Val (Arg "model_length");
   Lit " --experiment_date ";
   Val (Arg "experiment_date");
   Lit " --raw_ber ";
   Val (Arg "raw_ber");
   If "window_len" [Lit " --window_len "; Val (Pos "window_len")] [Lit " --window_len 0"]].

(** runs/Feb_2022/experimental_data_unified_decoder.py:19-37 (options), 93-102 (command). *)
Definition s_feb_2022_experimental_data_unified_decoder : script := Script "runs/Feb_2022/experimental_data_unified_decoder.py"
  [Opt "ldpciterations" TInt (DInt 130);
   Opt "dec_type" TStr (DStr "BP");
   Opt "cluster" TInt (DInt 1);
   Opt "valid_factor" TFloat (DFloat "2.0");
   Opt "invalid_factor" TFloat (DFloat "0.7");
   Opt "valid_threshold" TFloat (DFloat "0.03");
   Opt "invalid_threshold" TFloat (DFloat "0.08");
   Opt "window_len" TInt (DInt 50);
   Opt "learn" TInt (DInt 0);
   Opt "conf_center" TInt (DInt 40);
   Opt "conf_slope" TFloat (DFloat "0.35");
   Opt "ent_threshold" TFloat (DFloat "0.36");
   Opt "clipping_factor" TInt (DInt 2);
   Opt "flip" TInt (DInt 0);
   Opt "experiment_date" TStr (DStr "14");
   Opt "raw_ber" TFloat (DInt 0)]
  false
  [Lit "python ";
   Val File;
   Lit " --ldpciterations ";
   Val (Arg "ldpciterations");
   Lit "  --learn ";
   Val (Arg "learn");
   Lit " --valid_factor ";
   Val (Arg "valid_factor");
   Lit " --invalid_factor ";
   Val (Arg "invalid_factor");
   Lit " --valid_threshold ";
   Val (Arg "valid_threshold");
   Lit " --invalid_threshold ";
   Val (Arg "invalid_threshold");
   Lit " --conf_center ";
   Val (Arg "conf_center");
   Lit " --conf_slope ";
   Val (Arg "conf_slope");
   Lit " --dec_type ";
   Val (Arg "dec_type");
   Lit " --experiment_date ";
   Val (Arg "experiment_date");
   Lit " --ent_threshold ";
   Val (Arg "ent_threshold");
   Lit " --clipping_factor ";
   Val (Arg "clipping_factor");
   Lit " --flip ";
   Val (Arg "flip");
   Lit " --raw_ber ";
   Val (Arg "raw_ber");
   If "window_len" [Lit " --window_len "; Val (Pos "window_len")] [Lit " --window_len 0"]].

(** runs/Feb_2022/experimental_mavlink_based.py:19-32 (options), 80-88 (command). *)
Definition s_feb_2022_experimental_mavlink_based : script := Script "runs/Feb_2022/experimental_mavlink_based.py"
  [Opt "ldpciterations" TInt (DInt 130);
   Opt "segiterations" TInt (DInt 1);
   Opt "dec_type" TStr (DStr "BP");
   Opt "valid_factor" TFloat (DFloat "2.0");
   Opt "invalid_factor" TFloat (DFloat "0.7");
   Opt "valid_threshold" TFloat (DFloat "0.03");
   Opt "invalid_threshold" TFloat (DFloat "0.08");
   Opt "window_len" TInt (DInt 50);
   Opt "learn" TInt (DInt 0);
   Opt "conf_center" TInt (DInt 40);
   Opt "conf_slope" TFloat (DFloat "0.35");
   Opt "experiment_date" TStr (DStr "14")]
  false
  [Lit "python ";
   Val File;
   Lit " --ldpciterations ";
   Val (Arg "ldpciterations");
   Lit "  --learn ";
   Val (Arg "learn");
   Lit " --segiterations ";
   Val (Arg "segiterations");
   Lit " --valid_factor ";
   Val (Arg "valid_factor");
   Lit " --invalid_factor ";
   Val (Arg "invalid_factor");
   Lit " --valid_threshold ";
   Val (Arg "valid_threshold");
   Lit " --invalid_threshold ";
   Val (Arg "invalid_threshold");
   Lit " --window_len ";
   Val (Pos "window_len");
   Lit " --conf_center ";
   Val (Arg "conf_center");
   Lit " --conf_slope ";
   Val (Arg "conf_slope");
   Lit " --dec_type ";
   Val (Arg "dec_type");
   Lit " --experiment_date ";
   Val (Arg "experiment_date");
   If "window_len" [Lit " --window_len "; Val (Pos "window_len")] [Lit " --window_len 0"]].

(** runs/Feb_2022/simulation_rafael_code.py:21-34 (options), 64-76 (command). *)
Definition s_feb_2022_simulation_rafael_code : script := Script "runs/Feb_2022/simulation_rafael_code.py"
  [Opt "N" TInt (DInt 0);
   Opt "minflip" TFloat (DFloat "0.02");
   Opt "maxflip" TFloat (DFloat "0.4");
   Opt "nflips" TInt (DInt 20);
   Opt "ldpciterations" TInt (DInt 60);
   Opt "ent_threshold" TFloat (DFloat "0.36");
   Opt "window_len" TInt (DInt 50);
   Opt "clipping_factor" TInt (DInt 2);
   Opt "multiply_data" TInt (DInt 0);
   Opt "processes" TInt (DInt 0);
   Opt "conf_center" TInt (DInt 40);
   Opt "conf_slope" TFloat (DFloat "0.35");
   Opt "dec_type" TStr (DStr "BP");
   Opt "model_length" TStr (DStr "all")]
  false
  [Lit "python ";
   Val File;
   Lit " --minflip ";
   Val (Arg "minflip");
   Lit " --maxflip ";
   Val (Arg "maxflip");
   Lit " --nflips ";
   Val (Arg "nflips");
   Lit " --ldpciterations ";
   Val (Arg "ldpciterations");
   Lit " --ent_threshold ";
   Val (Arg "ent_threshold");
   Lit " --clipping_factor ";
   Val (Arg "clipping_factor");
   Lit " --conf_center ";
   Val (Arg "conf_center");
   Lit " --conf_slope ";
   Val (Arg "conf_slope");
   Lit " --multiply_data ";
   Val (Arg "multiply_data");
   Lit " --dec_type ";
   Val (Arg "dec_type");
   Lit " --model_length ";
   Val (Arg "model_length");
   If "window_len" [Lit " --window_len "; Val (Pos "window_len")] [Lit " --window_len 0"];
   If "N" [Lit " --N "; Val Count] [];
   If "processes" [Lit " --processes "; Val (Pos "processes")] []].

(** runs/Feb_2023/experimental_data_run_feb_23.py:17-28 (options), 102-108 (command). *)
Definition s_feb_2023_experimental_data_run_feb_23 : script := Script "runs/Feb_2023/experimental_data_run_feb_23.py"
  [Opt "ldpciterations" TInt (DInt 60);
   Opt "ent_threshold" TFloat (DFloat "0.36");
   Opt "window_len" TInt (DInt 50);
   Opt "clipping_factor" TInt (DInt 2);
   Opt "conf_center" TInt (DInt 40);
   Opt "conf_slope" TFloat (DFloat "0.35");
   Opt "dec_type" TStr (DStr "BP");
   Opt "model_length" TStr (DStr "all");
   Opt "experiment_date" TStr (DStr "17");
   Opt "raw_ber" TFloat (DInt 0);
   Opt "msg_type" TInt (DInt 0);
   Opt "separate_models" TInt (DInt 0)]
  false
  [Lit "python ";
   Val File;
   Lit " --ldpciterations ";
   Val (Arg "ldpciterations");
   Lit " --ent_threshold ";
   Val (Arg "ent_threshold");
   Lit " --clipping_factor ";
   Val (Arg "clipping_factor");
   Lit " --conf_center ";
   Val (Arg "conf_center");
   Lit " --conf_slope ";
   Val (Arg "conf_slope");
   Lit " --dec_type ";
   Val (Arg "dec_type");
   Lit " --model_length ";
   Val (Arg "model_length");
   Lit " --experiment_date ";
   Val (Arg "experiment_date");
   Lit " --raw_ber ";
   Val (Arg "raw_ber");
   Lit " --msg_type ";
   Val (Arg "msg_type");
   If "window_len" [Lit " --window_len "; Val (Pos "window_len")] [Lit " --window_len 0"]].

(** runs/Feb_2023/experimental_data_unified_decoder.py:19-39 (options), 123-133 (command). *)
Definition s_feb_2023_experimental_data_unified_decoder : script := Script "runs/Feb_2023/experimental_data_unified_decoder.py"
  [Opt "ldpciterations" TInt (DInt 130);
   Opt "dec_type" TStr (DStr "BP");
   Opt "cluster" TInt (DInt 1);
   Opt "valid_factor" TFloat (DFloat "2.0");
   Opt "invalid_factor" TFloat (DFloat "0.7");
   Opt "valid_threshold" TFloat (DFloat "0.03");
   Opt "invalid_threshold" TFloat (DFloat "0.08");
   Opt "window_len" TInt (DInt 50);
   Opt "learn" TInt (DInt 0);
   Opt "conf_center" TInt (DInt 40);
   Opt "conf_slope" TFloat (DFloat "0.35");
   Opt "ent_threshold" TFloat (DFloat "0.36");
   Opt "clipping_factor" TInt (DInt 2);
   Opt "flip" TInt (DInt 0);
   Opt "experiment_date" TStr (DStr "14");
   Opt "raw_ber" TFloat (DInt 0);
   Opt "msg_type" TInt (DInt 0);
   Opt "separate_models" TInt (DInt 0)]
  false
  [Lit "python ";
   Val File;
   Lit " --ldpciterations ";
   Val (Arg "ldpciterations");
   Lit "  --learn ";
   Val (Arg "learn");
   Lit " --valid_factor ";
   Val (Arg "valid_factor");
   Lit " --invalid_factor ";
   Val (Arg "invalid_factor");
   Lit " --valid_threshold ";
   Val (Arg "valid_threshold");
   Lit " --invalid_threshold ";
   Val (Arg "invalid_threshold");
   Lit " --conf_center ";
   Val (Arg "conf_center");
   Lit " --conf_slope ";
   Val (Arg "conf_slope");
   Lit " --dec_type ";
   Val (Arg "dec_type");
   Lit " --experiment_date ";
   Val (Arg "experiment_date");
   Lit " --ent_threshold ";
   Val (Arg "ent_threshold");
   Lit " --clipping_factor ";
   Val (Arg "clipping_factor");
   Lit " --flip ";
   Val (Arg "flip");
   Lit " --raw_ber ";
   Val (Arg "raw_ber");
   Lit " --msg_type ";
   Val (Arg "msg_type");
   Lit " --separate_models ";
   Val (Arg "separate_models");
   If "window_len" [Lit " --window_len "; Val (Pos "window_len")] [Lit " --window_len 0"]].

(** runs/Feb_2023/experimental_mavlink_based.py:19-34 (options), 109-117 (command). *)
Definition s_feb_2023_experimental_mavlink_based : script := Script "runs/Feb_2023/experimental_mavlink_based.py"
  [Opt "ldpciterations" TInt (DInt 130);
   Opt "segiterations" TInt (DInt 1);
   Opt "dec_type" TStr (DStr "BP");
   Opt "valid_factor" TFloat (DFloat "2.0");
   Opt "invalid_factor" TFloat (DFloat "0.7");
   Opt "valid_threshold" TFloat (DFloat "0.03");
   Opt "invalid_threshold" TFloat (DFloat "0.08");
   Opt "window_len" TInt (DInt 0);
   Opt "learn" TInt (DInt 0);
   Opt "conf_center" TInt (DInt 40);
   Opt "conf_slope" TFloat (DFloat "0.35");
   Opt "experiment_date" TStr (DStr "all");
   Opt "msg_type" TInt (DInt 0);
   Opt "separate_models" TInt (DInt 0)]
  false
  [Lit "python ";
   Val File;
   Lit " --ldpciterations ";
   Val (Arg "ldpciterations");
   Lit "  --learn ";
   Val (Arg "learn");
   Lit " --segiterations ";
   Val (Arg "segiterations");
   Lit " --valid_factor ";
   Val (Arg "valid_factor");
   Lit " --invalid_factor ";
   Val (Arg "invalid_factor");
   Lit " --valid_threshold ";
   Val (Arg "valid_threshold");
   Lit " --invalid_threshold ";
   Val (Arg "invalid_threshold");
   Lit " --conf_center ";
   Val (Arg "conf_center");
   Lit " --conf_slope ";
   Val (Arg "conf_slope");
   Lit " --dec_type ";
   Val (Arg "dec_type");
   Lit " --experiment_date ";
   Val (Arg "experiment_date");
   Lit " --msg_type ";
   Val (Arg "msg_type");
   If "window_len" [Lit " --window_len "; Val (Pos "window_len")] [Lit " --window_len 0"]].

(** runs/HC_eilat_July_2018/classifying_entropy_decoder_over_awgn_channel.py:36-55 (options), 74-76 (one cluster), 245-258 (command). *)
Definition s_hc_classifying_entropy_decoder_over_awgn_channel : script := Script "runs/HC_eilat_July_2018/classifying_entropy_decoder_over_awgn_channel.py"
  [Opt "N" TInt (DInt 0);
   Opt "min_ebno" TFloat (DInt (-2));
   Opt "max_ebno" TFloat (DInt 3);
   Opt "snr_scale" TStr (DStr "db");
   Opt "delta" TFloat (DFloat "2.0");
   Opt "n_points" TInt (DInt 20);
   Opt "ldpciterations" TInt (DInt 20);
   Opt "ent_threshold" TFloat (DFloat "0.36");
   Opt "window_len" TInt (DInt 50);
   Opt "clipping_factor" TInt (DInt 2);
   Opt "multiply_data" TInt (DInt 0);
   Opt "processes" TInt (DInt 0);
   Opt "conf_center" TInt (DInt 40);
   Opt "conf_slope" TFloat (DFloat "0.35");
   Opt "dec_type" TStr (DStr "BP");
   Opt "classifier_train" TInt (DInt 100);
   Opt "n_clusters" TInt (DInt 1);
   Opt "msg_delay" TStr (DStr "50000");
   Opt "cluster" TInt (DInt 1);
   Opt "model_length" TStr (DStr "all")]
  true
  [Lit "python ";
   Val File;
   Lit " --min_ebno ";
   Val (Arg "min_ebno");
   Lit " --max_ebno ";
   Val (Arg "max_ebno");
   Lit " --n_points ";
   Val (Arg "n_points");
   Lit "  --snr_scale ";
   Val (Arg "snr_scale");
   Lit " --ldpciterations ";
   Val (Arg "ldpciterations");
   Lit " --multiply_data ";
   Val (Arg "multiply_data");
   Lit " --msg_delay ";
   Val (Arg "msg_delay");
   Lit " --dec_type ";
   Val (Arg "dec_type");
   Lit " --classifier_train ";
   Val (Arg "classifier_train");
   Lit " --n_clusters ";
   Val (Arg "n_clusters");
   Lit " --cluster ";
   Val (Arg "cluster");
   Lit " --delta ";
   Val (Arg "delta");
   Lit " --conf_center ";
   Val (Arg "conf_center");
   Lit " --model_length ";
   Val (Arg "model_length");
   Lit " --conf_slope ";
   Val (Arg "conf_slope");
   Lit " --entropy_threshold ";
   Val (Arg "ent_threshold");
   Lit " --clipping_factor ";
   Val (Arg "clipping_factor");
   If "N" [Lit " --N "; Val Count] [];
   If "window_len" [Lit " --window_len "; Val (Pos "window_len")] [Lit " --window_len 0"];
   If "processes" [Lit " --processes "; Val (Pos "processes")] []].

(** runs/HC_eilat_July_2018/simluated_data_entropy_bf_decoders.py:23-34 (options), 258-270 (command). *)
Definition s_hc_simluated_data_entropy_bf_decoders : script := Script "runs/HC_eilat_July_2018/simluated_data_entropy_bf_decoders.py"
  [Opt "N" TInt (DInt 0);
   Opt "minflip" TFloat (DFloat "0.033");
   Opt "maxflip" TFloat (DFloat "0.07");
   Opt "nflips" TInt (DInt 20);
   Opt "ldpciterations" TInt (DInt 300);
   Opt "ent_threshold" TFloat (DFloat "0.36");
   Opt "window_len" TInt (DInt 50);
   Opt "multiply_data" TInt (DInt 0);
   Opt "processes" TInt (DInt 0);
   Opt "conf_center" TInt (DInt 40);
   Opt "conf_slope" TFloat (DFloat "0.35");
   Opt "model_length" TStr (DStr "info")]
  false
  [Lit "python ";
   Val File;
   Lit " --minflip ";
   Val (Arg "minflip");
   Lit " --maxflip ";
   Val (Arg "maxflip");
   Lit " --nflips ";
   Val (Arg "nflips");
   Lit " --ldpciterations ";
   Val (Arg "ldpciterations");
   Lit " --ent_threshold ";
   Val (Arg "ent_threshold");
   Lit " --conf_center ";
   Val (Arg "conf_center");
   Lit " --conf_slope ";
   Val (Arg "conf_slope");
   Lit " --multiply_data ";
   Val (Arg "multiply_data");
   Lit "  --model_length ";
   Val (Arg "model_length");
   If "window_len" [Lit " --window_len "; Val (Pos "window_len")] [Lit " --window_len 0"];
   If "N" [Lit " --N "; Val Count] [];
   If "processes" [Lit " --processes "; Val (Pos "processes")] []].

(** runs/HC_eilat_July_2018/simulate_gallager_bf.py:22-32 (options), 185-195 (command). *)
Definition s_hc_simulate_gallager_bf : script := Script "runs/HC_eilat_July_2018/simulate_gallager_bf.py"
  [Opt "N" TInt (DInt 0);
   Opt "minflip" TFloat (DFloat "0.001");
   Opt "maxflip" TFloat (DFloat "0.02");
   Opt "nflips" TInt (DInt 15);
   Opt "ldpciterations" TInt (DInt 300);
   Opt "ent_threshold" TFloat (DFloat "0.36");
   Opt "window_len" TInt (DInt 100);
   Opt "multiply_data" TInt (DInt 2);
   Opt "conf_center" TInt (DInt 40);
   Opt "conf_slope" TFloat (DFloat "0.35");
   Opt "model_length" TStr (DStr "info")]
  false
  [Lit "python ";
   Val File;
   Lit " --minflip ";
   Val (Arg "minflip");
   Lit " --maxflip ";
   Val (Arg "maxflip");
   Lit " --nflips ";
   Val (Arg "nflips");
   Lit " --ldpciterations ";
   Val (Arg "ldpciterations");
   Lit " --ent_threshold ";
   Val (Arg "ent_threshold");
   Lit " --conf_center ";
   Val (Arg "conf_center");
   Lit " --conf_slope ";
   Val (Arg "conf_slope");
   Lit " --multiply_data ";
   Val (Arg "multiply_data");
   Lit "  --model_length ";
   Val (Arg "model_length");
   If "window_len" [Lit " --window_len "; Val (Pos "window_len")] [Lit " --window_len 0"];
   If "N" [Lit " --N "; Val Count] []].

(** runs/HC_eilat_July_2018/simulated_data_classifying_dude_decoder.py:22-39 (options), 58-60 (one cluster), 210-219 (command). *)
Definition s_hc_simulated_data_classifying_dude_decoder : script := Script "runs/HC_eilat_July_2018/simulated_data_classifying_dude_decoder.py"
  [Opt "N" TInt (DInt 0);
   Opt "minflip" TFloat (DFloat "0.033");
   Opt "maxflip" TFloat (DFloat "0.07");
   Opt "nflips" TInt (DInt 20);
   Opt "ldpciterations" TInt (DInt 20);
   Opt "ent_threshold" TFloat (DFloat "0.36");
   Opt "clipping_factor" TInt (DInt 2);
   Opt "multiply_data" TInt (DInt 0);
   Opt "processes" TInt (DInt 0);
   Opt "conf_center" TInt (DInt 40);
   Opt "conf_slope" TFloat (DFloat "0.35");
   Opt "dec_type" TStr (DStr "BP");
   Opt "classifier_train" TInt (DInt 100);
   Opt "n_clusters" TInt (DInt 1);
   Opt "msg_delay" TStr (DStr "50000");
   Opt "cluster" TInt (DInt 1);
   Opt "model_length" TStr (DStr "info");
   Opt "context_length" TInt (DInt 8)]
  true
  [Lit "python ";
   Val File;
   Lit " --minflip ";
   Val (Arg "minflip");
   Lit " --maxflip ";
   Val (Arg "maxflip");
   Lit " --nflips ";
   Val (Arg "nflips");
   Lit " --ldpciterations ";
   Val (Arg "ldpciterations");
   Lit " --ent_threshold ";
   Val (Arg "ent_threshold");
   Lit " --clipping_factor ";
   Val (Arg "clipping_factor");
   Lit " --conf_center ";
   Val (Arg "conf_center");
   Lit " --conf_slope ";
   Val (Arg "conf_slope");
   Lit " --multiply_data ";
   Val (Arg "multiply_data");
   Lit " --dec_type ";
   Val (Arg "dec_type");
   Lit "  --classifier_train ";
   Val (Arg "classifier_train");
   Lit " --n_clusters ";
   Val (Arg "n_clusters");
   Lit " --msg_delay ";
   Val (Arg "msg_delay");
   Lit " --cluster ";
   Val (Arg "cluster");
   Lit " --model_length ";
   Val (Arg "model_length");
   Lit " --context_length ";
   Val (Arg "context_length");
   If "N" [Lit " --N "; Val Count] [];
   If "processes" [Lit " --processes "; Val (Pos "processes")] []].

(** runs/HC_eilat_July_2018/simulated_data_classifying_entropy_decoder.py:23-42 (options), 61-63 (one cluster), 261-275 (command). *)
Definition s_hc_simulated_data_classifying_entropy_decoder : script := Script "runs/HC_eilat_July_2018/simulated_data_classifying_entropy_decoder.py"
  [Opt "N" TInt (DInt 0);
   Opt "minflip" TFloat (DFloat "0.033");
   Opt "maxflip" TFloat (DFloat "0.07");
   Opt "nflips" TInt (DInt 20);
   Opt "ldpciterations" TInt (DInt 20);
   Opt "ent_threshold" TFloat (DFloat "0.36");
   Opt "window_len" TInt (DInt 50);
   Opt "clipping_factor" TInt (DInt 2);
   Opt "multiply_data" TInt (DInt 0);
   Opt "processes" TInt (DInt 0);
   Opt "conf_center" TInt (DInt 40);
   Opt "conf_slope" TFloat (DFloat "0.35");
   Opt "dec_type" TStr (DStr "BP");
   Opt "classifier_train" TInt (DInt 100);
   Opt "n_clusters" TInt (DInt 1);
   Opt "msg_delay" TStr (DStr "50000");
   Opt "cluster" TInt (DInt 1);
   Opt "model_length" TStr (DStr "info");
   Opt "wbf_variant" TInt (DInt 0);
   Opt "channel_type" TStr (DStr "bsc")]
  true
  [Lit "python ";
   Val File;
   Lit " --minflip ";
   Val (Arg "minflip");
   Lit " --maxflip ";
   Val (Arg "maxflip");
   Lit " --nflips ";
   Val (Arg "nflips");
   Lit " --ldpciterations ";
   Val (Arg "ldpciterations");
   Lit " --ent_threshold ";
   Val (Arg "ent_threshold");
   Lit " --clipping_factor ";
   Val (Arg "clipping_factor");
   Lit " --conf_center ";
   Val (Arg "conf_center");
   Lit " --conf_slope ";
   Val (Arg "conf_slope");
   Lit " --multiply_data ";
   Val (Arg "multiply_data");
   Lit " --dec_type ";
   Val (Arg "dec_type");
   Lit "  --classifier_train ";
   Val (Arg "classifier_train");
   Lit " --n_clusters ";
   Val (Arg "n_clusters");
   Lit " --msg_delay ";
   Val (Arg "msg_delay");
   Lit " --cluster ";
   Val (Arg "cluster");
   Lit " --model_length ";
   Val (Arg "model_length");
   Lit " --wbf_variant ";
   Val (Arg "wbf_variant");
   Lit " --channel_type ";
   Val (Arg "channel_type");
   If "window_len" [Lit " --window_len "; Val (Pos "window_len")] [Lit " --window_len 0"];
   If "N" [Lit " --N "; Val Count] [];
   If "processes" [Lit " --processes "; Val (Pos "processes")] []].

(** runs/HC_eilat_July_2018/simulated_data_combined_decoder.py:24-49 (options), 68-70 (one cluster), 283-298 (command). *)
Definition s_hc_simulated_data_combined_decoder : script := Script "runs/HC_eilat_July_2018/simulated_data_combined_decoder.py"
  [Opt "N" TInt (DInt 0);
   Opt "minflip" TFloat (DFloat "0.033");
   Opt "maxflip" TFloat (DFloat "0.07");
   Opt "nflips" TInt (DInt 20);
   Opt "ldpciterations" TInt (DInt 20);
   Opt "multiply_data" TInt (DInt 0);
   Opt "processes" TInt (DInt 0);
   Opt "dec_type" TStr (DStr "BP");
   Opt "classifier_train" TInt (DInt 100);
   Opt "n_clusters" TInt (DInt 1);
   Opt "msg_delay" TStr (DStr "50000");
   Opt "cluster" TInt (DInt 1);
   Opt "valid_factor" TFloat (DFloat "2.0");
   Opt "invalid_factor" TFloat (DFloat "0.7");
   Opt "valid_threshold" TFloat (DFloat "0.03");
   Opt "invalid_threshold" TFloat (DFloat "0.08");
   Opt "window_len" TInt (DInt 50);
   Opt "learn" TInt (DInt 0);
   Opt "conf_center" TInt (DInt 40);
   Opt "conf_slope" TFloat (DFloat "0.35");
   Opt "ent_threshold" TFloat (DFloat "0.36");
   Opt "clipping_factor" TInt (DInt 2);
   Opt "flip" TInt (DInt 0)]
  true
  [Lit "python ";
   Val File;
   Lit " --minflip ";
   Val (Arg "minflip");
   Lit " --maxflip ";
   Val (Arg "maxflip");
   Lit " --nflips ";
   Val (Arg "nflips");
   Lit "  --ldpciterations ";
   Val (Arg "ldpciterations");
   Lit " --multiply_data ";
   Val (Arg "multiply_data");
   Lit " --msg_delay ";
   Val (Arg "msg_delay");
   Lit " --dec_type ";
   Val (Arg "dec_type");
   Lit " --classifier_train ";
   Val (Arg "classifier_train");
   Lit " --n_clusters ";
   Val (Arg "n_clusters");
   Lit " --cluster ";
   Val (Arg "cluster");
   Lit " --valid_threshold ";
   Val (Arg "valid_threshold");
   Lit " --invalid_threshold ";
   Val (Arg "invalid_threshold");
   Lit " --valid_factor ";
   Val (Arg "valid_factor");
   Lit " --invalid_factor ";
   Val (Arg "invalid_factor");
   Lit " --conf_center ";
   Val (Arg "conf_center");
   Lit " --conf_slope ";
   Val (Arg "conf_slope");
   Lit " --learn ";
   Val (Arg "learn");
   Lit " --ent_threshold ";
   Val (Arg "ent_threshold");
   Lit " --clipping_factor ";
   Val (Arg "clipping_factor");
   Lit " --flip ";
   Val (Arg "flip");
   If "N" [Lit " --N "; Val Count] [];
   If "window_len" [Lit " --window_len "; Val (Pos "window_len")] [Lit " --window_len 0"];
   If "processes" [Lit " --processes "; Val (Pos "processes")] []].

(** runs/HC_eilat_July_2018/simulated_data_entropy_bitwise_decoder_predefined_model.py:22-28 (options), 79-83 (command). *)
Definition s_hc_simulated_data_entropy_bitwise_decoder_predefined_model : script := Script "runs/HC_eilat_July_2018/simulated_data_entropy_bitwise_decoder_predefined_model.py"
  [Opt "N" TInt (DInt 0);
   Opt "minflip" TFloat (DFloat "0.03");
   Opt "maxflip" TFloat (DFloat "0.075");
   Opt "nflips" TInt (DInt 3);
   Opt "ldpciterations" TInt (DInt 20);
   Opt "ent_threshold" TFloat (DFloat "0.36");
   Opt "clipping_factor" TInt (DInt 2)]
  false
  [Lit "python ";
   Val File;
   Lit " --minflip ";
   Val (Arg "minflip");
   Lit " --maxflip ";
   Val (Arg "maxflip");
   Lit " --nflips ";
   Val (Arg "nflips");
   Lit " ";
   Lit " --ldpciterations ";
   Val (Arg "ldpciterations");
   Lit " --ent_threshold ";
   Val (Arg "ent_threshold");
   Lit " --clipping_factor ";
   Val (Arg "clipping_factor");
   If "N" [Lit " --N "; Val Count] []].

(** runs/HC_eilat_July_2018/simulated_data_entropy_bitwise_decoder_script.py:19-27 (options), 77-84 (command). *)
Definition s_hc_simulated_data_entropy_bitwise_decoder_script : script := Script "runs/HC_eilat_July_2018/simulated_data_entropy_bitwise_decoder_script.py"
  [Opt "N" TInt (DInt 0);
   Opt "minflip" TFloat (DFloat "0.036000000000000004");
   Opt "maxflip" TFloat (DFloat "0.055");
   Opt "nflips" TInt (DInt 5);
   Opt "ldpciterations" TInt (DInt 10);
   Opt "ent_threshold" TFloat (DFloat "0.36");
   Opt "window_len" TInt (DInt 0);
   Opt "clipping_factor" TInt (DInt 2);
   Opt "min_data" TInt (DInt 10)]
  false
  [Lit "python ";
   Val File;
   Lit " --minflip ";
   Val (Arg "minflip");
   Lit " --maxflip ";
   Val (Arg "maxflip");
   Lit " --nflips ";
   Val (Arg "nflips");
   Lit " ";
   Lit " --ldpciterations ";
   Val (Arg "ldpciterations");
   Lit " --ent_threshold ";
   Val (Arg "ent_threshold");
   Lit " --clipping_factor ";
   Val (Arg "clipping_factor");
   Lit " --min_data ";
   Val (Arg "min_data");
   If "window_len" [Lit " --window_len "; Val (Pos "window_len")] [];
   If "N" [Lit " --N "; Val Count] []].

(** runs/HC_eilat_July_2018/simulated_data_entropy_bitwise_decoder_script_mp.py:21-29 (options), 78-85 (command). *)
Definition s_hc_simulated_data_entropy_bitwise_decoder_script_mp : script := Script "runs/HC_eilat_July_2018/simulated_data_entropy_bitwise_decoder_script_mp.py"
  [Opt "N" TInt (DInt 0);
   Opt "minflip" TFloat (DFloat "0.036000000000000004");
   Opt "maxflip" TFloat (DFloat "0.055");
   Opt "nflips" TInt (DInt 5);
   Opt "ldpciterations" TInt (DInt 10);
   Opt "ent_threshold" TFloat (DFloat "0.36");
   Opt "window_len" TInt (DInt 0);
   Opt "clipping_factor" TInt (DInt 2);
   Opt "min_data" TInt (DInt 10)]
  false
  [Lit "python ";
   Val File;
   Lit " --minflip ";
   Val (Arg "minflip");
   Lit " --maxflip ";
   Val (Arg "maxflip");
   Lit " --nflips ";
   Val (Arg "nflips");
   Lit " ";
   Lit " --ldpciterations ";
   Val (Arg "ldpciterations");
   Lit " --ent_threshold ";
   Val (Arg "ent_threshold");
   Lit " --clipping_factor ";
   Val (Arg "clipping_factor");
   Lit " --min_data ";
   Val (Arg "min_data");
   If "window_len" [Lit " --window_len "; Val (Pos "window_len")] [];
   If "N" [Lit " --N "; Val Count] []].

(** runs/HC_eilat_July_2018/simulated_data_entropy_bitwise_decoder_weighted_model.py:23-40 (options), 106-119 (command). *)
Definition s_hc_simulated_data_entropy_bitwise_decoder_weighted_model : script := Script "runs/HC_eilat_July_2018/simulated_data_entropy_bitwise_decoder_weighted_model.py"
  [Opt "N" TInt (DInt 0);
   Opt "minflip" TFloat (DFloat "0.033");
   Opt "maxflip" TFloat (DFloat "0.07");
   Opt "nflips" TInt (DInt 20);
   Opt "ldpciterations" TInt (DInt 20);
   Opt "ent_threshold" TFloat (DFloat "0.36");
   Opt "window_len" TInt (DInt 50);
   Opt "clipping_factor" TInt (DInt 2);
   Opt "multiply_data" TInt (DInt 0);
   Opt "processes" TInt (DInt 0);
   Opt "a_conf_center" TInt (DInt 20);
   Opt "a_conf_slope" TFloat (DFloat "0.35");
   Opt "b_conf_center" TInt (DInt 40);
   Opt "b_conf_slope" TFloat (DFloat "0.35");
   Opt "confidence" TInt (DInt 0);
   Opt "dec_type" TStr (DStr "BP");
   Opt "corrected_dist" TInt (DInt 1);
   Opt "estimator" TStr (DStr "MLE")]
  false
  [Lit "python ";
   Val File;
   Lit " --minflip ";
   Val (Arg "minflip");
   Lit " --maxflip ";
   Val (Arg "maxflip");
   Lit " --nflips ";
   Val (Arg "nflips");
   Lit " --ldpciterations ";
   Val (Arg "ldpciterations");
   Lit " --ent_threshold ";
   Val (Arg "ent_threshold");
   Lit " --clipping_factor ";
   Val (Arg "clipping_factor");
   Lit " --a_conf_center ";
   Val (Arg "a_conf_center");
   Lit " --a_conf_slope ";
   Val (Arg "a_conf_slope");
   Lit " --b_conf_center ";
   Val (Arg "b_conf_center");
   Lit " --b_conf_slope ";
   Val (Arg "b_conf_slope");
   Lit " --confidence ";
   Val (Arg "confidence");
   Lit "  --multiply_data ";
   Val (Arg "multiply_data");
   Lit " --dec_type ";
   Val (Arg "dec_type");
   Lit " --corrected_dist ";
   Val (Arg "corrected_dist");
   Lit " --estimator ";
   Val (Arg "estimator");
   If "window_len" [Lit " --window_len "; Val (Pos "window_len")] [Lit " --window_len 0"];
   If "N" [Lit " --N "; Val Count; If "processes" [Lit " --processes "; Val (Pos "processes")] []] []].

(** runs/HC_eilat_July_2018/simulated_data_entropy_bitwise_decoder_weighted_model_averaged.py:21-36 (options), 101-113 (command). *)
Definition s_hc_simulated_data_entropy_bitwise_decoder_weighted_model_averaged : script := Script "runs/HC_eilat_July_2018/simulated_data_entropy_bitwise_decoder_weighted_model_averaged.py"
  [Opt "N" TInt (DInt 0);
   Opt "minflip" TFloat (DFloat "0.033");
   Opt "maxflip" TFloat (DFloat "0.07");
   Opt "nflips" TInt (DInt 20);
   Opt "ldpciterations" TInt (DInt 20);
   Opt "ent_threshold" TFloat (DFloat "0.36");
   Opt "window_len" TInt (DInt 50);
   Opt "clipping_factor" TInt (DInt 2);
   Opt "multiply_data" TInt (DInt 0);
   Opt "processes" TInt (DInt 0);
   Opt "a_conf_center" TInt (DInt 20);
   Opt "a_conf_slope" TFloat (DFloat "0.35");
   Opt "b_conf_center" TInt (DInt 40);
   Opt "b_conf_slope" TFloat (DFloat "0.35");
   Opt "confidence" TInt (DInt 0);
   Opt "averaging" TInt (DInt 1)]
  false
  [Lit "python ";
   Val File;
   Lit " --minflip ";
   Val (Arg "minflip");
   Lit " --maxflip ";
   Val (Arg "maxflip");
   Lit " --nflips ";
   Val (Arg "nflips");
   Lit " --ldpciterations ";
   Val (Arg "ldpciterations");
   Lit " --ent_threshold ";
   Val (Arg "ent_threshold");
   Lit " --clipping_factor ";
   Val (Arg "clipping_factor");
   Lit " --a_conf_center ";
   Val (Arg "a_conf_center");
   Lit " --a_conf_slope ";
   Val (Arg "a_conf_slope");
   Lit " --b_conf_center ";
   Val (Arg "b_conf_center");
   Lit " --b_conf_slope ";
   Val (Arg "b_conf_slope");
   Lit " --confidence ";
   Val (Arg "confidence");
   Lit " --averaging ";
   Val (Arg "averaging");
   If "window_len" [Lit " --window_len "; Val (Pos "window_len")] [];
   If "N" [Lit " --N "; Val Count] [];
   If "multiply_data" [Lit " --multiply_data "; Val (Arg "multiply_data")] [];
   If "processes" [Lit " --processes "; Val (Pos "processes")] []].

(** runs/HC_eilat_July_2018/simulated_data_mavlink_decoding.py:24-47 (options), 64-66 (one cluster), 249-263 (command). *)
Definition s_hc_simulated_data_mavlink_decoding : script := Script "runs/HC_eilat_July_2018/simulated_data_mavlink_decoding.py"
  [Opt "N" TInt (DInt 0);
   Opt "minflip" TFloat (DFloat "0.033");
   Opt "maxflip" TFloat (DFloat "0.07");
   Opt "nflips" TInt (DInt 20);
   Opt "ldpciterations" TInt (DInt 20);
   Opt "segiterations" TInt (DInt 1);
   Opt "multiply_data" TInt (DInt 0);
   Opt "processes" TInt (DInt 0);
   Opt "dec_type" TStr (DStr "BP");
   Opt "classifier_train" TInt (DInt 100);
   Opt "n_clusters" TInt (DInt 1);
   Opt "msg_delay" TStr (DStr "50000");
   Opt "cluster" TInt (DInt 1);
   Opt "valid_factor" TFloat (DFloat "2.0");
   Opt "invalid_factor" TFloat (DFloat "0.7");
   Opt "valid_threshold" TFloat (DFloat "0.03");
   Opt "invalid_threshold" TFloat (DFloat "0.08");
   Opt "window_len" TInt (DInt 50);
   Opt "learn" TInt (DInt 0);
   Opt "conf_center" TInt (DInt 40);
   Opt "conf_slope" TFloat (DFloat "0.35")]
  true
  [Lit "python ";
   Val File;
   Lit " --minflip ";
   Val (Arg "minflip");
   Lit " --maxflip ";
   Val (Arg "maxflip");
   Lit " --nflips ";
   Val (Arg "nflips");
   Lit "  --ldpciterations ";
   Val (Arg "ldpciterations");
   Lit " --segiterations ";
   Val (Arg "segiterations");
   Lit " --multiply_data ";
   Val (Arg "multiply_data");
   Lit " --msg_delay ";
   Val (Arg "msg_delay");
   Lit " --dec_type ";
   Val (Arg "dec_type");
   Lit " --classifier_train ";
   Val (Arg "classifier_train");
   Lit " --n_clusters ";
   Val (Arg "n_clusters");
   Lit " --cluster ";
   Val (Arg "cluster");
   Lit " --valid_threshold ";
   Val (Arg "valid_threshold");
   Lit " --invalid_threshold ";
   Val (Arg "invalid_threshold");
   Lit " --valid_factor ";
   Val (Arg "valid_factor");
   Lit " --invalid_factor ";
   Val (Arg "invalid_factor");
   Lit " --conf_center ";
   Val (Arg "conf_center");
   Lit " --conf_slope ";
   Val (Arg "conf_slope");
   Lit " --learn ";
   Val (Arg "learn");
   If "N" [Lit " --N "; Val Count] [];
   If "window_len" [Lit " --window_len "; Val (Pos "window_len")] [Lit " --window_len 0"];
   If "processes" [Lit " --processes "; Val (Pos "processes")] []].

(** runs/HC_eilat_July_2018/simulated_data_pretrained_model.py:24-38 (options), 213-224 (command). *)
Definition s_hc_simulated_data_pretrained_model : script := Script "runs/HC_eilat_July_2018/simulated_data_pretrained_model.py"
  [Opt "N" TInt (DInt 0);
   Opt "minflip" TFloat (DFloat "0.033");
   Opt "maxflip" TFloat (DFloat "0.07");
   Opt "nflips" TInt (DInt 20);
   Opt "ldpciterations" TInt (DInt 20);
   Opt "ent_threshold" TFloat (DFloat "0.36");
   Opt "window_len" TInt (DInt 50);
   Opt "clipping_factor" TInt (DInt 2);
   Opt "multiply_data" TInt (DInt 0);
   Opt "processes" TInt (DInt 0);
   Opt "conf_center" TInt (DInt 40);
   Opt "conf_slope" TFloat (DFloat "0.35");
   Opt "dec_type" TStr (DStr "BP");
   Opt "msg_delay" TStr (DStr "50000");
   Opt "model_length" TStr (DStr "info")]
  false
  [Lit "python ";
   Val File;
   Lit " --minflip ";
   Val (Arg "minflip");
   Lit " --maxflip ";
   Val (Arg "maxflip");
   Lit " --nflips ";
   Val (Arg "nflips");
   Lit "  --ldpciterations ";
   Val (Arg "ldpciterations");
   Lit " --multiply_data ";
   Val (Arg "multiply_data");
   Lit " --msg_delay ";
   Val (Arg "msg_delay");
   Lit " --dec_type ";
   Val (Arg "dec_type");
   Lit " --conf_center ";
   Val (Arg "conf_center");
   Lit " --model_length ";
   Val (Arg "model_length");
   Lit " --conf_slope ";
   Val (Arg "conf_slope");
   Lit " --entropy_threshold ";
   Val (Arg "ent_threshold");
   Lit " --clipping_factor ";
   Val (Arg "clipping_factor");
   If "N" [Lit " --N "; Val Count] [];
   If "window_len" [Lit " --window_len "; Val (Pos "window_len")] [Lit " --window_len 0"];
   If "processes" [Lit " --processes "; Val (Pos "processes")] []].

(** scripts/classifier_analysis.py:20-33 (options), 49-51 (one cluster), 368-376 (command). *)
Definition s_scripts_classifier_analysis : script := Script "scripts/classifier_analysis.py"
  [Opt "minflip" TFloat (DFloat "0.033");
   Opt "maxflip" TFloat (DFloat "0.07");
   Opt "nflips" TInt (DInt 20);
   Opt "multiply_data" TInt (DInt 0);
   Opt "processes" TInt (DInt 0);
   Opt "msg_delay" TStr (DStr "20000");
   Opt "threshold" TFloat (DInt 0);
   Opt "window_len" TInt (DInt 50);
   Opt "learn" TInt (DInt 0);
   Opt "conf_center" TInt (DInt 40);
   Opt "conf_slope" TFloat (DFloat "0.35");
   Opt "n_clusters" TInt (DInt 1)]
  true
  [Lit "python ";
   Val File;
   Lit " --minflip ";
   Val (Arg "minflip");
   Lit " --maxflip ";
   Val (Arg "maxflip");
   Lit " --nflips ";
   Val (Arg "nflips");
   Lit "  --multiply_data ";
   Val (Arg "multiply_data");
   Lit " --msg_delay ";
   Val (Arg "msg_delay");
   Lit " --n_clusters ";
   Val (Arg "n_clusters");
   Lit " --threshold ";
   Val (Arg "threshold");
   Lit " --conf_center ";
   Val (Arg "conf_center");
   Lit " --conf_slope ";
   Val (Arg "conf_slope");
   Lit " --learn ";
   Val (Arg "learn");
   If "window_len" [Lit " --window_len "; Val (Pos "window_len")] [Lit " --window_len 0"];
   If "processes" [Lit " --processes "; Val (Pos "processes")] []].

(** All of them. See the files named by its items. *)
Definition scripts : list script :=
  [s_feb_2022_experimental_data_run;
   s_feb_2022_experimental_data_unified_decoder;
   s_feb_2022_experimental_mavlink_based;
   s_feb_2022_simulation_rafael_code;
   s_feb_2023_experimental_data_run_feb_23;
   s_feb_2023_experimental_data_unified_decoder;
   s_feb_2023_experimental_mavlink_based;
   s_hc_classifying_entropy_decoder_over_awgn_channel;
   s_hc_simluated_data_entropy_bf_decoders;
   s_hc_simulate_gallager_bf;
   s_hc_simulated_data_classifying_dude_decoder;
   s_hc_simulated_data_classifying_entropy_decoder;
   s_hc_simulated_data_combined_decoder;
   s_hc_simulated_data_entropy_bitwise_decoder_predefined_model;
   s_hc_simulated_data_entropy_bitwise_decoder_script;
   s_hc_simulated_data_entropy_bitwise_decoder_script_mp;
   s_hc_simulated_data_entropy_bitwise_decoder_weighted_model;
   s_hc_simulated_data_entropy_bitwise_decoder_weighted_model_averaged;
   s_hc_simulated_data_mavlink_decoding;
   s_hc_simulated_data_pretrained_model;
   s_scripts_classifier_analysis].
