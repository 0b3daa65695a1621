(** What the scripts do to files, in order: generated by tools/gen_save.py from the text of the scripts.
    A run of statements which touch no files of the run is one [SOther]; the logged lines are not in the table.
    Left out: simulated_data_entropy_bitwise_decoder_weighted_model_averaged.py, which makes a directory in a loop, and
    scripts/unify_results.py, whose files are those of Model/Unify.v. *)
From Coq Require Import String List.
From Verif Require Import Model.Saving.
Import ListNotations.
Local Open Scope string_scope.
Local Open Scope list_scope.

(** runs/Feb_2022/experimental_data_run.py:57, 59, 83, 160, 169, 173. *)
Definition sv_Feb_2022_experimental_data_run : script := {|
  sc_pre := [SOther;
             SMkdir;
             SOpenLog AtRun;
             SOther;
             SWrite [Lit "cmd.txt"];
             SOther;
             SWrite [Hole "timestamp"; Lit "_experimental_data_analysis.xz"];
             SOther;
             SWrite [Hole "timestamp"; Lit "_experimental_data_analysis.mat"];
             SOther;
             SWrite [Lit "summary.txt"]];
  sc_body := [];
  sc_handler := None |}.

(** runs/Feb_2022/experimental_data_unified_decoder.py:71, 73, 104, 184, 193, 197. *)
Definition sv_Feb_2022_experimental_data_unified_decoder : script := {|
  sc_pre := [SOther;
             SMkdir;
             SOpenLog AtRun;
             SOther;
             SWrite [Lit "cmd.txt"];
             SOther];
  sc_body := [SOther;
              SWrite [Hole "timestamp"; Lit "_experimental_data_analysis_unified_nr.xz"];
              SOther;
              SWrite [Hole "timestamp"; Lit "_experimental_data_analysis_unified_nr.mat"];
              SOther;
              SWrite [Lit "summary.txt"]];
  sc_handler := Some [] |}.

(** runs/Feb_2022/experimental_mavlink_based.py:61, 63, 90, 174, 183, 187. *)
Definition sv_Feb_2022_experimental_mavlink_based : script := {|
  sc_pre := [SOther;
             SMkdir;
             SOpenLog AtRun;
             SOther;
             SWrite [Lit "cmd.txt"];
             SOther;
             SWrite [Hole "timestamp"; Lit "_experimental_data_analysis.xz"];
             SOther;
             SWrite [Hole "timestamp"; Lit "_experimental_data_analysis.mat"];
             SOther;
             SWrite [Lit "summary.txt"]];
  sc_body := [];
  sc_handler := None |}.

(** runs/Feb_2022/simulation_rafael_code.py:62, 166, 184, 188, 193, 194, 207, 215, 221, 224, 233, 236, 239. *)
Definition sv_Feb_2022_simulation_rafael_code : script := {|
  sc_pre := [SOther;
             SOpenLog AtResults;
             SOther;
             SMkdir;
             SOther;
             SWrite [Lit "cmd.txt"];
             SOther;
             SPool (Some (AtCwd, [Hole "timestamp"; Lit "_"; Hole "p"; Lit "_simulation_classifying_entropy.pickle"]))];
  sc_body := [SMkdirIn [Hole "timestamp"; Lit "_simulation_entropy_vs_pure_LDPC_weighted_model_"; Hole "args.dec_type"; Lit "_decoder"];
              SWrite [Hole "timestamp"; Lit "_simulation_rafael_code.xz"];
              SOther;
              SWrite [Lit "ber_vs_error_p.eps"];
              SOther;
              SWrite [Lit "buffer_success_rate_vs_error_p.eps"];
              SOther;
              SWrite [Hole "timestamp"; Lit "_summary_simulation_rafael_code.pickle"];
              SWrite [Hole "timestamp"; Lit "_summary_simulation_rafael_code.mat"];
              SOther;
              SWrite [Hole "timestamp"; Lit "_simulation_rafael_code.mat"];
              SOther;
              SMove];
  sc_handler := Some [SMove] |}.

(** runs/Feb_2023/experimental_data_run_feb_23.py:84, 86, 110, 187, 196, 200. *)
Definition sv_Feb_2023_experimental_data_run_feb_23 : script := {|
  sc_pre := [SOther;
             SMkdir;
             SOpenLog AtRun;
             SOther;
             SWrite [Lit "cmd.txt"];
             SOther;
             SWrite [Hole "timestamp"; Lit "_experimental_data_analysis.xz"];
             SOther;
             SWrite [Hole "timestamp"; Lit "_experimental_data_analysis.mat"];
             SOther;
             SWrite [Lit "summary.txt"]];
  sc_body := [];
  sc_handler := None |}.

(** runs/Feb_2023/experimental_data_unified_decoder.py:99, 101, 135, 215, 224, 228. *)
Definition sv_Feb_2023_experimental_data_unified_decoder : script := {|
  sc_pre := [SOther;
             SMkdir;
             SOpenLog AtRun;
             SOther;
             SWrite [Lit "cmd.txt"];
             SOther];
  sc_body := [SOther;
              SWrite [Hole "timestamp"; Lit "_experimental_data_analysis_unified_nr.xz"];
              SOther;
              SWrite [Hole "timestamp"; Lit "_experimental_data_analysis_unified_nr.mat"];
              SOther;
              SWrite [Lit "summary.txt"]];
  sc_handler := Some [] |}.

(** runs/Feb_2023/experimental_mavlink_based.py:89, 91, 119, 197, 206, 210. *)
Definition sv_Feb_2023_experimental_mavlink_based : script := {|
  sc_pre := [SOther;
             SMkdir;
             SOpenLog AtRun;
             SOther;
             SWrite [Lit "cmd.txt"];
             SOther;
             SWrite [Hole "timestamp"; Lit "_experimental_data_analysis.xz"];
             SOther;
             SWrite [Hole "timestamp"; Lit "_experimental_data_analysis.mat"];
             SOther;
             SWrite [Lit "summary.txt"]];
  sc_body := [];
  sc_handler := None |}.

(** runs/HC_eilat_July_2018/classifying_entropy_decoder_over_awgn_channel.py:114, 259, 260, 266, 270, 283, 291, 297, 300, 312, 315, 318. *)
Definition sv_eilat_classifying_entropy_decoder_over_awgn_channel : script := {|
  sc_pre := [SOther;
             SOpenLog AtResults;
             SOther;
             SMkdir;
             SWrite [Lit "cmd.txt"];
             SOther];
  sc_body := [SOther;
              SPool (Some (AtResults, [Hole "timestamp"; Lit "_"; Hole "snr"; Lit "_simulation_awgn_classifying_entropy.pickle"]));
              SWrite [Hole "timestamp"; Lit "_simulation_AWGN_classifying_entropy_"; Hole "args.dec_type"; Lit "_decoder.xz"];
              SOther;
              SWrite [Lit "ber_vs_snr.eps"];
              SOther;
              SWrite [Lit "buffer_success_rate_vs_snr.eps"];
              SOther;
              SWrite [Hole "timestamp"; Lit "_summary_classifying_entropy__"; Hole "args.dec_type"; Lit "_decoder.pickle"];
              SWrite [Hole "timestamp"; Lit "_summary_AWGN_classifying_entropy__"; Hole "args.dec_type"; Lit "_decoder.mat"];
              SOther;
              SWrite [Hole "timestamp"; Lit "_simulation_AWGN_classifying_entropy_"; Hole "args.dec_type"; Lit "_decoder.mat"];
              SOther;
              SMove];
  sc_handler := Some [SMove] |}.

(** runs/HC_eilat_July_2018/simluated_data_entropy_bf_decoders.py:72, 272, 273, 281, 285, 303, 316, 332, 334, 348, 351, 354. *)
Definition sv_eilat_simluated_data_entropy_bf_decoders : script := {|
  sc_pre := [SOther;
             SOpenLog AtResults;
             SOther;
             SMkdir;
             SWrite [Lit "cmd.txt"];
             SOther];
  sc_body := [SOther;
              SPool (Some (AtResults, [Hole "timestamp"; Lit "_"; Hole "p"; Lit "_simulation_classifying_entropy.pickle"]));
              SWrite [Hole "timestamp"; Lit "_simulation_BF_comparison_entropy_decoder.xz"];
              SOther;
              SWrite [Lit "ber_vs_error_p.eps"];
              SOther;
              SWrite [Lit "buffer_success_rate_vs_error_p.eps"];
              SOther;
              SWrite [Hole "timestamp"; Lit "_summary_BF_comparison_entropy_decoder.pickle"];
              SWrite [Hole "timestamp"; Lit "_summary_BF_comparison_entropy_decoder.mat"];
              SOther;
              SWrite [Hole "timestamp"; Lit "_simulation_BF_comparison_entropy_decoder.mat"];
              SOther;
              SMove];
  sc_handler := Some [SMove] |}.

(** runs/HC_eilat_July_2018/simulate_gallager_bf.py:70, 197, 198, 207, 209, 223, 232, 242, 244, 254, 257, 260. *)
Definition sv_eilat_simulate_gallager_bf : script := {|
  sc_pre := [SOther;
             SOpenLog AtResults;
             SOther;
             SMkdir;
             SWrite [Lit "cmd.txt"];
             SOther];
  sc_body := [SOther;
              SPool (Some (AtResults, [Hole "timestamp"; Lit "_"; Hole "p"; Lit "_simulation_gallager_entropy.pickle"]));
              SWrite [Hole "timestamp"; Lit "_simulation_gallger_entropy_decoder.xz"];
              SOther;
              SWrite [Lit "ber_vs_error_p.eps"];
              SOther;
              SWrite [Lit "success_rate_vs_error_p.eps"];
              SOther;
              SWrite [Hole "timestamp"; Lit "_summary_gal_entropy_decoder.pickle"];
              SWrite [Hole "timestamp"; Lit "_summary_gal_entropy_decoder.mat"];
              SOther;
              SWrite [Hole "timestamp"; Lit "_simulation_gal_entropy_decoder.mat"];
              SOther;
              SMove];
  sc_handler := Some [SMove] |}.

(** runs/HC_eilat_July_2018/simulated_data_classifying_dude_decoder.py:100, 224, 225, 230, 234, 247, 255, 261, 264, 274, 277, 280. *)
Definition sv_eilat_simulated_data_classifying_dude_decoder : script := {|
  sc_pre := [SOther;
             SOpenLog AtResults;
             SOther;
             SMkdir;
             SWrite [Lit "cmd.txt"];
             SOther];
  sc_body := [SPool (Some (AtCwd, [Hole "timestamp"; Lit "_"; Hole "p"; Lit "_simulation_classifying_dude.pickle"]));
              SWrite [Hole "timestamp"; Lit "_simulation_classifying_DUDE_"; Hole "args.dec_type"; Lit "_decoder.xz"];
              SOther;
              SWrite [Lit "ber_vs_error_p.eps"];
              SOther;
              SWrite [Lit "buffer_success_rate_vs_error_p.eps"];
              SOther;
              SWrite [Hole "timestamp"; Lit "_summary_classifying_dude_"; Hole "args.dec_type"; Lit "_decoder.pickle"];
              SWrite [Hole "timestamp"; Lit "_summary_classifying_dude_"; Hole "args.dec_type"; Lit "_decoder.mat"];
              SOther;
              SWrite [Hole "timestamp"; Lit "_simulation_classifying_dude_"; Hole "args.dec_type"; Lit "_decoder.mat"];
              SOther;
              SMove];
  sc_handler := Some [SMove] |}.

(** runs/HC_eilat_July_2018/simulated_data_classifying_entropy_decoder.py:106, 277, 278, 291, 295, 308, 316, 325, 327, 337, 340, 343. *)
Definition sv_eilat_simulated_data_classifying_entropy_decoder : script := {|
  sc_pre := [SOther;
             SOpenLog AtResults;
             SOther;
             SMkdir;
             SWrite [Lit "cmd.txt"];
             SOther];
  sc_body := [SOther;
              SPool (Some (AtResults, [Hole "timestamp"; Lit "_"; Hole "p"; Lit "_simulation_classifying_entropy.pickle"]));
              SWrite [Hole "timestamp"; Lit "_simulation_classifying_entropy_"; Hole "args.dec_type"; Lit "_decoder.xz"];
              SOther;
              SWrite [Lit "ber_vs_error_p.eps"];
              SOther;
              SWrite [Lit "buffer_success_rate_vs_error_p.eps"];
              SOther;
              SWrite [Hole "timestamp"; Lit "_summary_classifying_entropy__"; Hole "args.dec_type"; Lit "_decoder.pickle"];
              SWrite [Hole "timestamp"; Lit "_summary_classifying_entropy__"; Hole "args.dec_type"; Lit "_decoder.mat"];
              SOther;
              SWrite [Hole "timestamp"; Lit "_simulation_classifying_entropy_"; Hole "args.dec_type"; Lit "_decoder.mat"];
              SOther;
              SMove];
  sc_handler := Some [SMove] |}.

(** runs/HC_eilat_July_2018/simulated_data_combined_decoder.py:128, 299, 300, 304, 325, 336, 345, 347, 359, 362. *)
Definition sv_eilat_simulated_data_combined_decoder : script := {|
  sc_pre := [SOther;
             SOpenLog AtResults;
             SOther;
             SMkdir;
             SWrite [Lit "cmd.txt"];
             SOther;
             SPool (Some (AtResults, [Hole "timestamp"; Lit "_"; Hole "p"; Lit "_simulation_nr.pickle"]))];
  sc_body := [SOther;
              SWrite [Lit "ber_vs_error_p.eps"];
              SOther;
              SWrite [Lit "buffer_success_rate_vs_error_p.eps"];
              SOther;
              SWrite [Hole "timestamp"; Lit "_summary_nr_"; Hole "args.dec_type"; Lit "_decoder_WiFi.pickle"];
              SWrite [Hole "timestamp"; Lit "_summary_nr_"; Hole "args.dec_type"; Lit "_decoder_WiFi.mat"];
              SOther;
              SMove];
  sc_handler := Some [SMove] |}.

(** runs/HC_eilat_July_2018/simulated_data_entropy_bitwise_decoder_predefined_model.py:166, 173, 174, 177, 188, 198, 203. *)
Definition sv_eilat_simulated_data_entropy_bitwise_decoder_predefined_model : script := {|
  sc_pre := [SOther;
             SPool (Some (AtCwd, [Hole "timestamp"; Lit "_"; Hole "p"; Lit "_simulation_entropy_predefined.pickle"]));
             SOther;
             SMkdir;
             SWrite [Lit "cmd.txt"];
             SWrite [Hole "timestamp"; Lit "_simulation_entropy_vs_pure_LDPC_predefined_model.pickle"];
             SOther;
             SWrite [Lit "ber_vs_error_p.eps"];
             SOther;
             SWrite [Lit "buffer_success_rate_vs_error_p.eps"];
             SOther;
             SWrite [Hole "timestamp"; Lit "_summary_entropy_vs_pure_LDPC_predefined_model.pickle"]];
  sc_body := [];
  sc_handler := None |}.

(** runs/HC_eilat_July_2018/simulated_data_entropy_bitwise_decoder_script.py:164, 165, 168, 179, 189, 194. *)
Definition sv_eilat_simulated_data_entropy_bitwise_decoder_script : script := {|
  sc_pre := [SOther;
             SMkdir;
             SWrite [Lit "cmd.txt"];
             SWrite [Hole "timestamp"; Lit "_simulation_entropy_vs_pure_LDPC.pickle"];
             SOther;
             SWrite [Lit "ber_vs_error_p.eps"];
             SOther;
             SWrite [Lit "buffer_success_rate_vs_error_p.eps"];
             SOther;
             SWrite [Hole "timestamp"; Lit "_summary_entropy_vs_pure_LDPC.pickle"]];
  sc_body := [];
  sc_handler := None |}.

(** runs/HC_eilat_July_2018/simulated_data_entropy_bitwise_decoder_script_mp.py:164, 171, 172, 175, 186, 196, 201. *)
Definition sv_eilat_simulated_data_entropy_bitwise_decoder_script_mp : script := {|
  sc_pre := [SOther;
             SPool None;
             SOther;
             SMkdir;
             SWrite [Lit "cmd.txt"];
             SWrite [Hole "timestamp"; Lit "_simulation_entropy_vs_pure_LDPC.pickle"];
             SOther;
             SWrite [Lit "ber_vs_error_p.eps"];
             SOther;
             SWrite [Lit "buffer_success_rate_vs_error_p.eps"];
             SOther;
             SWrite [Hole "timestamp"; Lit "_summary_entropy_vs_pure_LDPC.pickle"]];
  sc_body := [];
  sc_handler := None |}.

(** runs/HC_eilat_July_2018/simulated_data_entropy_bitwise_decoder_weighted_model.py:206, 214, 215, 221, 233, 241, 246, 250, 259. *)
Definition sv_eilat_simulated_data_entropy_bitwise_decoder_weighted_model : script := {|
  sc_pre := [SOther;
             SPool (Some (AtCwd, [Hole "timestamp"; Lit "_"; Hole "p"; Lit "_simulation_entropy_weighted.pickle"]));
             SOther;
             SMkdir;
             SWrite [Lit "cmd.txt"];
             SWrite [Hole "timestamp"; Lit "_simulation_entropy_vs_pure_LDPC_weighted_model_"; Hole "args.dec_type"; Lit "_decoder.xz"];
             SOther;
             SWrite [Lit "ber_vs_error_p.eps"];
             SOther;
             SWrite [Lit "buffer_success_rate_vs_error_p.eps"];
             SOther;
             SWrite [Hole "timestamp"; Lit "_summary_entropy_vs_pure_LDPC_weighted_model_"; Hole "args.dec_type"; Lit "_decoder.pickle"];
             SWrite [Hole "timestamp"; Lit "_summary_entropy_vs_pure_LDPC_weighted_model_"; Hole "args.dec_type"; Lit "_decoder.mat"];
             SOther;
             SWrite [Hole "timestamp"; Lit "_simulation_entropy_vs_pure_LDPC_weighted_model_"; Hole "args.dec_type"; Lit "_decoder.mat"]];
  sc_body := [];
  sc_handler := None |}.

(** runs/HC_eilat_July_2018/simulated_data_mavlink_decoding.py:125, 224, 265, 269, 274, 287, 295, 301, 303, 312, 315, 318. *)
Definition sv_eilat_simulated_data_mavlink_decoding : script := {|
  sc_pre := [SOther;
             SOpenLog AtResults;
             SOther;
             SMkdir;
             SOther;
             SWrite [Lit "cmd.txt"];
             SOther;
             SPool (Some (AtResults, [Hole "timestamp"; Lit "_"; Hole "p"; Lit "_simulation_classifying_rect.pickle"]))];
  sc_body := [SWrite [Hole "timestamp"; Lit "_simulation_rectifying_"; Hole "args.dec_type"; Lit "_decoder_WiFi.xz"];
              SOther;
              SWrite [Lit "ber_vs_error_p.eps"];
              SOther;
              SWrite [Lit "buffer_success_rate_vs_error_p.eps"];
              SOther;
              SWrite [Hole "timestamp"; Lit "_summary_rectifying_"; Hole "args.dec_type"; Lit "_decoder_WiFi.pickle"];
              SWrite [Hole "timestamp"; Lit "_summary_rectifying_"; Hole "args.dec_type"; Lit "_decoder_WiFi.mat"];
              SOther;
              SWrite [Hole "timestamp"; Lit "_simulation_rectifying_"; Hole "args.dec_type"; Lit "_decoder_WiFi.mat"];
              SOther;
              SMove];
  sc_handler := Some [SMove] |}.

(** runs/HC_eilat_July_2018/simulated_data_pretrained_model.py:80, 225, 226, 231, 234, 247, 257, 263, 267, 276, 279, 282. *)
Definition sv_eilat_simulated_data_pretrained_model : script := {|
  sc_pre := [SOther;
             SOpenLog AtResults;
             SOther;
             SMkdir;
             SWrite [Lit "cmd.txt"];
             SOther];
  sc_body := [SPool (Some (AtCwd, [Hole "timestamp"; Lit "_"; Hole "p"; Lit "_simulation_pretrained_entropy_model.pickle"]));
              SWrite [Hole "timestamp"; Lit "_simulation_pretrained_entropy_model_"; Hole "args.dec_type"; Lit "_decoder.xz"];
              SOther;
              SWrite [Lit "ber_vs_error_p.eps"];
              SOther;
              SWrite [Lit "buffer_success_rate_vs_error_p.eps"];
              SOther;
              SWrite [Hole "timestamp"; Lit "_summary_pretrained_entropy_model_"; Hole "args.dec_type"; Lit "_decoder.pickle"];
              SWrite [Hole "timestamp"; Lit "_summary_pretrained_entropy_model_"; Hole "args.dec_type"; Lit "_decoder.mat"];
              SOther;
              SWrite [Hole "timestamp"; Lit "_simulation_pretrained_entropy_model_"; Hole "args.dec_type"; Lit "_decoder.mat"];
              SOther;
              SMove];
  sc_handler := Some [SMove] |}.

(** runs/clsutering_analysis/clustering_analysis.py:32, 112, 117, 120, 133, 152, 155. *)
Definition sv_clustering_analysis : script := {|
  sc_pre := [SOther;
             SOpenLog AtResults];
  sc_body := [SOther;
              SMkdir;
              SOther;
              SWrite [Lit "cmd.txt"];
              SOther;
              SPool None;
              SOther;
              SWrite [Hole "timestamp"; Lit "_"; Hole "n_classes"; Lit "classes_"; Hole "p"; Lit "p_"; Hole "n_training"; Lit "training_train_with_errors"; Hole "int(train_with_errors)"; Lit "_shuffle"; Hole "shuffle"; Lit "_clustering_results.mat"];
              SOther;
              SMove];
  sc_handler := Some [SMove] |}.

(** scripts/classifier_analysis.py:104, 351, 378, 382, 419, 428, 431, 434. *)
Definition sv_classifier_analysis : script := {|
  sc_pre := [SOther;
             SOpenLog AtResults;
             SOther;
             SMkdir;
             SOther;
             SWrite [Lit "cmd.txt"];
             SOther;
             SPool None];
  sc_body := [SOther;
              SWrite [Hole "timestamp"; Lit "_summary_classifier_analysis_2018.mat"];
              SOther;
              SWrite [Hole "timestamp"; Lit "_classifier_analysis_2018.mat"];
              SOther;
              SMove];
  sc_handler := Some [SMove] |}.

(** The scripts above, by the name of the file. *)
Definition saving_scripts : list (string * script) :=
  [("runs/Feb_2022/experimental_data_run.py", sv_Feb_2022_experimental_data_run);
   ("runs/Feb_2022/experimental_data_unified_decoder.py", sv_Feb_2022_experimental_data_unified_decoder);
   ("runs/Feb_2022/experimental_mavlink_based.py", sv_Feb_2022_experimental_mavlink_based);
   ("runs/Feb_2022/simulation_rafael_code.py", sv_Feb_2022_simulation_rafael_code);
   ("runs/Feb_2023/experimental_data_run_feb_23.py", sv_Feb_2023_experimental_data_run_feb_23);
   ("runs/Feb_2023/experimental_data_unified_decoder.py", sv_Feb_2023_experimental_data_unified_decoder);
   ("runs/Feb_2023/experimental_mavlink_based.py", sv_Feb_2023_experimental_mavlink_based);
   ("runs/HC_eilat_July_2018/classifying_entropy_decoder_over_awgn_channel.py", sv_eilat_classifying_entropy_decoder_over_awgn_channel);
   ("runs/HC_eilat_July_2018/simluated_data_entropy_bf_decoders.py", sv_eilat_simluated_data_entropy_bf_decoders);
   ("runs/HC_eilat_July_2018/simulate_gallager_bf.py", sv_eilat_simulate_gallager_bf);
   ("runs/HC_eilat_July_2018/simulated_data_classifying_dude_decoder.py", sv_eilat_simulated_data_classifying_dude_decoder);
   ("runs/HC_eilat_July_2018/simulated_data_classifying_entropy_decoder.py", sv_eilat_simulated_data_classifying_entropy_decoder);
   ("runs/HC_eilat_July_2018/simulated_data_combined_decoder.py", sv_eilat_simulated_data_combined_decoder);
   ("runs/HC_eilat_July_2018/simulated_data_entropy_bitwise_decoder_predefined_model.py", sv_eilat_simulated_data_entropy_bitwise_decoder_predefined_model);
   ("runs/HC_eilat_July_2018/simulated_data_entropy_bitwise_decoder_script.py", sv_eilat_simulated_data_entropy_bitwise_decoder_script);
   ("runs/HC_eilat_July_2018/simulated_data_entropy_bitwise_decoder_script_mp.py", sv_eilat_simulated_data_entropy_bitwise_decoder_script_mp);
   ("runs/HC_eilat_July_2018/simulated_data_entropy_bitwise_decoder_weighted_model.py", sv_eilat_simulated_data_entropy_bitwise_decoder_weighted_model);
   ("runs/HC_eilat_July_2018/simulated_data_mavlink_decoding.py", sv_eilat_simulated_data_mavlink_decoding);
   ("runs/HC_eilat_July_2018/simulated_data_pretrained_model.py", sv_eilat_simulated_data_pretrained_model);
   ("runs/clsutering_analysis/clustering_analysis.py", sv_clustering_analysis);
   ("scripts/classifier_analysis.py", sv_classifier_analysis)].
