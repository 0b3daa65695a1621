(** Where the files of the repository bind names and where they read them.  Generated by tools/gen_names.py from their text: every file but
    the two generated dialects and the tests.  The number before a statement is its line.  Names are numbered, in a list for every file; the
    name x of a function f is f.x. *)
From Coq Require Import String ZArith NArith List.
From Verif Require Import Model.Names.
Import ListNotations.
Local Open Scope string_scope.
Local Open Scope list_scope.
Local Open Scope Z_scope.
Local Open Scope N_scope.

(** analysis/MLE_noisy_Bernoulli.py:1-46. *)
Definition py_analysis_MLE_noisy_Bernoulli : file := {| f_name := "analysis/MLE_noisy_Bernoulli.py";
  f_vars := ["bernoulli"; "np"; "pd"; "rng"; "N_MLE"; "p1_vec"; "f_vec"; "results"; "p1"; "f"; "x_n"; "noise"; "l"; "_"; "x"
    ; "w"; "v_hat"; "ignorant_error"; "p1_hat"; "ml_error"; "data"; "px"; "mse_data"; "fig"];
  f_body :=
   [(* 1 *) Eval []; Bind [0];
   (* 2 *) Eval []; Bind [1];
   (* 3 *) Eval []; Bind [2];
   (* 5 *) Eval [1]; Bind [3];
   (* 7 *) Eval []; Bind [4];
   (* 8 *) Eval [1]; Bind [5];
   (* 9 *) Eval [1]; Bind [6];
   (* 11 *) Eval []; Bind [7];
   (* 13 *) Eval [5]; Loop [Bind [8];
    (* 14 *) Eval [6]; Loop [Bind [9];
     (* 15 *) Eval [0;8]; Bind [10];
     (* 16 *) Eval [0;9]; Bind [11];
     (* 17 *) Eval []; Bind [12];
     (* 18 *) Eval []; Loop [Bind [13];
      (* 19 *) Eval [10;4;3]; Bind [14];
      (* 20 *) Eval [11;4;3]; Bind [15];
      (* 21 *) Eval [1;14;15]; Bind [14];
      (* 22 *) Eval [12;1;14]];
     (* 23 *) Eval [1;12]; Bind [16];
     (* 24 *) Eval [1;16;8]; Bind [17];
     (* 27 *) Eval [1;16;9]; Bind [18];
     (* 28 *) Eval [1;18;8]; Bind [19];
     (* 33 *) Eval [7;8;9;19;17;1]]];
   (* 37 *) Eval [2;7]; Bind [20];
   (* 40 *) Eval []; Bind [21];
   (* 41 *) Eval [20]; Bind [22];
   (* 42 *) Eval [21;20]; Bind [23];
   (* 43 *) Eval [23];
   (* 45 *) Eval [1]; Bind [6]] |}.

(** data_generation/mission_profile.py:1-68. *)
Definition py_data_generation_mission_profile : file := {| f_name := "data_generation/mission_profile.py";
  f_vars := ["mav"; "np"; "rng"; "file"; "mav_obj"; "number_of_messages"; "diving_angle"; "velocity"; "message_interval"; "range_noise_sig"
    ; "initial_range"; "first_leg_final_range"; "second_leg_final_range"; "third_leg_final_range"; "range_noise"; "pinger_range"
    ; "azimuth_noise_sig"; "azimuth_noise"; "azimuth"; "hc_mode"; "hc_system_status"; "hc_err"; "chamber_pressure"; "camber_temperature"
    ; "depth_noise_sig"; "depth_noise"; "depth"; "water_temp_noise"; "water_temp"; "pressure"];
  f_body :=
   [(* 1 *) Eval []; Bind [0];
   (* 2 *) Eval []; Bind [1];
   (* 5 *) Eval [1]; Bind [2];
   (* 6 *) Eval []; Bind [3];
   (* 7 *) Eval [0;3]; Bind [4];
   (* 17 *) Eval []; Bind [5];
   (* 18 *) Eval [1]; Bind [6];
   (* 19 *) Eval []; Bind [7];
   (* 20 *) Eval []; Bind [8];
   (* 24 *) Eval []; Bind [9];
   (* 25 *) Eval []; Bind [10];
   (* 27 *) Eval [10;7;8]; Bind [11];
   (* 28 *) Eval [1;11;7;8]; Bind [12];
   (* 29 *) Eval [12;7;8]; Bind [13];
   (* 30 *) Eval [1;2;9;5]; Bind [14];
   (* 31 *) Eval [1;10;11;12;13;14]; Bind [15];
   (* 38 *) Eval []; Bind [16];
   (* 39 *) Eval [2;16;5]; Bind [17];
   (* 40 *) Eval [1;17]; Bind [18];
   (* 45 *) Eval [1]; Bind [19];
   (* 46 *) Eval [1]; Bind [20];
   (* 47 *) Eval [1]; Bind [21];
   (* 51 *) Eval [1;2;5]; Bind [22];
   (* 52 *) Eval [1;2;5]; Bind [23];
   (* 57 *) Eval [1]; Bind [24];
   (* 58 *) Eval [24;2;5]; Bind [25];
   (* 59 *) Eval [1;6]; Bind [26];
   (* 64 *) Eval [1;2;5]; Bind [27];
   (* 66 *) Eval [1;26;27]; Bind [28];
   (* 67 *) Eval [26;25]; Bind [26];
   (* 68 *) Eval [26]; Bind [29]] |}.

(** decoders/__init__.py:1-9. *)
Definition py_decoders_init : file := {| f_name := "decoders/__init__.py";
  f_vars := ["Decoder"; "DecoderType"; "MavlinkRectifyingDecoder"; "CombinedDecoder"; "ClassifyingEntropyDecoder"; "CombinedUnifiedDecoder"
    ; "ClassifyingDudeDecoder"; "__all__"];
  f_body :=
   [(* 2 *) Eval []; Bind [0;1];
   (* 3 *) Eval []; Bind [2];
   (* 4 *) Eval []; Bind [3];
   (* 5 *) Eval []; Bind [4];
   (* 6 *) Eval []; Bind [5];
   (* 7 *) Eval []; Bind [6];
   (* 8 *) Eval []; Bind [7]] |}.

(** decoders/classifiying_decoder.py:1-235. *)
Definition py_decoders_classifiying_decoder : file := {| f_name := "decoders/classifiying_decoder.py";
  f_vars := ["Decoder"; "DecoderType"; "BufferClassifier"; "LogSpaDecoder"; "WbfDecoder"; "GalBfDecoder"; "NDArray"; "np"
    ; "Optional"; "IncorrectBufferLength"; "prob"; "entropy"; "ClassifyingEntropyDecoder.__init__"; "ClassifyingEntropyDecoder.decode_buffer"
    ; "ClassifyingEntropyDecoder.update_model"; "ClassifyingEntropyDecoder.model_prediction"; "ClassifyingEntropyDecoder._sample_and_priors"
    ; "ClassifyingEntropyDecoder"; "__all__"; "ClassifyingEntropyDecoder._sample_and_priors.confidence_coefficient"; "ClassifyingEntropyDecoder._sample_and_priors.max_sample"
    ; "ClassifyingEntropyDecoder._sample_and_priors.mean_check_degree"; "ClassifyingEntropyDecoder._sample_and_priors.model_bits"
    ; "ClassifyingEntropyDecoder._sample_and_priors.priors"; "ClassifyingEntropyDecoder._sample_and_priors.rms_channel_sample"
    ; "ClassifyingEntropyDecoder._sample_and_priors.samples"; "ClassifyingEntropyDecoder._sample_and_priors.size"; "ClassifyingEntropyDecoder._sample_and_priors.structural_elements"
    ; "ClassifyingEntropyDecoder._sample_and_priors.self"; "ClassifyingEntropyDecoder._sample_and_priors.channel_sample"; "ClassifyingEntropyDecoder._sample_and_priors.model_llr"
    ; "ClassifyingEntropyDecoder.model_prediction.confidence"; "ClassifyingEntropyDecoder.model_prediction.llr"; "ClassifyingEntropyDecoder.model_prediction.model_confidence"
    ; "ClassifyingEntropyDecoder.model_prediction.size"; "ClassifyingEntropyDecoder.model_prediction.structural_elements"
    ; "ClassifyingEntropyDecoder.model_prediction.self"; "ClassifyingEntropyDecoder.model_prediction.observation_size"; "ClassifyingEntropyDecoder.model_prediction.cluster_id"
    ; "ClassifyingEntropyDecoder.model_prediction.model_confidence.model_size"; "ClassifyingEntropyDecoder.model_prediction.model_confidence.center"
    ; "ClassifyingEntropyDecoder.model_prediction.model_confidence.slope"; "ClassifyingEntropyDecoder.update_model.arr"; "ClassifyingEntropyDecoder.update_model.dist"
    ; "ClassifyingEntropyDecoder.update_model.p1"; "ClassifyingEntropyDecoder.update_model.v"; "ClassifyingEntropyDecoder.update_model.self"
    ; "ClassifyingEntropyDecoder.update_model.bits"; "ClassifyingEntropyDecoder.update_model.cluster_id"; "ClassifyingEntropyDecoder.decode_buffer._"
    ; "ClassifyingEntropyDecoder.decode_buffer.channel_bits"; "ClassifyingEntropyDecoder.decode_buffer.clipping"; "ClassifyingEntropyDecoder.decode_buffer.decode_success"
    ; "ClassifyingEntropyDecoder.decode_buffer.estimate"; "ClassifyingEntropyDecoder.decode_buffer.hard_channel_bits"; "ClassifyingEntropyDecoder.decode_buffer.iterations"
    ; "ClassifyingEntropyDecoder.decode_buffer.label"; "ClassifyingEntropyDecoder.decode_buffer.llr"; "ClassifyingEntropyDecoder.decode_buffer.model_bits"
    ; "ClassifyingEntropyDecoder.decode_buffer.model_llr"; "ClassifyingEntropyDecoder.decode_buffer.priors"; "ClassifyingEntropyDecoder.decode_buffer.samples"
    ; "ClassifyingEntropyDecoder.decode_buffer.syndrome"; "ClassifyingEntropyDecoder.decode_buffer.vnode_validity"; "ClassifyingEntropyDecoder.decode_buffer.self"
    ; "ClassifyingEntropyDecoder.decode_buffer.channel_llr"; "ClassifyingEntropyDecoder.__init__.self"; "ClassifyingEntropyDecoder.__init__.ldpc_decoder"
    ; "ClassifyingEntropyDecoder.__init__.model_length"; "ClassifyingEntropyDecoder.__init__.entropy_threshold"; "ClassifyingEntropyDecoder.__init__.clipping_factor"
    ; "ClassifyingEntropyDecoder.__init__.classifier_training"; "ClassifyingEntropyDecoder.__init__.n_clusters"; "ClassifyingEntropyDecoder.__init__.window_length"
    ; "ClassifyingEntropyDecoder.__init__.conf_center"; "ClassifyingEntropyDecoder.__init__.conf_slope"; "ClassifyingEntropyDecoder.__init__.bit_flip"
    ; "ClassifyingEntropyDecoder.__init__.cluster"; "ClassifyingEntropyDecoder.__init__.data_model"; "ClassifyingEntropyDecoder.__init__.reliability_method"
    ];
  f_body :=
   [(* 1 *) Eval []; Bind [0;1];
   (* 2 *) Eval []; Bind [2];
   (* 3 *) Eval []; Bind [3;4;5];
   (* 4 *) Eval []; Bind [6];
   (* 5 *) Eval []; Bind [7];
   (* 6 *) Eval []; Bind [8];
   (* 7 *) Eval []; Bind [9];
   (* 8 *) Eval []; Bind [10;11];
   (* 11 *) Eval [0];
   (* 12 *) Eval [3;4;5;8;6;7]; Bind [12];
   (* 59 *) Eval [6;7]; Bind [13];
   (* 138 *) Eval [6;7]; Bind [14];
   (* 167 *) Eval [6;7]; Bind [15];
   (* 195 *) Eval [6;7]; Bind [16]; Bind [17];
   (* 235 *) Eval []; Bind [18]; Loop [If Opaque [Call [19;20;21;22;23;24;25;26;27] [28;29;30] [(* 197 *) Eval [7;29]; Bind [20];
      (* 198 *) Eval [29]; Bind [25];
      (* 199 *) Eval [7;25]; Bind [23];
      (* 200 *) Eval [7;30]; If Opaque [(* 201 *) Eval [28]; If Opaque [(* 203 *) Eval [7;30;20]; If Opaque [(* 204 *) Eval [29;30;20;7]; Bind [25]] [(* 206 *) Eval [29;30]; Bind [25]];
        (* 207 *) Eval [25;20;7]; Bind [25];
        (* 208 *) Eval [25;23]; Return] [];
       (* 211 *) Eval []; Bind [19];
       (* 214 *) Eval [28]; If Opaque [(* 215 *) Eval [7;29]; Bind [24];
        (* 216 *) Eval [7;28]; Bind [21];
        (* 217 *) Eval [24;21]; Bind [19]] [];
       (* 218 *) Eval [28]; If Opaque [(* 219 *) Eval [7;29;30]; Bind [23];
        (* 220 *) Eval [23]; If Opaque [Eval [23;20]] []; If Opaque [(* 221 *) Eval [23;20]; Bind [23]] [];
        (* 222 *) Eval [23]; If Opaque [Eval [23;19]] []; If Opaque [(* 223 *) Eval [23;19]; Bind [23]] []] [];
       (* 224 *) Eval [28]; If Opaque [(* 225 *) Eval [7;30]; Bind [22];
        (* 226 *) Eval [7;29]; Bind [25];
        (* 227 *) Eval [28]; If Opaque [Eval [28]] []; Bind [26];
        (* 228 *) Eval [26;28]; If Opaque [(* 229 *) Eval [28]; Bind [27];
         (* 231 *) Eval [27]; If Opaque [(* 232 *) Eval [22;27;25]] []] []] []] [];
      (* 233 *) Eval [25;23]; Return]] [If Opaque [Call [31;32;33;34;35] [36;37;38] [(* 168 *) Eval [7]; Bind [33];
       (* 171 *) Eval [7;37]; Bind [32];
       (* 174 *) Eval [36;38]; Bind [35];
       (* 177 *) Eval [35]; If Opaque [(* 178 *) Eval [32]; Return] [];
       (* 179 *) Eval [36]; If Opaque [(* 180 *) Eval [36;38]; If Opaque [Eval [36;38]] []; Bind [34];
        (* 181 *) Eval [33]; Loop [Call [] [39;40;41] [(* 169 *) Eval [39]; If Opaque [] [Eval [7;39;40;41]]; Return]]; Eval [34;36]; Bind [31]] [(* 183 *) Eval []; Bind [31]];
       (* 187 *) Eval [31]; If Opaque [(* 188 *) Eval [32;35;31;7;36;38]] [];
       (* 193 *) Eval [32]; Return]] [If Opaque [Call [42;43;44;45] [46;47;48] [(* 143 *) Eval [46]; If Opaque [(* 144 *) Eval []; Return] [];
        (* 145 *) Eval [47;46]; If Opaque [(* 146 *) Eval [46];
         (* 147 *) Eval [47];
         (* 148 *) Eval [9]; Raise] [];
        (* 149 *) Eval [47;7]; Bind [42];
        (* 151 *) Eval [46;48]; If Opaque [Eval [42]] [Eval [7;46;48;42]]; Eval [46;48];
        (* 153 *) Eval [46]; If Opaque [Eval [46;48]] []; If Opaque [(* 155 *) Eval [46;48]] [];
        (* 157 *) Eval [10;46;48]; Bind [43];
        (* 158 *) Eval [43]; Bind [45];
        (* 159 *) Eval [7;45;46]; Bind [44];
        (* 160 *) Eval [7;44;46;48];
        (* 162 *) Eval [44]; If Opaque [Eval [44]] []; If Opaque [(* 163 *) Eval [];
         (* 164 *) Eval []; Raise] [];
        (* 165 *) Eval [11;46;48]]] [If Opaque [Call [49;50;51;52;53;54;55;56;57;58;59;60;61;62;63] [64;65] [(* 77 *) Eval [7;65;64]; Bind [50];
         (* 78 *) Eval [64]; If Opaque [(* 79 *) Eval [64]; If Opaque [(* 80 *) Eval [64;50]; Bind [56];
           (* 81 *) Eval [56]; If Opaque [(* 82 *) Eval [64;3]; If Opaque [(* 83 *) Eval [64;65]; Bind [53;57;52;55;62;63];
             (* 85 *) Eval [53;57;52;55;62;63;7;56]; Return] [(* 87 *) Eval [64;4]; If Opaque [(* 88 *) Eval [64;65]; Bind [53;52;55;62;63];
              (* 89 *) Eval [53;7;52;55;62;63;56]; Return] [(* 91 *) Eval [64;5]; If Opaque [(* 92 *) Eval [7;65]; Bind [54];
               (* 93 *) Eval [64;54]; Bind [53;52;55;62;63];
               (* 95 *) Eval [53;7;52;55;62;63;56]; Return] []]]] []] [(* 98 *) Eval [64];
           (* 99 *) Eval [64]; Bind [56]]] [(* 101 *) Eval []; Bind [56]];
         (* 108 *) Eval [64;65;56]; Bind [59];
         (* 109 *) Eval [64;3]; If Opaque [(* 110 *) Eval [64;65]; Bind [51];
          (* 111 *) Eval [7;65;59;51]; Bind [59];
          (* 112 *) Eval [64;59]; Bind [53;57;52;55;62;63]] [(* 113 *) Eval [64;4]; If Opaque [(* 116 *) Eval [64;65;59]; Bind [61;60];
           (* 117 *) Eval [64;61;60]; Bind [53;52;55;62;63];
           (* 119 *) Eval [7]; Bind [57]] [(* 120 *) Eval [64;5]; If Opaque [(* 121 *) Eval [64;65;59]; Bind [61;49];
            (* 122 *) Eval [61;7]; If Opaque [(* 123 *) Eval [7;61]; Bind [54]] [(* 125 *) Eval [61]; Bind [54]];
            (* 126 *) Eval [64;54]; Bind [53;52;55;62;63];
            (* 128 *) Eval [7]; Bind [57]] []]];
         (* 130 *) Eval [53;64]; Bind [58];
         (* 131 *) Eval [52]; If Opaque [(* 132 *) Eval [64;58;56]] [(* 134 *) Eval [64;50;56]];
         (* 135 *) Eval [53;57;52;55;62;63;64;56]; Return]] [If Opaque [Call [] [66;67;68;69;70;71;72;73;74;75;76;77;78;79] [(* 27 *) Eval [67;66];
          (* 28 *) Eval [68;66];
          (* 29 *) Eval [69;66];
          (* 30 *) Eval [7;66];
          (* 31 *) Eval [68;66]; If Opaque [(* 32 *) Eval [7;68;66]] [(* 34 *) Eval [66;68];
           (* 35 *) Eval [7;66]];
          (* 36 *) Eval [70;66];
          (* 38 *) Eval [78]; If Opaque [(* 39 *) Eval [72]; If Opaque [Eval [7]] []; Eval [66];
           (* 40 *) Eval [72]; If Opaque [Eval [7]] []; Eval [66];
           (* 41 *) Eval [66]] [(* 43 *) Eval [72]; If Opaque [Eval [78;68]] []; Eval [66];
           (* 44 *) Eval [72]; If Opaque [Eval [11;66]] []; Eval [66];
           (* 45 *) Eval [66]];
          (* 46 *) Eval [74;66];
          (* 47 *) Eval [75;66];
          (* 48 *) Eval [76;66];
          (* 49 *) Eval [73;66];
          (* 50 *) Eval [72]; If Opaque [Eval [7]] []; Eval [66];
          (* 52 *) Eval [2;71;72;66];
          (* 53 *) Eval [72;66];
          (* 54 *) Eval [77;66];
          (* 55 *) Eval [66];
          (* 56 *) Eval [79;66];
          (* 57 *) Eval [1]]] []]]]]]] |}.

(** decoders/classifying_DUDE_decoder.py:1-131. *)
Definition py_decoders_classifying_DUDE_decoder : file := {| f_name := "decoders/classifying_DUDE_decoder.py";
  f_vars := ["Decoder"; "DecoderType"; "BufferClassifier"; "OnlineDude"; "Sequence"; "LogSpaDecoder"; "NDArray"; "np"; "ClassifyingDudeDecoder.__init__"
    ; "ClassifyingDudeDecoder.decode_buffer"; "ClassifyingDudeDecoder.model_prediction"; "ClassifyingDudeDecoder"; "__all__"
    ; "ClassifyingDudeDecoder.model_prediction.confidence"; "ClassifyingDudeDecoder.model_prediction.model_confidence"; "ClassifyingDudeDecoder.model_prediction.model_llr"
    ; "ClassifyingDudeDecoder.model_prediction.p1"; "ClassifyingDudeDecoder.model_prediction.self"; "ClassifyingDudeDecoder.model_prediction.observation"
    ; "ClassifyingDudeDecoder.model_prediction.cluster_id"; "ClassifyingDudeDecoder.model_prediction.model_confidence.model_size"
    ; "ClassifyingDudeDecoder.model_prediction.model_confidence.center"; "ClassifyingDudeDecoder.model_prediction.model_confidence.slope"
    ; "ClassifyingDudeDecoder.decode_buffer.channel_bits"; "ClassifyingDudeDecoder.decode_buffer.clipping"; "ClassifyingDudeDecoder.decode_buffer.decode_success"
    ; "ClassifyingDudeDecoder.decode_buffer.denoised_bits"; "ClassifyingDudeDecoder.decode_buffer.estimate"; "ClassifyingDudeDecoder.decode_buffer.iterations"
    ; "ClassifyingDudeDecoder.decode_buffer.label"; "ClassifyingDudeDecoder.decode_buffer.llr"; "ClassifyingDudeDecoder.decode_buffer.model_llr"
    ; "ClassifyingDudeDecoder.decode_buffer.syndrome"; "ClassifyingDudeDecoder.decode_buffer.vnode_validity"; "ClassifyingDudeDecoder.decode_buffer.self"
    ; "ClassifyingDudeDecoder.decode_buffer.channel_llr"; "ClassifyingDudeDecoder.__init__.channel_transition_matrix"; "ClassifyingDudeDecoder.__init__.loss_matrix"
    ; "ClassifyingDudeDecoder.__init__.self"; "ClassifyingDudeDecoder.__init__.ldpc_decoder"; "ClassifyingDudeDecoder.__init__.model_length"
    ; "ClassifyingDudeDecoder.__init__.clipping_factor"; "ClassifyingDudeDecoder.__init__.classifier_training"; "ClassifyingDudeDecoder.__init__.n_clusters"
    ; "ClassifyingDudeDecoder.__init__.context_length"; "ClassifyingDudeDecoder.__init__.conf_center"; "ClassifyingDudeDecoder.__init__.conf_slope"
    ; "ClassifyingDudeDecoder.__init__.bit_flip"; "ClassifyingDudeDecoder.__init__.cluster"; "ClassifyingDudeDecoder.__init__.entropy_threshold"
    ];
  f_body :=
   [(* 1 *) Eval []; Bind [0;1];
   (* 2 *) Eval []; Bind [2;3];
   (* 3 *) Eval []; Bind [4];
   (* 4 *) Eval []; Bind [5];
   (* 5 *) Eval []; Bind [6];
   (* 6 *) Eval []; Bind [7];
   (* 9 *) Eval [0];
   (* 10 *) Eval [5]; Bind [8];
   (* 62 *) Eval [4;7;6]; Bind [9];
   (* 112 *) Eval [6;7]; Bind [10]; Bind [11];
   (* 131 *) Eval []; Bind [12]; Loop [If Opaque [Call [13;14;15;16] [17;18;19] [(* 113 *) Eval [7]; Bind [14];
      (* 117 *) Eval [14]; Loop [Call [] [20;21;22] [(* 114 *) Eval [20]; If Opaque [] [Eval [7;20;21;22]]; Return]]; Eval [17;19]; Bind [13];
      (* 121 *) Eval [7;17;19]; If Opaque [Eval [18]] []; Bind [16];
      (* 126 *) Eval [13;7;16]; Bind [15];
      (* 128 *) Eval [15]; Return]] [If Opaque [Call [23;24;25;26;27;28;29;30;31;32;33] [34;35] [(* 80 *) Eval [7;35;34]; Bind [23];
       (* 81 *) Eval [34]; If Opaque [(* 82 *) Eval [34]; If Opaque [(* 83 *) Eval [34;23]; Bind [29];
         (* 84 *) Eval [29]; If Opaque [(* 85 *) Eval [34;35]; Bind [27;30;25;28;32;33];
          (* 86 *) Eval [27;30;25;28;29;7;35]; Return] []] [(* 88 *) Eval [34];
         (* 89 *) Eval [34]; Bind [29]]] [(* 91 *) Eval []; Bind [29]];
       (* 92 *) Eval [34;29];
       (* 99 *) Eval [34;7;35]; Bind [24];
       (* 100 *) Eval [34;23;29]; Bind [31];
       (* 101 *) Eval [35;34;31];
       (* 102 *) Eval [7;35;24]; Bind [35];
       (* 103 *) Eval [7;35]; Bind [26];
       (* 104 *) Eval [34;35]; Bind [27;30;25;28;32;33];
       (* 110 *) Eval [27;30;25;28;29;26]; Return]] [If Opaque [Call [36;37] [38;39;40;41;42;43;44;45;46;47;48;49] [(* 29 *) Eval [39;38];
        (* 30 *) Eval [40;38];
        (* 31 *) Eval [7;38];
        (* 32 *) Eval [40;38]; If Opaque [(* 33 *) Eval [7;40;38]] [(* 35 *) Eval [38;40];
         (* 36 *) Eval [7;38]];
        (* 38 *) Eval [41;38];
        (* 40 *) Eval [47;38];
        (* 41 *) Eval [7;47]; Bind [36];
        (* 42 *) Eval [7]; Bind [37];
        (* 43 *) Eval [43]; If Opaque [Eval [40]; If Opaque [Eval [3;36;37;44]] []] []; Eval [38];
        (* 46 *) Eval [43;38];
        (* 51 *) Eval [45;38];
        (* 52 *) Eval [46;38];
        (* 54 *) Eval [48;38];
        (* 55 *) Eval [38]; If Opaque [(* 56 *) Eval [2;42;43;38]] [(* 58 *) Eval [38]];
        (* 59 *) Eval [43;38];
        (* 60 *) Eval [1]]] []]]]] |}.

(** decoders/combined_decoder.py:1-301. *)
Definition py_decoders_combined_decoder : file := {| f_name := "decoders/combined_decoder.py";
  f_vars := ["BufferSegmentation"; "BufferModel"; "BufferClassifier"; "meta"; "Decoder"; "DecoderType"; "Sequence"; "LogSpaDecoder"
    ; "NDArray"; "ArrayLike"; "np"; "Any"; "IncorrectBufferLength"; "prob"; "entropy"; "confusion"; "CombinedDecoder.__init__"
    ; "CombinedDecoder.entropy_model_prediction"; "CombinedDecoder.update_entropy_model"; "CombinedDecoder.set_buffer_structures"
    ; "CombinedDecoder.mavlink_model_prediction"; "CombinedDecoder.classifier_analysis"; "CombinedDecoder.forcing_analysis"
    ; "CombinedDecoder.decode_buffer"; "CombinedDecoder.decode_and_update_model"; "CombinedDecoder"; "CombinedDecoder.decode_and_update_model.decode_success"
    ; "CombinedDecoder.decode_and_update_model.estimate"; "CombinedDecoder.decode_and_update_model.info_bytes"; "CombinedDecoder.decode_and_update_model.iterations"
    ; "CombinedDecoder.decode_and_update_model.llr"; "CombinedDecoder.decode_and_update_model.parts"; "CombinedDecoder.decode_and_update_model.structure"
    ; "CombinedDecoder.decode_and_update_model.syndrome"; "CombinedDecoder.decode_and_update_model.validity"; "CombinedDecoder.decode_and_update_model.vnode_validity"
    ; "CombinedDecoder.decode_and_update_model.self"; "CombinedDecoder.decode_and_update_model.decoder_input"; "CombinedDecoder.decode_and_update_model.label"
    ; "CombinedDecoder.decode_and_update_model.channel_bits"; "CombinedDecoder.decode_buffer.bad_bits"; "CombinedDecoder.decode_buffer.bad_fields_idx"
    ; "CombinedDecoder.decode_buffer.channel_bits"; "CombinedDecoder.decode_buffer.classifier_performance"; "CombinedDecoder.decode_buffer.clipping"
    ; "CombinedDecoder.decode_buffer.decoder_input"; "CombinedDecoder.decode_buffer.forced_bits"; "CombinedDecoder.decode_buffer.forcing_performance"
    ; "CombinedDecoder.decode_buffer.good_bits"; "CombinedDecoder.decode_buffer.good_fields_idx"; "CombinedDecoder.decode_buffer.label"
    ; "CombinedDecoder.decode_buffer.model_result"; "CombinedDecoder.decode_buffer.n_fields"; "CombinedDecoder.decode_buffer.segmented_bits"
    ; "CombinedDecoder.decode_buffer.self"; "CombinedDecoder.decode_buffer.channel_llr"; "CombinedDecoder.decode_buffer.error_idx"
    ; "CombinedDecoder.forcing_analysis.bits_confusion_matrix"; "CombinedDecoder.forcing_analysis.bits_flipped_from_forced"
    ; "CombinedDecoder.forcing_analysis.buffer_len_bits"; "CombinedDecoder.forcing_analysis.errors_bool"; "CombinedDecoder.forcing_analysis.flipping_confusion_matrix"
    ; "CombinedDecoder.forcing_analysis.forcing_quality"; "CombinedDecoder.forcing_analysis.model_bits"; "CombinedDecoder.forcing_analysis.n_bits_flipped"
    ; "CombinedDecoder.forcing_analysis.tx"; "CombinedDecoder.forcing_analysis.self"; "CombinedDecoder.forcing_analysis.forced_bits"
    ; "CombinedDecoder.forcing_analysis.error_idx"; "CombinedDecoder.forcing_analysis.rx"; "CombinedDecoder.forcing_analysis.label"
    ; "confusion.false_negative"; "confusion.false_positive"; "confusion.true_negative"; "confusion.true_positive"; "confusion.predicted_positive"
    ; "confusion.actual_positive"; "confusion.negative"; "CombinedDecoder.classifier_analysis.actual_good_fields"; "CombinedDecoder.classifier_analysis.bad_fields_performance"
    ; "CombinedDecoder.classifier_analysis.damaged"; "CombinedDecoder.classifier_analysis.damaged_fields"; "CombinedDecoder.classifier_analysis.good_fields_performance"
    ; "CombinedDecoder.classifier_analysis.self"; "CombinedDecoder.classifier_analysis.good_fields_idx"; "CombinedDecoder.classifier_analysis.bad_fields_idx"
    ; "CombinedDecoder.classifier_analysis.error_idx"; "CombinedDecoder.classifier_analysis.n_fields_in_buffer"; "CombinedDecoder.classifier_analysis.label"
    ; "CombinedDecoder.mavlink_model_prediction.bad_bits"; "CombinedDecoder.mavlink_model_prediction.bad_fields_idx"; "CombinedDecoder.mavlink_model_prediction.bitwise_std"
    ; "CombinedDecoder.mavlink_model_prediction.confidence"; "CombinedDecoder.mavlink_model_prediction.factor"; "CombinedDecoder.mavlink_model_prediction.forced_bits"
    ; "CombinedDecoder.mavlink_model_prediction.good_bits"; "CombinedDecoder.mavlink_model_prediction.good_fields_idx"; "CombinedDecoder.mavlink_model_prediction.info_bytes"
    ; "CombinedDecoder.mavlink_model_prediction.invalid_factor"; "CombinedDecoder.mavlink_model_prediction.max_llr"; "CombinedDecoder.mavlink_model_prediction.model_bits"
    ; "CombinedDecoder.mavlink_model_prediction.model_confidence"; "CombinedDecoder.mavlink_model_prediction.model_llr"; "CombinedDecoder.mavlink_model_prediction.modified_llr"
    ; "CombinedDecoder.mavlink_model_prediction.parts"; "CombinedDecoder.mavlink_model_prediction.structure"; "CombinedDecoder.mavlink_model_prediction.use_soft_rectification"
    ; "CombinedDecoder.mavlink_model_prediction.valid_bits_p"; "CombinedDecoder.mavlink_model_prediction.valid_factor"; "CombinedDecoder.mavlink_model_prediction.valid_field_p"
    ; "CombinedDecoder.mavlink_model_prediction.valid_info_bits"; "CombinedDecoder.mavlink_model_prediction.self"; "CombinedDecoder.mavlink_model_prediction.observation"
    ; "CombinedDecoder.mavlink_model_prediction.cluster_id"; "CombinedDecoder.mavlink_model_prediction.model_confidence.model_size"
    ; "CombinedDecoder.mavlink_model_prediction.model_confidence.center"; "CombinedDecoder.mavlink_model_prediction.model_confidence.slope"
    ; "CombinedDecoder.set_buffer_structures.self"; "CombinedDecoder.set_buffer_structures.buffer_structures"; "CombinedDecoder.update_entropy_model.arr"
    ; "CombinedDecoder.update_entropy_model.dist"; "CombinedDecoder.update_entropy_model.p1"; "CombinedDecoder.update_entropy_model.v"
    ; "CombinedDecoder.update_entropy_model.self"; "CombinedDecoder.update_entropy_model.bits"; "CombinedDecoder.update_entropy_model.cluster_id"
    ; "CombinedDecoder.entropy_model_prediction.confidence"; "CombinedDecoder.entropy_model_prediction.llr"; "CombinedDecoder.entropy_model_prediction.model_confidence"
    ; "CombinedDecoder.entropy_model_prediction.size"; "CombinedDecoder.entropy_model_prediction.structural_elements"; "CombinedDecoder.entropy_model_prediction.self"
    ; "CombinedDecoder.entropy_model_prediction.cluster_id"; "CombinedDecoder.entropy_model_prediction.model_confidence.model_size"
    ; "CombinedDecoder.entropy_model_prediction.model_confidence.center"; "CombinedDecoder.entropy_model_prediction.model_confidence.slope"
    ; "CombinedDecoder.__init__.self"; "CombinedDecoder.__init__.ldpc_decoder"; "CombinedDecoder.__init__.model_length"; "CombinedDecoder.__init__.valid_thr"
    ; "CombinedDecoder.__init__.invalid_thr"; "CombinedDecoder.__init__.n_clusters"; "CombinedDecoder.__init__.valid_factor"
    ; "CombinedDecoder.__init__.invalid_factor"; "CombinedDecoder.__init__.entropy_threshold"; "CombinedDecoder.__init__.clipping_factor"
    ; "CombinedDecoder.__init__.classifier_training_size"; "CombinedDecoder.__init__.cluster"; "CombinedDecoder.__init__.window_length"
    ; "CombinedDecoder.__init__.data_model"; "CombinedDecoder.__init__.conf_center"; "CombinedDecoder.__init__.conf_slope"
    ; "CombinedDecoder.__init__.debug"; "CombinedDecoder.__init__.bit_flip"];
  f_body :=
   [(* 1 *) Eval []; Bind [0;1;2];
   (* 2 *) Eval []; Bind [3];
   (* 3 *) Eval []; Bind [4;5];
   (* 4 *) Eval []; Bind [6];
   (* 5 *) Eval []; Bind [7];
   (* 6 *) Eval []; Bind [8;9];
   (* 7 *) Eval []; Bind [10];
   (* 8 *) Eval []; Bind [11];
   (* 9 *) Eval []; Bind [12];
   (* 10 *) Eval []; Bind [13;14];
   (* 13 *) Eval [9;8;10]; Bind [15];
   (* 23 *) Eval [4];
   (* 28 *) Eval [7;1]; Bind [16];
   (* 74 *) Eval [8;10]; Bind [17];
   (* 98 *) Eval [8;10]; Bind [18];
   (* 124 *) Eval [6]; Bind [19];
   (* 134 *) Eval [8;10]; Bind [20];
   (* 205 *) Eval [11]; Bind [21];
   (* 219 *) Eval [8;10;11]; Bind [22];
   (* 248 *) Eval [8;10;11]; Bind [23];
   (* 285 *) Eval [8;10;11]; Bind [24]; Bind [25]; Loop [If Opaque [Call [26;27;28;29;30;31;32;33;34;35] [36;37;38;39] [(* 286 *) Eval [36;37]; Bind [27;30;26;29;33;35];
      (* 287 *) Eval [38]; If Opaque [(* 288 *) Eval [36]; If Opaque [(* 289 *) Eval [26]; If Opaque [(* 290 *) Eval [36;38]; If Opaque [(* 291 *) Eval [36;27]; Bind [28];
          (* 292 *) Eval [36;28]; Bind [31;34;32];
          (* 293 *) Eval [32;36;38]] [];
         (* 294 *) Eval [36;27;38]] [(* 295 *) Eval [36;38]; If Opaque [(* 296 *) Eval [36;39;38]] []]] [];
       (* 297 *) Eval [26]; If Opaque [(* 298 *) Eval [36;27;38]] [(* 300 *) Eval [36;39;38]]] [];
      (* 301 *) Eval [27;30;26;29;38]; Return]] [If Opaque [Call [40;41;42;43;44;45;46;47;48;49;50;51;52;53] [54;55;56] [(* 249 *) Eval [10;55]; Bind [42];
       (* 250 *) Eval [55]; Bind [45];
       (* 251 *) Eval [54]; If Opaque [(* 252 *) Eval [54]; If Opaque [(* 253 *) Eval [54;42]; Bind [50];
         (* 254 *) Eval [50]; If Opaque [(* 255 *) Eval [54;55;50;42]; Return] []] [(* 257 *) Eval [54];
         (* 258 *) Eval [54]; Bind [50]]] [(* 260 *) Eval []; Bind [50]];
       (* 263 *) Eval [];
       (* 264 *) Eval [];
       (* 265 *) Eval [];
       (* 266 *) Eval [];
       (* 267 *) Eval [];
       (* 268 *) Eval [];
       (* 269 *) Eval [];
       (* 270 *) Eval [54;45;50]; Bind [45;48;40;49;41;52;46;53];
       (* 272 *) Eval [54]; If Opaque [(* 273 *) Eval [54;49;41;56;52;50]; Bind [43];
        (* 275 *) Eval [54;46;56;42;50]; Bind [47]] [];
       (* 278 *) Eval [54;50]; Bind [51];
       (* 279 *) Eval [51]; If Opaque [(* 280 *) Eval [54;55]; Bind [44];
        (* 281 *) Eval [45;51;10;44]] [];
       (* 283 *) Eval [54;45;50;42]; Return]] [If Opaque [Call [57;58;59;60;61;62;63;64;65] [66;67;68;69;70] [(* 225 *) Eval [69]; Bind [59];
        (* 226 *) Eval [15]; Loop [Call [71;72;73;74] [75;76;77] [(* 14 *) Eval [10;75;76]; Bind [74];
          (* 15 *) Eval [10;75;76]; Bind [72];
          (* 16 *) Eval [10;76;75]; Bind [71];
          (* 17 *) Eval [77;72]; Bind [73];
          (* 19 *) Eval [10;74;72;73;71;76;77]; Return]]; Eval [67;68;59]; Bind [57];
        (* 230 *) Eval [66;67;59;70]; Bind [63];
        (* 231 *) Eval [67;63;69;10]; Bind [58];
        (* 232 *) Eval [15]; Loop [Call [71;72;73;74] [75;76;77] [(* 14 *) Eval [10;75;76]; Bind [74];
          (* 15 *) Eval [10;75;76]; Bind [72];
          (* 16 *) Eval [10;76;75]; Bind [71];
          (* 17 *) Eval [77;72]; Bind [73];
          (* 19 *) Eval [10;74;72;73;71;76;77]; Return]]; Eval [58;68;59]; Bind [61];
        (* 233 *) Eval [58]; Bind [64];
        (* 234 *) Eval [10;69]; Bind [60];
        (* 235 *) Eval [60;68];
        (* 236 *) Eval [69;60]; Bind [65];
        (* 237 *) Eval [67]; If Opaque [(* 238 *) Eval [10;68;67;64;61;65;63]; Bind [62]] [(* 242 *) Eval [10;68;67;64;61]; Bind [62]];
        (* 245 *) Eval [57;61;62]; Return]] [If Opaque [Call [78;79;80;81;82] [83;84;85;86;87;88] [(* 207 *) Eval [83;88]; If Opaque [(* 208 *) Eval []; Return] [];
         (* 209 *) Eval [83;86;88]; Bind [80];
         (* 210 *) Eval [80]; If Opaque [(* 211 *) Eval []; Return] [];
         (* 212 *) Eval [10;80]; Bind [81];
         (* 213 *) Eval [15]; Loop [Call [71;72;73;74] [75;76;77] [(* 14 *) Eval [10;75;76]; Bind [74];
           (* 15 *) Eval [10;75;76]; Bind [72];
           (* 16 *) Eval [10;76;75]; Bind [71];
           (* 17 *) Eval [77;72]; Bind [73];
           (* 19 *) Eval [10;74;72;73;71;76;77]; Return]]; Eval [85;81;87;80]; Bind [79];
         (* 214 *) Eval [10;87;81]; Bind [78];
         (* 215 *) Eval [15]; Loop [Call [71;72;73;74] [75;76;77] [(* 14 *) Eval [10;75;76]; Bind [74];
           (* 15 *) Eval [10;75;76]; Bind [72];
           (* 16 *) Eval [10;76;75]; Bind [71];
           (* 17 *) Eval [77;72]; Bind [73];
           (* 19 *) Eval [10;74;72;73;71;76;77]; Return]]; Eval [84;78;80]; Bind [82];
         (* 216 *) Eval [87;81;82;79]; Return]] [If Opaque [Call [89;90;91;92;93;94;95;96;97;98;99;100;101;102;103;104;105;106;107;108;109;110] [111;112;113] [(* 144 *) Eval [111;113]; If Opaque [(* 145 *) Eval [112;10]; Return] [];
          (* 147 *) Eval [111;10;112;113]; Bind [109;107;91];
          (* 149 *) Eval [107;111]; Bind [95];
          (* 150 *) Eval [107;111]; Bind [89];
          (* 151 *) Eval [109]; If Opaque [Eval [111]] []; Bind [96];
          (* 152 *) Eval [109]; If Opaque [Eval [111]] []; Bind [90];
          (* 154 *) Eval [111]; If Opaque [(* 155 *) Eval [10]; Bind [101];
           (* 158 *) Eval [101]; Loop [Call [] [114;115;116] [(* 156 *) Eval [114]; If Opaque [] [Eval [10;114;115;116]]; Return]]; Eval [111]; Bind [92];
           (* 159 *) Eval [111;92]; Bind [108];
           (* 160 *) Eval [111;92]; Bind [98]] [(* 162 *) Eval [111]; Bind [108];
           (* 163 *) Eval [111]; Bind [98]];
          (* 165 *) Eval [112]; Bind [103];
          (* 166 *) Eval []; Bind [106];
          (* 167 *) Eval [106]; If Opaque [(* 168 *) Eval [10;112]; Bind [93];
           (* 169 *) Eval [93;95;107];
           (* 171 *) Eval [103;93]; Bind [103];
           (* 172 *) Eval [103;89;98]] [(* 174 *) Eval [103;95;108];
           (* 175 *) Eval [103;89;98]];
          (* 179 *) Eval [10;107;91]; Bind [94];
          (* 180 *) Eval [94]; If Opaque [(* 181 *) Eval [111;94;112;113]; Bind [100];
           (* 182 *) Eval [10;112]; Bind [99];
           (* 183 *) Eval [10;100;99]; Bind [102];
           (* 184 *) Eval [102;108;103;94]] [];
          (* 188 *) Eval [111;10;112]; Bind [97];
          (* 189 *) Eval [111;97]; Bind [104;110;105];
          (* 190 *) Eval [105]; If Opaque [(* 191 *) Eval [112;10;110;108;103];
           (* 192 *) Eval []] [(* 195 *) Eval [111;10;103]; Bind [97];
           (* 196 *) Eval [111;97]; Bind [104;110;105];
           (* 197 *) Eval [105]; If Opaque [(* 198 *) Eval [103;10;110];
            (* 199 *) Eval []] []];
          (* 202 *) Eval [103;95;89;96;90;109;94;10;110]; Return]] [If Opaque [Call [] [117;118] [(* 129 *) Eval [118;117]; If Opaque [(* 130 *) Eval [118;117]; Raise] [];
           (* 132 *) Eval [118;117]]] [If Opaque [Call [119;120;121;122] [123;124;125] [(* 102 *) Eval [124;123]; If Opaque [(* 103 *) Eval [123];
             (* 104 *) Eval [124];
             (* 105 *) Eval [12]; Raise] [];
            (* 106 *) Eval [124;10]; Bind [119];
            (* 108 *) Eval [123;125]; If Opaque [Eval [119]] [Eval [10;123;125;119]]; Eval [123;125];
            (* 110 *) Eval [123]; If Opaque [Eval [123;125]] []; If Opaque [(* 112 *) Eval [123;125]] [];
            (* 114 *) Eval [13;123;125]; Bind [120];
            (* 115 *) Eval [120]; Bind [122];
            (* 116 *) Eval [10;122;123]; Bind [121];
            (* 117 *) Eval [10;121;123;125];
            (* 119 *) Eval [121]; If Opaque [Eval [121]] []; If Opaque [(* 120 *) Eval [];
             (* 121 *) Eval []; Raise] [];
            (* 122 *) Eval [14;123;125]]] [If Opaque [Call [126;127;128;129;130] [131;132] [(* 75 *) Eval [10]; Bind [128];
             (* 80 *) Eval [131;132]; Bind [130];
             (* 83 *) Eval [130]; If Opaque [(* 84 *) Eval []; Return] [];
             (* 86 *) Eval [131;132]; If Opaque [Eval [131;132]] []; Bind [129];
             (* 87 *) Eval [128]; Loop [Call [] [133;134;135] [(* 76 *) Eval [133]; If Opaque [] [Eval [10;133;134;135]]; Return]]; Eval [129;131]; Bind [126];
             (* 91 *) Eval [126]; If Opaque [(* 92 *) Eval [126;10;131;132]; Bind [127];
              (* 96 *) Eval [127;130]; Return] []]] [If Opaque [Call [] [136;137;138;139;140;141;142;143;144;145;146;147;148;149;150;151;152;153] [(* 36 *) Eval [140;136];
              (* 37 *) Eval [141;136];
              (* 38 *) Eval [137;136];
              (* 39 *) Eval [138;136];
              (* 40 *) Eval [139;136];
              (* 41 *) Eval [148;136];
              (* 42 *) Eval [0;3;136];
              (* 43 *) Eval [149]; If Opaque [Eval [149]] [Eval [1;148]]; Eval [136];
              (* 44 *) Eval [149;136];
              (* 45 *) Eval [10;136];
              (* 46 *) Eval [138;136]; If Opaque [(* 47 *) Eval [10;138;136]] [(* 49 *) Eval [136;138];
               (* 50 *) Eval [10;136]];
              (* 52 *) Eval [136];
              (* 53 *) Eval [146;136];
              (* 54 *) Eval [141;136];
              (* 55 *) Eval [147;136];
              (* 56 *) Eval [147]; If Opaque [Eval [2;146;141]] []; Eval [136];
              (* 58 *) Eval [142;136];
              (* 59 *) Eval [143;136];
              (* 61 *) Eval [150;136];
              (* 62 *) Eval [151;136];
              (* 63 *) Eval [152;136];
              (* 65 *) Eval [141]; If Opaque [Eval [10]] []; Eval [136];
              (* 66 *) Eval [144;136];
              (* 67 *) Eval [145;136];
              (* 68 *) Eval [153;136];
              (* 69 *) Eval [141]; If Opaque [Eval [10]] []; Eval [136];
              (* 70 *) Eval [141]; If Opaque [Eval [10]] []; Eval [136];
              (* 72 *) Eval [5]]] [If Opaque [Call [71;72;73;74] [75;76;77] [(* 14 *) Eval [10;75;76]; Bind [74];
               (* 15 *) Eval [10;75;76]; Bind [72];
               (* 16 *) Eval [10;76;75]; Bind [71];
               (* 17 *) Eval [77;72]; Bind [73];
               (* 19 *) Eval [10;74;72;73;71;76;77]; Return]] []]]]]]]]]]]] |}.

(** decoders/combined_unified_decoder.py:1-331. *)
Definition py_decoders_combined_unified_decoder : file := {| f_name := "decoders/combined_unified_decoder.py";
  f_vars := ["BufferSegmentation"; "BufferModel"; "BufferClassifier"; "meta"; "Decoder"; "DecoderType"; "Sequence"; "LogSpaDecoder"
    ; "NDArray"; "ArrayLike"; "np"; "Any"; "IncorrectBufferLength"; "prob"; "entropy"; "confusion"; "CombinedUnifiedDecoder.__init__"
    ; "CombinedUnifiedDecoder.entropy_model_prediction"; "CombinedUnifiedDecoder.update_entropy_model"; "CombinedUnifiedDecoder.set_buffer_structures"
    ; "CombinedUnifiedDecoder.mavlink_model_prediction"; "CombinedUnifiedDecoder.classifier_analysis"; "CombinedUnifiedDecoder.forcing_analysis"
    ; "CombinedUnifiedDecoder.decode_buffer"; "CombinedUnifiedDecoder.decode_and_update_model"; "CombinedUnifiedDecoder"; "CombinedUnifiedDecoder.decode_and_update_model.decode_success"
    ; "CombinedUnifiedDecoder.decode_and_update_model.estimate"; "CombinedUnifiedDecoder.decode_and_update_model.info_bytes"
    ; "CombinedUnifiedDecoder.decode_and_update_model.iterations"; "CombinedUnifiedDecoder.decode_and_update_model.llr"; "CombinedUnifiedDecoder.decode_and_update_model.parts"
    ; "CombinedUnifiedDecoder.decode_and_update_model.structure"; "CombinedUnifiedDecoder.decode_and_update_model.syndrome"
    ; "CombinedUnifiedDecoder.decode_and_update_model.validity"; "CombinedUnifiedDecoder.decode_and_update_model.vnode_validity"
    ; "CombinedUnifiedDecoder.decode_and_update_model.self"; "CombinedUnifiedDecoder.decode_and_update_model.decoder_input"
    ; "CombinedUnifiedDecoder.decode_and_update_model.label"; "CombinedUnifiedDecoder.decode_and_update_model.channel_bits"
    ; "CombinedUnifiedDecoder.decode_buffer.bad_bits"; "CombinedUnifiedDecoder.decode_buffer.bad_fields_idx"; "CombinedUnifiedDecoder.decode_buffer.channel_bits"
    ; "CombinedUnifiedDecoder.decode_buffer.classifier_performance"; "CombinedUnifiedDecoder.decode_buffer.clipping"; "CombinedUnifiedDecoder.decode_buffer.decoder_input"
    ; "CombinedUnifiedDecoder.decode_buffer.forced_bits"; "CombinedUnifiedDecoder.decode_buffer.forcing_performance"; "CombinedUnifiedDecoder.decode_buffer.good_bits"
    ; "CombinedUnifiedDecoder.decode_buffer.good_fields_idx"; "CombinedUnifiedDecoder.decode_buffer.label"; "CombinedUnifiedDecoder.decode_buffer.model_result"
    ; "CombinedUnifiedDecoder.decode_buffer.n_fields"; "CombinedUnifiedDecoder.decode_buffer.segmented_bits"; "CombinedUnifiedDecoder.decode_buffer.self"
    ; "CombinedUnifiedDecoder.decode_buffer.channel_llr"; "CombinedUnifiedDecoder.decode_buffer.error_idx"; "CombinedUnifiedDecoder.forcing_analysis.bits_confusion_matrix"
    ; "CombinedUnifiedDecoder.forcing_analysis.bits_flipped_from_forced"; "CombinedUnifiedDecoder.forcing_analysis.buffer_len_bits"
    ; "CombinedUnifiedDecoder.forcing_analysis.errors_bool"; "CombinedUnifiedDecoder.forcing_analysis.flipping_confusion_matrix"
    ; "CombinedUnifiedDecoder.forcing_analysis.forcing_quality"; "CombinedUnifiedDecoder.forcing_analysis.model_bits"; "CombinedUnifiedDecoder.forcing_analysis.n_bits_flipped"
    ; "CombinedUnifiedDecoder.forcing_analysis.tx"; "CombinedUnifiedDecoder.forcing_analysis.self"; "CombinedUnifiedDecoder.forcing_analysis.forced_bits"
    ; "CombinedUnifiedDecoder.forcing_analysis.error_idx"; "CombinedUnifiedDecoder.forcing_analysis.rx"; "CombinedUnifiedDecoder.forcing_analysis.label"
    ; "confusion.false_negative"; "confusion.false_positive"; "confusion.true_negative"; "confusion.true_positive"; "confusion.predicted_positive"
    ; "confusion.actual_positive"; "confusion.negative"; "CombinedUnifiedDecoder.classifier_analysis.actual_good_fields"; "CombinedUnifiedDecoder.classifier_analysis.bad_fields_performance"
    ; "CombinedUnifiedDecoder.classifier_analysis.damaged"; "CombinedUnifiedDecoder.classifier_analysis.damaged_fields"; "CombinedUnifiedDecoder.classifier_analysis.good_fields_performance"
    ; "CombinedUnifiedDecoder.classifier_analysis.self"; "CombinedUnifiedDecoder.classifier_analysis.good_fields_idx"; "CombinedUnifiedDecoder.classifier_analysis.bad_fields_idx"
    ; "CombinedUnifiedDecoder.classifier_analysis.error_idx"; "CombinedUnifiedDecoder.classifier_analysis.n_fields_in_buffer"
    ; "CombinedUnifiedDecoder.classifier_analysis.label"; "CombinedUnifiedDecoder.mavlink_model_prediction.bad_bits"; "CombinedUnifiedDecoder.mavlink_model_prediction.bad_fields_idx"
    ; "CombinedUnifiedDecoder.mavlink_model_prediction.bitwise_std"; "CombinedUnifiedDecoder.mavlink_model_prediction.confidence"
    ; "CombinedUnifiedDecoder.mavlink_model_prediction.estimated_noiseless"; "CombinedUnifiedDecoder.mavlink_model_prediction.factor"
    ; "CombinedUnifiedDecoder.mavlink_model_prediction.flip"; "CombinedUnifiedDecoder.mavlink_model_prediction.forced_bits"
    ; "CombinedUnifiedDecoder.mavlink_model_prediction.good_bits"; "CombinedUnifiedDecoder.mavlink_model_prediction.good_fields_idx"
    ; "CombinedUnifiedDecoder.mavlink_model_prediction.info_bytes"; "CombinedUnifiedDecoder.mavlink_model_prediction.invalid_factor"
    ; "CombinedUnifiedDecoder.mavlink_model_prediction.max_llr"; "CombinedUnifiedDecoder.mavlink_model_prediction.model_bits"
    ; "CombinedUnifiedDecoder.mavlink_model_prediction.model_confidence"; "CombinedUnifiedDecoder.mavlink_model_prediction.model_llr"
    ; "CombinedUnifiedDecoder.mavlink_model_prediction.model_size"; "CombinedUnifiedDecoder.mavlink_model_prediction.modified_llr"
    ; "CombinedUnifiedDecoder.mavlink_model_prediction.parts"; "CombinedUnifiedDecoder.mavlink_model_prediction.structure"
    ; "CombinedUnifiedDecoder.mavlink_model_prediction.use_soft_rectification"; "CombinedUnifiedDecoder.mavlink_model_prediction.valid_bits_p"
    ; "CombinedUnifiedDecoder.mavlink_model_prediction.valid_factor"; "CombinedUnifiedDecoder.mavlink_model_prediction.valid_field_p"
    ; "CombinedUnifiedDecoder.mavlink_model_prediction.valid_info_bits"; "CombinedUnifiedDecoder.mavlink_model_prediction.self"
    ; "CombinedUnifiedDecoder.mavlink_model_prediction.observation"; "CombinedUnifiedDecoder.mavlink_model_prediction.cluster_id"
    ; "CombinedUnifiedDecoder.mavlink_model_prediction.model_confidence.model_size"; "CombinedUnifiedDecoder.mavlink_model_prediction.model_confidence.center"
    ; "CombinedUnifiedDecoder.mavlink_model_prediction.model_confidence.slope"; "CombinedUnifiedDecoder.set_buffer_structures.self"
    ; "CombinedUnifiedDecoder.set_buffer_structures.buffer_structures"; "CombinedUnifiedDecoder.update_entropy_model.arr"
    ; "CombinedUnifiedDecoder.update_entropy_model.dist"; "CombinedUnifiedDecoder.update_entropy_model.p1"; "CombinedUnifiedDecoder.update_entropy_model.v"
    ; "CombinedUnifiedDecoder.update_entropy_model.self"; "CombinedUnifiedDecoder.update_entropy_model.bits"; "CombinedUnifiedDecoder.update_entropy_model.cluster_id"
    ; "CombinedUnifiedDecoder.entropy_model_prediction.confidence"; "CombinedUnifiedDecoder.entropy_model_prediction.llr"
    ; "CombinedUnifiedDecoder.entropy_model_prediction.model_confidence"; "CombinedUnifiedDecoder.entropy_model_prediction.size"
    ; "CombinedUnifiedDecoder.entropy_model_prediction.structural_elements"; "CombinedUnifiedDecoder.entropy_model_prediction.self"
    ; "CombinedUnifiedDecoder.entropy_model_prediction.cluster_id"; "CombinedUnifiedDecoder.entropy_model_prediction.model_confidence.model_size"
    ; "CombinedUnifiedDecoder.entropy_model_prediction.model_confidence.center"; "CombinedUnifiedDecoder.entropy_model_prediction.model_confidence.slope"
    ; "CombinedUnifiedDecoder.__init__.self"; "CombinedUnifiedDecoder.__init__.ldpc_decoder"; "CombinedUnifiedDecoder.__init__.model_length"
    ; "CombinedUnifiedDecoder.__init__.valid_thr"; "CombinedUnifiedDecoder.__init__.invalid_thr"; "CombinedUnifiedDecoder.__init__.n_clusters"
    ; "CombinedUnifiedDecoder.__init__.valid_factor"; "CombinedUnifiedDecoder.__init__.invalid_factor"; "CombinedUnifiedDecoder.__init__.entropy_threshold"
    ; "CombinedUnifiedDecoder.__init__.clipping_factor"; "CombinedUnifiedDecoder.__init__.classifier_training_size"; "CombinedUnifiedDecoder.__init__.cluster"
    ; "CombinedUnifiedDecoder.__init__.window_length"; "CombinedUnifiedDecoder.__init__.data_model"; "CombinedUnifiedDecoder.__init__.conf_center"
    ; "CombinedUnifiedDecoder.__init__.conf_slope"; "CombinedUnifiedDecoder.__init__.debug"; "CombinedUnifiedDecoder.__init__.bit_flip"
    ; "CombinedUnifiedDecoder.__init__.flip"];
  f_body :=
   [(* 1 *) Eval []; Bind [0;1;2];
   (* 2 *) Eval []; Bind [3];
   (* 3 *) Eval []; Bind [4;5];
   (* 4 *) Eval []; Bind [6];
   (* 5 *) Eval []; Bind [7];
   (* 6 *) Eval []; Bind [8;9];
   (* 7 *) Eval []; Bind [10];
   (* 8 *) Eval []; Bind [11];
   (* 9 *) Eval []; Bind [12];
   (* 10 *) Eval []; Bind [13;14];
   (* 13 *) Eval [9;8;10]; Bind [15];
   (* 32 *) Eval [4];
   (* 37 *) Eval [7;1]; Bind [16];
   (* 84 *) Eval [8;10]; Bind [17];
   (* 108 *) Eval [8;10]; Bind [18];
   (* 134 *) Eval [6]; Bind [19];
   (* 144 *) Eval [8;10]; Bind [20];
   (* 235 *) Eval [11]; Bind [21];
   (* 249 *) Eval [8;10;11]; Bind [22];
   (* 278 *) Eval [8;10;11]; Bind [23];
   (* 315 *) Eval [8;10;11]; Bind [24]; Bind [25]; Loop [If Opaque [Call [26;27;28;29;30;31;32;33;34;35] [36;37;38;39] [(* 316 *) Eval [36;37]; Bind [27;30;26;29;33;35];
      (* 317 *) Eval [38]; If Opaque [(* 318 *) Eval [36]; If Opaque [(* 319 *) Eval [26]; If Opaque [(* 320 *) Eval [36;38]; If Opaque [(* 321 *) Eval [36;27]; Bind [28];
          (* 322 *) Eval [36;28]; Bind [31;34;32];
          (* 323 *) Eval [32;36;38]] [];
         (* 324 *) Eval [36;27;38]] [(* 325 *) Eval [36;38]; If Opaque [(* 326 *) Eval [36;39;38]] []]] [];
       (* 327 *) Eval [26]; If Opaque [(* 328 *) Eval [36;27;38]] [(* 330 *) Eval [36;39;38]]] [];
      (* 331 *) Eval [27;30;26;29;38]; Return]] [If Opaque [Call [40;41;42;43;44;45;46;47;48;49;50;51;52;53] [54;55;56] [(* 279 *) Eval [10;55]; Bind [42];
       (* 280 *) Eval [55]; Bind [45];
       (* 281 *) Eval [54]; If Opaque [(* 282 *) Eval [54]; If Opaque [(* 283 *) Eval [54;42]; Bind [50];
         (* 284 *) Eval [50]; If Opaque [(* 285 *) Eval [54;55;50;42]; Return] []] [(* 287 *) Eval [54];
         (* 288 *) Eval [54]; Bind [50]]] [(* 290 *) Eval []; Bind [50]];
       (* 293 *) Eval [];
       (* 294 *) Eval [];
       (* 295 *) Eval [];
       (* 296 *) Eval [];
       (* 297 *) Eval [];
       (* 298 *) Eval [];
       (* 299 *) Eval [];
       (* 300 *) Eval [54;45;50]; Bind [45;48;40;49;41;52;46;53];
       (* 302 *) Eval [54]; If Opaque [Eval [56]] []; If Opaque [(* 303 *) Eval [54;49;41;56;52;50]; Bind [43];
        (* 305 *) Eval [54;46;56;42;50]; Bind [47]] [];
       (* 308 *) Eval [54;50]; Bind [51];
       (* 309 *) Eval [51]; If Opaque [(* 310 *) Eval [54;55]; Bind [44];
        (* 311 *) Eval [45;51;10;44]] [];
       (* 313 *) Eval [54;45;50;42]; Return]] [If Opaque [Call [57;58;59;60;61;62;63;64;65] [66;67;68;69;70] [(* 255 *) Eval [69]; Bind [59];
        (* 256 *) Eval [15]; Loop [Call [71;72;73;74] [75;76;77] [(* 23 *) Eval [10;75;76]; Bind [74];
          (* 24 *) Eval [10;75;76]; Bind [72];
          (* 25 *) Eval [10;76;75]; Bind [71];
          (* 26 *) Eval [77;72]; Bind [73];
          (* 28 *) Eval [10;74;72;73;71;76;77]; Return]]; Eval [67;68;59]; Bind [57];
        (* 260 *) Eval [66;67;59;70]; Bind [63];
        (* 261 *) Eval [67;63;69;10]; Bind [58];
        (* 262 *) Eval [15]; Loop [Call [71;72;73;74] [75;76;77] [(* 23 *) Eval [10;75;76]; Bind [74];
          (* 24 *) Eval [10;75;76]; Bind [72];
          (* 25 *) Eval [10;76;75]; Bind [71];
          (* 26 *) Eval [77;72]; Bind [73];
          (* 28 *) Eval [10;74;72;73;71;76;77]; Return]]; Eval [58;68;59]; Bind [61];
        (* 263 *) Eval [58]; Bind [64];
        (* 264 *) Eval [10;69]; Bind [60];
        (* 265 *) Eval [60;68];
        (* 266 *) Eval [69;60]; Bind [65];
        (* 267 *) Eval [67]; If Opaque [(* 268 *) Eval [10;68;67;64;61;65;63]; Bind [62]] [(* 272 *) Eval [10;68;67;64;61]; Bind [62]];
        (* 275 *) Eval [57;61;62]; Return]] [If Opaque [Call [78;79;80;81;82] [83;84;85;86;87;88] [(* 237 *) Eval [83;88]; If Opaque [(* 238 *) Eval []; Return] [];
         (* 239 *) Eval [83;86;88]; Bind [80];
         (* 240 *) Eval [80]; If Opaque [(* 241 *) Eval []; Return] [];
         (* 242 *) Eval [10;80]; Bind [81];
         (* 243 *) Eval [15]; Loop [Call [71;72;73;74] [75;76;77] [(* 23 *) Eval [10;75;76]; Bind [74];
           (* 24 *) Eval [10;75;76]; Bind [72];
           (* 25 *) Eval [10;76;75]; Bind [71];
           (* 26 *) Eval [77;72]; Bind [73];
           (* 28 *) Eval [10;74;72;73;71;76;77]; Return]]; Eval [85;81;87;80]; Bind [79];
         (* 244 *) Eval [10;87;81]; Bind [78];
         (* 245 *) Eval [15]; Loop [Call [71;72;73;74] [75;76;77] [(* 23 *) Eval [10;75;76]; Bind [74];
           (* 24 *) Eval [10;75;76]; Bind [72];
           (* 25 *) Eval [10;76;75]; Bind [71];
           (* 26 *) Eval [77;72]; Bind [73];
           (* 28 *) Eval [10;74;72;73;71;76;77]; Return]]; Eval [84;78;80]; Bind [82];
         (* 246 *) Eval [87;81;82;79]; Return]] [If Opaque [Call [89;90;91;92;93;94;95;96;97;98;99;100;101;102;103;104;105;106;107;108;109;110;111;112;113] [114;115;116] [(* 154 *) Eval [114;116]; If Opaque [(* 155 *) Eval [115;10]; Return] [];
          (* 157 *) Eval [114;10;115;116]; Bind [112;110;91];
          (* 159 *) Eval [110;114]; Bind [97];
          (* 160 *) Eval [110;114]; Bind [89];
          (* 161 *) Eval [112]; If Opaque [Eval [114]] []; Bind [98];
          (* 162 *) Eval [112]; If Opaque [Eval [114]] []; Bind [90];
          (* 164 *) Eval [114]; If Opaque [(* 165 *) Eval [10]; Bind [103];
           (* 168 *) Eval [103]; Loop [Call [] [117;118;119] [(* 166 *) Eval [117]; If Opaque [] [Eval [10;117;118;119]]; Return]]; Eval [114]; Bind [92];
           (* 169 *) Eval [114;92]; Bind [111];
           (* 170 *) Eval [114;92]; Bind [100]] [(* 172 *) Eval []; Bind [92];
           (* 173 *) Eval [114]; Bind [111];
           (* 174 *) Eval [114]; Bind [100]];
          (* 176 *) Eval [115]; Bind [106];
          (* 177 *) Eval []; Bind [109];
          (* 178 *) Eval [109]; If Opaque [(* 179 *) Eval [10;115]; Bind [94];
           (* 180 *) Eval [110;97;94];
           (* 182 *) Eval [106;94]; Bind [106];
           (* 183 *) Eval [106;89;100]] [(* 185 *) Eval [114;116]; If Opaque [Eval [114;116]] []; Bind [105];
           (* 186 *) Eval [105;114]; If Opaque [(* 188 *) Eval [97;114;116]; Bind [97];
            (* 189 *) Eval [106;97;111];
            (* 192 *) Eval [89;114;116]; Bind [89];
            (* 195 *) Eval [10;114;116]; Bind [93];
            (* 196 *) Eval [93;10;115;114;89]; Bind [89];
            (* 198 *) Eval [114]; Bind [95];
            (* 199 *) Eval [106;89;100;95]] []];
          (* 206 *) Eval [114]; If Opaque [(* 207 *) Eval [10;110;91]; Bind [96]] [(* 209 *) Eval [10;91]; Bind [96]];
          (* 210 *) Eval [96]; If Opaque [(* 211 *) Eval [114;96;115;116]; Bind [102];
           (* 212 *) Eval [10;115]; Bind [101];
           (* 213 *) Eval [10;102;101]; Bind [104];
           (* 214 *) Eval [104;111;106;96]] [];
          (* 218 *) Eval [114;10;115]; Bind [99];
          (* 219 *) Eval [114;99]; Bind [107;113;108];
          (* 220 *) Eval [108]; If Opaque [(* 221 *) Eval [115;10;113;111;106];
           (* 222 *) Eval []] [(* 225 *) Eval [114;10;106]; Bind [99];
           (* 226 *) Eval [114;99]; Bind [107;113;108];
           (* 227 *) Eval [108]; If Opaque [(* 228 *) Eval [106;10;113];
            (* 229 *) Eval []] []];
          (* 232 *) Eval [106;97;89;98;90;112;96;10;113]; Return]] [If Opaque [Call [] [120;121] [(* 139 *) Eval [121;120]; If Opaque [(* 140 *) Eval [121;120]; Raise] [];
           (* 142 *) Eval [121;120]]] [If Opaque [Call [122;123;124;125] [126;127;128] [(* 112 *) Eval [127;126]; If Opaque [(* 113 *) Eval [126];
             (* 114 *) Eval [127];
             (* 115 *) Eval [12]; Raise] [];
            (* 116 *) Eval [127;10]; Bind [122];
            (* 118 *) Eval [126;128]; If Opaque [Eval [122]] [Eval [10;126;128;122]]; Eval [126;128];
            (* 120 *) Eval [126]; If Opaque [Eval [126;128]] []; If Opaque [(* 122 *) Eval [126;128]] [];
            (* 124 *) Eval [13;126;128]; Bind [123];
            (* 125 *) Eval [123]; Bind [125];
            (* 126 *) Eval [10;125;126]; Bind [124];
            (* 127 *) Eval [10;124;126;128];
            (* 129 *) Eval [124]; If Opaque [Eval [124]] []; If Opaque [(* 130 *) Eval [];
             (* 131 *) Eval []; Raise] [];
            (* 132 *) Eval [14;126;128]]] [If Opaque [Call [129;130;131;132;133] [134;135] [(* 85 *) Eval [10]; Bind [131];
             (* 90 *) Eval [134;135]; Bind [133];
             (* 93 *) Eval [133]; If Opaque [(* 94 *) Eval []; Return] [];
             (* 96 *) Eval [134;135]; If Opaque [Eval [134;135]] []; Bind [132];
             (* 97 *) Eval [131]; Loop [Call [] [136;137;138] [(* 86 *) Eval [136]; If Opaque [] [Eval [10;136;137;138]]; Return]]; Eval [132;134]; Bind [129];
             (* 101 *) Eval [129]; If Opaque [(* 102 *) Eval [129;10;134;135]; Bind [130];
              (* 106 *) Eval [130;133]; Return] []]] [If Opaque [Call [] [139;140;141;142;143;144;145;146;147;148;149;150;151;152;153;154;155;156;157] [(* 45 *) Eval [143;139];
              (* 46 *) Eval [144;139];
              (* 47 *) Eval [140;139];
              (* 48 *) Eval [141;139];
              (* 49 *) Eval [142;139];
              (* 50 *) Eval [151;139];
              (* 51 *) Eval [0;3;139];
              (* 52 *) Eval [152]; If Opaque [Eval [152]] [Eval [1;151]]; Eval [139];
              (* 53 *) Eval [152;139];
              (* 54 *) Eval [10;139];
              (* 55 *) Eval [141;139]; If Opaque [(* 56 *) Eval [10;141;139]] [(* 58 *) Eval [139;141];
               (* 59 *) Eval [10;139]];
              (* 61 *) Eval [139];
              (* 62 *) Eval [149;139];
              (* 63 *) Eval [144;139];
              (* 64 *) Eval [150;139];
              (* 65 *) Eval [150]; If Opaque [Eval [2;149;144]] []; Eval [139];
              (* 67 *) Eval [145;139];
              (* 68 *) Eval [146;139];
              (* 70 *) Eval [153;139];
              (* 71 *) Eval [154;139];
              (* 72 *) Eval [155;139];
              (* 74 *) Eval [144]; If Opaque [Eval [10]] []; Eval [139];
              (* 75 *) Eval [147;139];
              (* 76 *) Eval [148;139];
              (* 77 *) Eval [156;139];
              (* 78 *) Eval [144]; If Opaque [Eval [10]] []; Eval [139];
              (* 79 *) Eval [144]; If Opaque [Eval [10]] []; Eval [139];
              (* 81 *) Eval [157;139];
              (* 82 *) Eval [5]]] [If Opaque [Call [71;72;73;74] [75;76;77] [(* 23 *) Eval [10;75;76]; Bind [74];
               (* 24 *) Eval [10;75;76]; Bind [72];
               (* 25 *) Eval [10;76;75]; Bind [71];
               (* 26 *) Eval [77;72]; Bind [73];
               (* 28 *) Eval [10;74;72;73;71;76;77]; Return]] []]]]]]]]]]]] |}.

(** decoders/decoder.py:1-35. *)
Definition py_decoders_decoder : file := {| f_name := "decoders/decoder.py";
  f_vars := ["ABC"; "abstractmethod"; "Enum"; "auto"; "NDArray"; "np"; "DecoderType.ENTROPY"; "DecoderType.MAVLINK"; "DecoderType.COMBINED"
    ; "DecoderType.CLASSIFYING"; "DecoderType.DUDE"; "DecoderType.TURBO"; "DecoderType"; "Decoder.__init__"; "Decoder.decode_buffer"
    ; "Decoder"; "Decoder.decode_buffer.self"; "Decoder.decode_buffer.channel_word"; "Decoder.__init__.self"; "Decoder.__init__.decoder_type"
    ];
  f_body :=
   [(* 2 *) Eval []; Bind [0;1];
   (* 3 *) Eval []; Bind [2;3];
   (* 4 *) Eval []; Bind [4];
   (* 5 *) Eval []; Bind [5];
   (* 8 *) Eval [2];
   (* 10 *) Eval [3]; Bind [6];
   (* 11 *) Eval [3]; Bind [7];
   (* 12 *) Eval [3]; Bind [8];
   (* 13 *) Eval [3]; Bind [9];
   (* 14 *) Eval [3]; Bind [10];
   (* 15 *) Eval [3]; Bind [11]; Bind [12];
   (* 18 *) Eval [0];
   (* 21 *) Eval [12]; Bind [13];
   (* 25 *) Eval [1;4;5]; Bind [14]; Bind [15]; Loop [If Opaque [Call [] [16;17] []] [If Opaque [Call [] [18;19] [(* 22 *) Eval [19;18]]] []]]] |}.

(** decoders/entropy_bitwise_decoder.py:1-508. *)
Definition py_decoders_entropy_bitwise_decoder : file := {| f_name := "decoders/entropy_bitwise_decoder.py";
  f_vars := ["Decoder"; "DecoderType"; "BufferSegmentation"; "MsgParts"; "meta"; "Sequence"; "LogSpaDecoder"; "NDArray"; "np"
    ; "Optional"; "IncorrectBufferLength"; "prob"; "entropy"; "EntropyBitwiseDecoder.__init__"; "EntropyBitwiseDecoder.decode_buffer"
    ; "EntropyBitwiseDecoder.update_model"; "EntropyBitwiseDecoder.model_prediction"; "EntropyBitwiseDecoder"; "EntropyBitwiseFlippingDecoder.__init__"
    ; "EntropyBitwiseFlippingDecoder.decode_buffer"; "EntropyBitwiseFlippingDecoder.update_model"; "EntropyBitwiseFlippingDecoder.model_prediction"
    ; "EntropyBitwiseFlippingDecoder"; "EntropyBitwiseWeightedDecoder.__init__"; "EntropyBitwiseWeightedDecoder.decode_buffer"
    ; "EntropyBitwiseWeightedDecoder.update_model_a"; "EntropyBitwiseWeightedDecoder.update_model_b"; "EntropyBitwiseWeightedDecoder.model_prediction"
    ; "EntropyBitwiseWeightedDecoder"; "__all__"; "EntropyBitwiseWeightedDecoder.model_prediction.a_confidence"; "EntropyBitwiseWeightedDecoder.model_prediction.a_size"
    ; "EntropyBitwiseWeightedDecoder.model_prediction.a_structural_elements"; "EntropyBitwiseWeightedDecoder.model_prediction.b_confidence"
    ; "EntropyBitwiseWeightedDecoder.model_prediction.b_size"; "EntropyBitwiseWeightedDecoder.model_prediction.b_structural_elements"
    ; "EntropyBitwiseWeightedDecoder.model_prediction.clipping"; "EntropyBitwiseWeightedDecoder.model_prediction.llr"; "EntropyBitwiseWeightedDecoder.model_prediction.model_confidence"
    ; "EntropyBitwiseWeightedDecoder.model_prediction.s"; "EntropyBitwiseWeightedDecoder.model_prediction.self"; "EntropyBitwiseWeightedDecoder.model_prediction.observation"
    ; "EntropyBitwiseWeightedDecoder.model_prediction.model_confidence.model_size"; "EntropyBitwiseWeightedDecoder.model_prediction.model_confidence.center"
    ; "EntropyBitwiseWeightedDecoder.model_prediction.model_confidence.slope"; "EntropyBitwiseWeightedDecoder.update_model_b.arr"
    ; "EntropyBitwiseWeightedDecoder.update_model_b.gcd"; "EntropyBitwiseWeightedDecoder.update_model_b.m"; "EntropyBitwiseWeightedDecoder.update_model_b.p1"
    ; "EntropyBitwiseWeightedDecoder.update_model_b.v"; "EntropyBitwiseWeightedDecoder.update_model_b.var"; "EntropyBitwiseWeightedDecoder.update_model_b.self"
    ; "EntropyBitwiseWeightedDecoder.update_model_b.bits"; "EntropyBitwiseWeightedDecoder.update_model_a.arr"; "EntropyBitwiseWeightedDecoder.update_model_a.gcd"
    ; "EntropyBitwiseWeightedDecoder.update_model_a.m"; "EntropyBitwiseWeightedDecoder.update_model_a.p1"; "EntropyBitwiseWeightedDecoder.update_model_a.v"
    ; "EntropyBitwiseWeightedDecoder.update_model_a.var"; "EntropyBitwiseWeightedDecoder.update_model_a.self"; "EntropyBitwiseWeightedDecoder.update_model_a.bits"
    ; "EntropyBitwiseWeightedDecoder.decode_buffer.channel_bits"; "EntropyBitwiseWeightedDecoder.decode_buffer.decode_success"
    ; "EntropyBitwiseWeightedDecoder.decode_buffer.estimate"; "EntropyBitwiseWeightedDecoder.decode_buffer.iterations"; "EntropyBitwiseWeightedDecoder.decode_buffer.llr"
    ; "EntropyBitwiseWeightedDecoder.decode_buffer.model_bits"; "EntropyBitwiseWeightedDecoder.decode_buffer.model_bytes"
    ; "EntropyBitwiseWeightedDecoder.decode_buffer.model_llr"; "EntropyBitwiseWeightedDecoder.decode_buffer.msg_parts"; "EntropyBitwiseWeightedDecoder.decode_buffer.structure"
    ; "EntropyBitwiseWeightedDecoder.decode_buffer.syndrome"; "EntropyBitwiseWeightedDecoder.decode_buffer.validity"; "EntropyBitwiseWeightedDecoder.decode_buffer.vnode_validity"
    ; "EntropyBitwiseWeightedDecoder.decode_buffer.self"; "EntropyBitwiseWeightedDecoder.decode_buffer.channel_llr"; "EntropyBitwiseWeightedDecoder.__init__.self"
    ; "EntropyBitwiseWeightedDecoder.__init__.ldpc_decoder"; "EntropyBitwiseWeightedDecoder.__init__.model_length"; "EntropyBitwiseWeightedDecoder.__init__.entropy_threshold"
    ; "EntropyBitwiseWeightedDecoder.__init__.clipping_factor"; "EntropyBitwiseWeightedDecoder.__init__.window_length"; "EntropyBitwiseWeightedDecoder.__init__.a_conf_center"
    ; "EntropyBitwiseWeightedDecoder.__init__.a_conf_slope"; "EntropyBitwiseWeightedDecoder.__init__.b_conf_center"; "EntropyBitwiseWeightedDecoder.__init__.b_conf_slope"
    ; "EntropyBitwiseWeightedDecoder.__init__.confidence"; "EntropyBitwiseWeightedDecoder.__init__.estimator"; "EntropyBitwiseWeightedDecoder.__init__.bit_flip"
    ; "EntropyBitwiseWeightedDecoder.__init__.corrected_dist"; "EntropyBitwiseFlippingDecoder.model_prediction.prediction"
    ; "EntropyBitwiseFlippingDecoder.model_prediction.self"; "EntropyBitwiseFlippingDecoder.model_prediction.observation"
    ; "EntropyBitwiseFlippingDecoder.update_model.arr"; "EntropyBitwiseFlippingDecoder.update_model.self"; "EntropyBitwiseFlippingDecoder.update_model.bits"
    ; "EntropyBitwiseFlippingDecoder.decode_buffer.decode_success"; "EntropyBitwiseFlippingDecoder.decode_buffer.estimate"
    ; "EntropyBitwiseFlippingDecoder.decode_buffer.iterations"; "EntropyBitwiseFlippingDecoder.decode_buffer.llr"; "EntropyBitwiseFlippingDecoder.decode_buffer.model_bits"
    ; "EntropyBitwiseFlippingDecoder.decode_buffer.model_bytes"; "EntropyBitwiseFlippingDecoder.decode_buffer.model_word"
    ; "EntropyBitwiseFlippingDecoder.decode_buffer.msg_parts"; "EntropyBitwiseFlippingDecoder.decode_buffer.structure"; "EntropyBitwiseFlippingDecoder.decode_buffer.syndrome"
    ; "EntropyBitwiseFlippingDecoder.decode_buffer.validity"; "EntropyBitwiseFlippingDecoder.decode_buffer.vnode_validity"
    ; "EntropyBitwiseFlippingDecoder.decode_buffer.self"; "EntropyBitwiseFlippingDecoder.decode_buffer.channel_word"; "EntropyBitwiseFlippingDecoder.__init__.self"
    ; "EntropyBitwiseFlippingDecoder.__init__.ldpc_decoder"; "EntropyBitwiseFlippingDecoder.__init__.model_length"; "EntropyBitwiseFlippingDecoder.__init__.entropy_threshold"
    ; "EntropyBitwiseFlippingDecoder.__init__.min_data"; "EntropyBitwiseFlippingDecoder.__init__.window_length"; "EntropyBitwiseFlippingDecoder.__init__.model"
    ; "EntropyBitwiseDecoder.model_prediction.clipping"; "EntropyBitwiseDecoder.model_prediction.llr"; "EntropyBitwiseDecoder.model_prediction.self"
    ; "EntropyBitwiseDecoder.model_prediction.observation"; "EntropyBitwiseDecoder.update_model.arr"; "EntropyBitwiseDecoder.update_model.self"
    ; "EntropyBitwiseDecoder.update_model.bits"; "EntropyBitwiseDecoder.decode_buffer.decode_success"; "EntropyBitwiseDecoder.decode_buffer.estimate"
    ; "EntropyBitwiseDecoder.decode_buffer.iterations"; "EntropyBitwiseDecoder.decode_buffer.llr"; "EntropyBitwiseDecoder.decode_buffer.model_bits"
    ; "EntropyBitwiseDecoder.decode_buffer.model_bytes"; "EntropyBitwiseDecoder.decode_buffer.model_llr"; "EntropyBitwiseDecoder.decode_buffer.msg_parts"
    ; "EntropyBitwiseDecoder.decode_buffer.structure"; "EntropyBitwiseDecoder.decode_buffer.syndrome"; "EntropyBitwiseDecoder.decode_buffer.validity"
    ; "EntropyBitwiseDecoder.decode_buffer.vnode_validity"; "EntropyBitwiseDecoder.decode_buffer.self"; "EntropyBitwiseDecoder.decode_buffer.channel_llr"
    ; "EntropyBitwiseDecoder.__init__.self"; "EntropyBitwiseDecoder.__init__.ldpc_decoder"; "EntropyBitwiseDecoder.__init__.model_length"
    ; "EntropyBitwiseDecoder.__init__.entropy_threshold"; "EntropyBitwiseDecoder.__init__.clipping_factor"; "EntropyBitwiseDecoder.__init__.min_data"
    ; "EntropyBitwiseDecoder.__init__.window_length"; "EntropyBitwiseDecoder.__init__.model"];
  f_body :=
   [(* 1 *) Eval []; Bind [0;1];
   (* 2 *) Eval []; Bind [2;3];
   (* 3 *) Eval []; Bind [4];
   (* 4 *) Eval []; Bind [5];
   (* 5 *) Eval []; Bind [6];
   (* 6 *) Eval []; Bind [7];
   (* 7 *) Eval []; Bind [8];
   (* 8 *) Eval []; Bind [9];
   (* 9 *) Eval []; Bind [10];
   (* 10 *) Eval []; Bind [11;12];
   (* 13 *) Eval [0];
   (* 21 *) Eval [6;9;7;8]; Bind [13];
   (* 57 *) Eval [5;8;7]; Bind [14];
   (* 87 *) Eval [7;8]; Bind [15];
   (* 103 *) Eval [7;8]; Bind [16]; Bind [17];
   (* 125 *) Eval [0];
   (* 132 *) Eval [6;9;7;8]; Bind [18];
   (* 167 *) Eval [5;8;7]; Bind [19];
   (* 197 *) Eval [7;8]; Bind [20];
   (* 213 *) Eval [7;8]; Bind [21]; Bind [22];
   (* 231 *) Eval [0];
   (* 242 *) Eval [6;9]; Bind [23];
   (* 290 *) Eval [5;8;7]; Bind [24];
   (* 339 *) Eval [7;8]; Bind [25];
   (* 391 *) Eval [7;8]; Bind [26];
   (* 443 *) Eval [7;8]; Bind [27]; Bind [28];
   (* 508 *) Eval []; Bind [29]; Loop [If Opaque [Call [30;31;32;33;34;35;36;37;38;39] [40;41] [(* 450 *) Eval [8]; Bind [38];
      (* 453 *) Eval [41]; Bind [37];
      (* 456 *) Eval [40]; Bind [32];
      (* 457 *) Eval [40]; Bind [35];
      (* 459 *) Eval [32]; If Opaque [Eval [35]] []; If Opaque [(* 460 *) Eval [37]; Return] [];
      (* 462 *) Eval [40]; If Opaque [(* 463 *) Eval [40]; Bind [31];
       (* 464 *) Eval [40]; Bind [34]] [(* 466 *) Eval [40]; If Opaque [Eval [40]] []; Bind [31];
       (* 467 *) Eval [40]; If Opaque [Eval [40]] []; Bind [34]];
      (* 469 *) Eval [38]; Loop [Call [] [42;43;44] [(* 451 *) Eval [42]; If Opaque [] [Eval [8;42;43;44]]; Return]]; Eval [31;40]; Bind [30];
      (* 470 *) Eval [38]; Loop [Call [] [42;43;44] [(* 451 *) Eval [42]; If Opaque [] [Eval [8;42;43;44]]; Return]]; Eval [34;40]; Bind [33];
      (* 473 *) Eval [40]; If Opaque [] [(* 475 *) Eval [40]; If Opaque [(* 476 *) Eval [30;33]; Bind [39];
        (* 477 *) Eval [39]; If Opaque [(* 478 *) Eval [30;39]; Bind [30];
         (* 479 *) Eval [33;39]; Bind [33]] []] [(* 480 *) Eval [40]; If Opaque [(* 481 *) Eval [30;33]; Bind [39];
         (* 482 *) Eval [39]; If Opaque [(* 483 *) Eval [30;39]; Bind [30];
          (* 484 *) Eval [33;39]; Bind [33]] []] [(* 485 *) Eval [40]; If Opaque [(* 486 *) Eval []; Bind [33]] [(* 487 *) Eval [40]; If Opaque [(* 488 *) Eval [30;8;40]; Bind [30];
           (* 489 *) Eval [33;8;40]; Bind [33]] [(* 490 *) Eval [40]; If Opaque [(* 491 *) Eval []; Bind [30]] []]]]]];
      (* 493 *) Eval [40;37]; Bind [36];
      (* 496 *) Eval [30]; If Opaque [(* 497 *) Eval [37;32;30;8;40]] [];
      (* 500 *) Eval [33]; If Opaque [(* 501 *) Eval [37;35;33;8;40]] [];
      (* 505 *) Eval [8;37;36]; Return]] [If Opaque [Call [45;46;47;48;49;50] [51;52] [(* 395 *) Eval [52;51]; If Opaque [(* 396 *) Eval [10]; Raise] [];
       (* 397 *) Eval [52;8]; Bind [45];
       (* 399 *) Eval [51]; If Opaque [(* 400 *) Eval [51;52];
        (* 401 *) Eval [51;52];
        (* 403 *) Eval [51]; If Opaque [(* 404 *) Eval [8;51]; Bind [46];
         (* 405 *) Eval [51;46];
         (* 406 *) Eval [51;46];
         (* 407 *) Eval [51]; If Opaque [(* 408 *) Eval [51]; Bind [47];
          (* 409 *) Eval [51;47];
          (* 410 *) Eval [51;47]] []] [];
        (* 412 *) Eval [8;51]; Bind [49];
        (* 414 *) Eval [8;49;51]; Bind [48];
        (* 416 *) Eval [51;8]; Bind [50];
        (* 420 *) Eval [50;51];
        (* 421 *) Eval [8;48;51]] [(* 423 *) Eval [51]; If Opaque [Eval [45]] [Eval [8;51;45]]; Eval [51];
        (* 424 *) Eval [51]; If Opaque [Eval [51]] []; If Opaque [(* 426 *) Eval [51]] [];
        (* 427 *) Eval [11;51];
        (* 428 *) Eval [51]; If Opaque [(* 429 *) Eval [51]; Bind [49];
         (* 430 *) Eval [8;49;51]; Bind [48];
         (* 431 *) Eval [8;48;51]] [(* 433 *) Eval [51]; Bind [48]];
        (* 437 *) Eval [8;48;51]];
       (* 438 *) Eval [48]; If Opaque [Eval [48]] []; If Opaque [(* 439 *) Eval [];
        (* 440 *) Eval []; Raise] [];
       (* 441 *) Eval [12;51]]] [If Opaque [Call [53;54;55;56;57;58] [59;60] [(* 343 *) Eval [60;59]; If Opaque [(* 344 *) Eval [10]; Raise] [];
        (* 345 *) Eval [60;8]; Bind [53];
        (* 347 *) Eval [59]; If Opaque [(* 348 *) Eval [59;60];
         (* 349 *) Eval [59;60];
         (* 351 *) Eval [59]; If Opaque [(* 352 *) Eval [8;59]; Bind [54];
          (* 353 *) Eval [59;54];
          (* 354 *) Eval [59;54];
          (* 355 *) Eval [59]; If Opaque [(* 356 *) Eval [59]; Bind [55];
           (* 357 *) Eval [59;55];
           (* 358 *) Eval [59;55]] []] [];
         (* 361 *) Eval [8;59]; Bind [57];
         (* 362 *) Eval [8;57;59]; Bind [56];
         (* 364 *) Eval [59;8]; Bind [58];
         (* 368 *) Eval [58;59];
         (* 369 *) Eval [8;56;59]] [(* 371 *) Eval [59]; If Opaque [Eval [53]] [Eval [8;59;53]]; Eval [59];
         (* 372 *) Eval [59]; If Opaque [Eval [59]] []; If Opaque [(* 374 *) Eval [59]] [];
         (* 375 *) Eval [11;59];
         (* 376 *) Eval [59]; If Opaque [(* 377 *) Eval [59]; Bind [57];
          (* 378 *) Eval [8;57;59]; Bind [56];
          (* 379 *) Eval [8;56;59]] [(* 381 *) Eval [59]; Bind [56]];
         (* 385 *) Eval [8;56;59]];
        (* 386 *) Eval [56]; If Opaque [Eval [56]] []; If Opaque [(* 387 *) Eval [];
         (* 388 *) Eval []; Raise] [];
        (* 389 *) Eval [12;59]]] [If Opaque [Call [61;62;63;64;65;66;67;68;69;70;71;72;73] [74;75] [(* 309 *) Eval [74;75]; Bind [63;65;62;64;71;73];
         (* 310 *) Eval [62]; If Opaque [(* 311 *) Eval [63;74]; Bind [66];
          (* 312 *) Eval [8;66]; Bind [67];
          (* 313 *) Eval [74;67]; Bind [69;72;70];
          (* 314 *) Eval [3;69]; If Opaque [(* 315 *) Eval [74;66]] [];
          (* 316 *) Eval [74;66];
          (* 318 *) Eval [63;65;62;64;71;73;70;74]; Return] [];
         (* 324 *) Eval [74;75]; Bind [68];
         (* 325 *) Eval [74;68]; Bind [63;65;62;64;71;73];
         (* 326 *) Eval [63;74]; Bind [66];
         (* 327 *) Eval [8;66]; Bind [67];
         (* 328 *) Eval [74;67]; Bind [69;72;70];
         (* 329 *) Eval [3;69]; If Opaque [(* 330 *) Eval [74;66];
          (* 331 *) Eval [74;66]] [(* 333 *) Eval [8;75;74]; Bind [61];
          (* 334 *) Eval [74;61]];
         (* 335 *) Eval [63;65;62;64;71;73;70;74]; Return]] [If Opaque [Call [] [76;77;78;79;80;81;82;83;84;85;86;87;88;89] [(* 254 *) Eval [2;4;76];
          (* 255 *) Eval [77;76];
          (* 256 *) Eval [78;76];
          (* 257 *) Eval [79;76];
          (* 258 *) Eval [8;76];
          (* 259 *) Eval [76;78];
          (* 260 *) Eval [8;76];
          (* 261 *) Eval [80;76];
          (* 263 *) Eval [8;76];
          (* 264 *) Eval [8;76];
          (* 265 *) Eval [8;76];
          (* 266 *) Eval [8;76];
          (* 267 *) Eval [82;76];
          (* 268 *) Eval [83;76];
          (* 269 *) Eval [84;76];
          (* 270 *) Eval [85;76];
          (* 271 *) Eval [86;76];
          (* 272 *) Eval [87;76];
          (* 273 *) Eval [88;76];
          (* 274 *) Eval [89;76];
          (* 275 *) Eval [87]; If Opaque [(* 276 *) Eval [8;76];
           (* 277 *) Eval [8;76];
           (* 278 *) Eval [8;76];
           (* 279 *) Eval [8;76];
           (* 280 *) Eval [76];
           (* 281 *) Eval [76];
           (* 282 *) Eval [81;76];
           (* 283 *) Eval [81;76]] [(* 285 *) Eval [81;76];
           (* 286 *) Eval [8;76];
           (* 287 *) Eval [8;76]];
          (* 288 *) Eval [1]]] [If Opaque [Call [90] [91;92] [(* 219 *) Eval [91]; If Opaque [Eval [91]; If Opaque [Eval [91]] []] []; If Opaque [(* 220 *) Eval [92]; Return] [];
           (* 223 *) Eval [91];
           (* 225 *) Eval [8;91];
           (* 226 *) Eval [8;92]; Bind [90];
           (* 227 *) Eval [91;90];
           (* 228 *) Eval [90]; Return]] [If Opaque [Call [93] [94;95] [(* 201 *) Eval [94]; If Opaque [(* 202 *) Eval []; Return] [];
            (* 203 *) Eval [95;94]; If Opaque [(* 204 *) Eval [10]; Raise] [];
            (* 205 *) Eval [95;8]; Bind [93];
            (* 206 *) Eval [94]; If Opaque [Eval [93]] [Eval [8;94;93]]; Eval [94];
            (* 207 *) Eval [94]; If Opaque [Eval [94]] []; If Opaque [(* 209 *) Eval [94]] [];
            (* 210 *) Eval [11;94];
            (* 211 *) Eval [12;94]]] [If Opaque [Call [96;97;98;99;100;101;102;103;104;105;106;107] [108;109] [(* 178 *) Eval [108;109]; Bind [97;99;96;98;105;107];
             (* 179 *) Eval [96]; If Opaque [(* 180 *) Eval [97;108]; Bind [100];
              (* 181 *) Eval [8;100]; Bind [101];
              (* 182 *) Eval [108;101]; Bind [103;106;104];
              (* 183 *) Eval [3;103]; If Opaque [(* 184 *) Eval [108;100]] [];
              (* 185 *) Eval [97;99;96;98;104]; Return] [];
             (* 188 *) Eval [108;109]; Bind [102];
             (* 189 *) Eval [108;102]; Bind [97;99;96;98;105;107];
             (* 190 *) Eval [97;108]; Bind [100];
             (* 191 *) Eval [8;100]; Bind [101];
             (* 192 *) Eval [108;101]; Bind [103;106;104];
             (* 193 *) Eval [3;103]; If Opaque [(* 194 *) Eval [108;100]] [];
             (* 195 *) Eval [97;99;96;98;104]; Return]] [If Opaque [Call [] [110;111;112;113;114;115;116] [(* 144 *) Eval [2;4;110];
              (* 145 *) Eval [111;110];
              (* 146 *) Eval [112;110];
              (* 147 *) Eval [113;110];
              (* 148 *) Eval [8;110];
              (* 149 *) Eval [110;112];
              (* 150 *) Eval [8;110];
              (* 151 *) Eval [115;110];
              (* 152 *) Eval [116]; If Opaque [(* 153 *) Eval [116;110];
               (* 154 *) Eval [116;110];
               (* 155 *) Eval [12;110];
               (* 156 *) Eval [110]] [(* 158 *) Eval [8;110];
               (* 159 *) Eval [8;110];
               (* 160 *) Eval [110]];
              (* 161 *) Eval [8;110];
              (* 162 *) Eval [8;110];
              (* 163 *) Eval [8;110];
              (* 164 *) Eval [114;110];
              (* 165 *) Eval [1]]] [If Opaque [Call [117;118] [119;120] [(* 111 *) Eval [119];
               (* 113 *) Eval [120]; Bind [118];
               (* 114 *) Eval [119]; If Opaque [Eval [119]; If Opaque [Eval [119]] []] []; If Opaque [(* 116 *) Eval [119;118]; Bind [117];
                (* 117 *) Eval [118;119;8;117]] [];
               (* 122 *) Eval [118]; Return]] [If Opaque [Call [121] [122;123] [(* 91 *) Eval [122]; If Opaque [(* 92 *) Eval []; Return] [];
                (* 93 *) Eval [123;122]; If Opaque [(* 94 *) Eval [10]; Raise] [];
                (* 95 *) Eval [123;8]; Bind [121];
                (* 96 *) Eval [122]; If Opaque [Eval [121]] [Eval [8;122;121]]; Eval [122];
                (* 97 *) Eval [122]; If Opaque [Eval [122]] []; If Opaque [(* 99 *) Eval [122]] [];
                (* 100 *) Eval [11;122];
                (* 101 *) Eval [12;122]]] [If Opaque [Call [124;125;126;127;128;129;130;131;132;133;134;135] [136;137] [(* 68 *) Eval [136;137]; Bind [125;127;124;126;133;135];
                 (* 69 *) Eval [124]; If Opaque [(* 70 *) Eval [125;136]; Bind [128];
                  (* 71 *) Eval [8;128]; Bind [129];
                  (* 72 *) Eval [136;129]; Bind [131;134;132];
                  (* 73 *) Eval [3;131]; If Opaque [(* 74 *) Eval [136;128]] [];
                  (* 75 *) Eval [125;127;124;126;132]; Return] [];
                 (* 78 *) Eval [136;137]; Bind [130];
                 (* 79 *) Eval [136;130]; Bind [125;127;124;126;133;135];
                 (* 80 *) Eval [125;136]; Bind [128];
                 (* 81 *) Eval [8;128]; Bind [129];
                 (* 82 *) Eval [136;129]; Bind [131;134;132];
                 (* 83 *) Eval [3;131]; If Opaque [(* 84 *) Eval [136;128]] [];
                 (* 85 *) Eval [125;127;124;126;132]; Return]] [If Opaque [Call [] [138;139;140;141;142;143;144;145] [(* 34 *) Eval [2;4;138];
                  (* 35 *) Eval [139;138];
                  (* 36 *) Eval [140;138];
                  (* 37 *) Eval [141;138];
                  (* 38 *) Eval [8;138];
                  (* 39 *) Eval [138;140];
                  (* 40 *) Eval [8;138];
                  (* 41 *) Eval [142;138];
                  (* 42 *) Eval [144;138];
                  (* 43 *) Eval [145]; If Opaque [(* 44 *) Eval [145;138];
                   (* 45 *) Eval [145;138];
                   (* 46 *) Eval [12;138];
                   (* 47 *) Eval [138]] [(* 49 *) Eval [8;138];
                   (* 50 *) Eval [8;138];
                   (* 51 *) Eval [138]];
                  (* 52 *) Eval [8;138];
                  (* 53 *) Eval [8;138];
                  (* 54 *) Eval [143;138];
                  (* 55 *) Eval [1]]] []]]]]]]]]]]]]]] |}.

(** decoders/mavlink_decoder.py:1-273. *)
Definition py_decoders_mavlink_decoder : file := {| f_name := "decoders/mavlink_decoder.py";
  f_vars := ["Any"; "Decoder"; "DecoderType"; "Sequence"; "LogSpaDecoder"; "NDArray"; "ArrayLike"; "np"; "BufferSegmentation"
    ; "BufferModel"; "BufferClassifier"; "meta"; "confusion"; "MavlinkRectifyingDecoder.__init__"; "MavlinkRectifyingDecoder.decode_buffer"
    ; "MavlinkRectifyingDecoder.decode_and_update_model"; "MavlinkRectifyingDecoder.set_buffer_structures"; "MavlinkRectifyingDecoder.model_prediction"
    ; "MavlinkRectifyingDecoder.classifier_analysis"; "MavlinkRectifyingDecoder.forcing_analysis"; "MavlinkRectifyingDecoder"
    ; "MavlinkRectifyingDecoder.forcing_analysis.bits_confusion_matrix"; "MavlinkRectifyingDecoder.forcing_analysis.bits_flipped_from_forced"
    ; "MavlinkRectifyingDecoder.forcing_analysis.buffer_len_bits"; "MavlinkRectifyingDecoder.forcing_analysis.errors_bool"
    ; "MavlinkRectifyingDecoder.forcing_analysis.flipping_confusion_matrix"; "MavlinkRectifyingDecoder.forcing_analysis.forcing_quality"
    ; "MavlinkRectifyingDecoder.forcing_analysis.model_bits"; "MavlinkRectifyingDecoder.forcing_analysis.n_bits_flipped"; "MavlinkRectifyingDecoder.forcing_analysis.tx"
    ; "MavlinkRectifyingDecoder.forcing_analysis.self"; "MavlinkRectifyingDecoder.forcing_analysis.forced_bits"; "MavlinkRectifyingDecoder.forcing_analysis.error_idx"
    ; "MavlinkRectifyingDecoder.forcing_analysis.rx"; "MavlinkRectifyingDecoder.forcing_analysis.label"; "confusion.false_negative"
    ; "confusion.false_positive"; "confusion.true_negative"; "confusion.true_positive"; "confusion.predicted_positive"; "confusion.actual_positive"
    ; "confusion.negative"; "MavlinkRectifyingDecoder.classifier_analysis.actual_good_fields"; "MavlinkRectifyingDecoder.classifier_analysis.bad_fields_performance"
    ; "MavlinkRectifyingDecoder.classifier_analysis.damaged"; "MavlinkRectifyingDecoder.classifier_analysis.damaged_fields"
    ; "MavlinkRectifyingDecoder.classifier_analysis.good_fields_performance"; "MavlinkRectifyingDecoder.classifier_analysis.self"
    ; "MavlinkRectifyingDecoder.classifier_analysis.good_fields_idx"; "MavlinkRectifyingDecoder.classifier_analysis.bad_fields_idx"
    ; "MavlinkRectifyingDecoder.classifier_analysis.error_idx"; "MavlinkRectifyingDecoder.classifier_analysis.n_fields_in_buffer"
    ; "MavlinkRectifyingDecoder.classifier_analysis.label"; "MavlinkRectifyingDecoder.model_prediction.bad_bits"; "MavlinkRectifyingDecoder.model_prediction.bad_fields_idx"
    ; "MavlinkRectifyingDecoder.model_prediction.bitwise_std"; "MavlinkRectifyingDecoder.model_prediction.confidence"; "MavlinkRectifyingDecoder.model_prediction.factor"
    ; "MavlinkRectifyingDecoder.model_prediction.forced_bits"; "MavlinkRectifyingDecoder.model_prediction.good_bits"; "MavlinkRectifyingDecoder.model_prediction.good_fields_idx"
    ; "MavlinkRectifyingDecoder.model_prediction.info_bytes"; "MavlinkRectifyingDecoder.model_prediction.invalid_factor"; "MavlinkRectifyingDecoder.model_prediction.max_llr"
    ; "MavlinkRectifyingDecoder.model_prediction.model_bits"; "MavlinkRectifyingDecoder.model_prediction.model_confidence"
    ; "MavlinkRectifyingDecoder.model_prediction.model_llr"; "MavlinkRectifyingDecoder.model_prediction.modified_llr"; "MavlinkRectifyingDecoder.model_prediction.parts"
    ; "MavlinkRectifyingDecoder.model_prediction.structure"; "MavlinkRectifyingDecoder.model_prediction.use_soft_rectification"
    ; "MavlinkRectifyingDecoder.model_prediction.valid_bits_p"; "MavlinkRectifyingDecoder.model_prediction.valid_factor"; "MavlinkRectifyingDecoder.model_prediction.valid_field_p"
    ; "MavlinkRectifyingDecoder.model_prediction.valid_info_bits"; "MavlinkRectifyingDecoder.model_prediction.self"; "MavlinkRectifyingDecoder.model_prediction.observation"
    ; "MavlinkRectifyingDecoder.model_prediction.cluster_id"; "MavlinkRectifyingDecoder.model_prediction.model_confidence.model_size"
    ; "MavlinkRectifyingDecoder.model_prediction.model_confidence.center"; "MavlinkRectifyingDecoder.model_prediction.model_confidence.slope"
    ; "MavlinkRectifyingDecoder.set_buffer_structures.self"; "MavlinkRectifyingDecoder.set_buffer_structures.buffer_structures"
    ; "MavlinkRectifyingDecoder.decode_and_update_model.decode_success"; "MavlinkRectifyingDecoder.decode_and_update_model.estimate"
    ; "MavlinkRectifyingDecoder.decode_and_update_model.info_bytes"; "MavlinkRectifyingDecoder.decode_and_update_model.iterations"
    ; "MavlinkRectifyingDecoder.decode_and_update_model.parts"; "MavlinkRectifyingDecoder.decode_and_update_model.structure"
    ; "MavlinkRectifyingDecoder.decode_and_update_model.syndrome"; "MavlinkRectifyingDecoder.decode_and_update_model.validity"
    ; "MavlinkRectifyingDecoder.decode_and_update_model.vnode_validity"; "MavlinkRectifyingDecoder.decode_and_update_model.self"
    ; "MavlinkRectifyingDecoder.decode_and_update_model.llr"; "MavlinkRectifyingDecoder.decode_and_update_model.label"; "MavlinkRectifyingDecoder.decode_and_update_model.channel_bits"
    ; "MavlinkRectifyingDecoder.decode_buffer._"; "MavlinkRectifyingDecoder.decode_buffer.all_iteration"; "MavlinkRectifyingDecoder.decode_buffer.bad_bits"
    ; "MavlinkRectifyingDecoder.decode_buffer.bad_fields_idx"; "MavlinkRectifyingDecoder.decode_buffer.channel_bits"; "MavlinkRectifyingDecoder.decode_buffer.classifier_performance"
    ; "MavlinkRectifyingDecoder.decode_buffer.decode_success"; "MavlinkRectifyingDecoder.decode_buffer.decoder_input"; "MavlinkRectifyingDecoder.decode_buffer.estimate"
    ; "MavlinkRectifyingDecoder.decode_buffer.forced_bits"; "MavlinkRectifyingDecoder.decode_buffer.forcing_performance"; "MavlinkRectifyingDecoder.decode_buffer.good_bits"
    ; "MavlinkRectifyingDecoder.decode_buffer.good_fields_idx"; "MavlinkRectifyingDecoder.decode_buffer.iterations"; "MavlinkRectifyingDecoder.decode_buffer.label"
    ; "MavlinkRectifyingDecoder.decode_buffer.n_fields"; "MavlinkRectifyingDecoder.decode_buffer.segmented_bits"; "MavlinkRectifyingDecoder.decode_buffer.syndrome"
    ; "MavlinkRectifyingDecoder.decode_buffer.vnode_validity"; "MavlinkRectifyingDecoder.decode_buffer.self"; "MavlinkRectifyingDecoder.decode_buffer.channel_llr"
    ; "MavlinkRectifyingDecoder.decode_buffer.error_idx"; "MavlinkRectifyingDecoder.__init__.self"; "MavlinkRectifyingDecoder.__init__.ldpc_decoder"
    ; "MavlinkRectifyingDecoder.__init__.model_length"; "MavlinkRectifyingDecoder.__init__.valid_thr"; "MavlinkRectifyingDecoder.__init__.invalid_thr"
    ; "MavlinkRectifyingDecoder.__init__.n_clusters"; "MavlinkRectifyingDecoder.__init__.valid_factor"; "MavlinkRectifyingDecoder.__init__.invalid_factor"
    ; "MavlinkRectifyingDecoder.__init__.classifier_training_size"; "MavlinkRectifyingDecoder.__init__.cluster"; "MavlinkRectifyingDecoder.__init__.window_length"
    ; "MavlinkRectifyingDecoder.__init__.data_model"; "MavlinkRectifyingDecoder.__init__.conf_center"; "MavlinkRectifyingDecoder.__init__.conf_slope"
    ; "MavlinkRectifyingDecoder.__init__.debug"; "MavlinkRectifyingDecoder.__init__.segmentation_iterations"];
  f_body :=
   [(* 2 *) Eval []; Bind [0];
   (* 3 *) Eval []; Bind [1;2];
   (* 4 *) Eval []; Bind [3];
   (* 5 *) Eval []; Bind [4];
   (* 6 *) Eval []; Bind [5;6];
   (* 7 *) Eval []; Bind [7];
   (* 8 *) Eval []; Bind [8;9;10];
   (* 9 *) Eval []; Bind [11];
   (* 12 *) Eval [6;5;7]; Bind [12];
   (* 22 *) Eval [1];
   (* 30 *) Eval [4;9]; Bind [13];
   (* 83 *) Eval [5;7;0]; Bind [14];
   (* 137 *) Eval [5;7]; Bind [15];
   (* 151 *) Eval [3]; Bind [16];
   (* 161 *) Eval [5;7]; Bind [17];
   (* 232 *) Eval [0]; Bind [18];
   (* 246 *) Eval [5;7;0]; Bind [19]; Bind [20]; Loop [If Opaque [Call [21;22;23;24;25;26;27;28;29] [30;31;32;33;34] [(* 252 *) Eval [33]; Bind [23];
      (* 253 *) Eval [12]; Loop [Call [35;36;37;38] [39;40;41] [(* 13 *) Eval [7;39;40]; Bind [38];
        (* 14 *) Eval [7;39;40]; Bind [36];
        (* 15 *) Eval [7;40;39]; Bind [35];
        (* 16 *) Eval [41;36]; Bind [37];
        (* 18 *) Eval [7;38;36;37;35;40;41]; Return]]; Eval [31;32;23]; Bind [21];
      (* 257 *) Eval [30;31;23;34]; Bind [27];
      (* 258 *) Eval [31;27;33;7]; Bind [22];
      (* 259 *) Eval [12]; Loop [Call [35;36;37;38] [39;40;41] [(* 13 *) Eval [7;39;40]; Bind [38];
        (* 14 *) Eval [7;39;40]; Bind [36];
        (* 15 *) Eval [7;40;39]; Bind [35];
        (* 16 *) Eval [41;36]; Bind [37];
        (* 18 *) Eval [7;38;36;37;35;40;41]; Return]]; Eval [22;32;23]; Bind [25];
      (* 260 *) Eval [22]; Bind [28];
      (* 261 *) Eval [7;33]; Bind [24];
      (* 262 *) Eval [24;32];
      (* 263 *) Eval [33;24]; Bind [29];
      (* 264 *) Eval [31]; If Opaque [(* 265 *) Eval [7;32;31;28;25;29;27]; Bind [26]] [(* 269 *) Eval [7;32;31;28;25]; Bind [26]];
      (* 272 *) Eval [21;25;26]; Return]] [If Opaque [Call [42;43;44;45;46] [47;48;49;50;51;52] [(* 234 *) Eval [47;52]; If Opaque [(* 235 *) Eval []; Return] [];
       (* 236 *) Eval [47;50;52]; Bind [44];
       (* 237 *) Eval [44]; If Opaque [(* 238 *) Eval []; Return] [];
       (* 239 *) Eval [7;44]; Bind [45];
       (* 240 *) Eval [12]; Loop [Call [35;36;37;38] [39;40;41] [(* 13 *) Eval [7;39;40]; Bind [38];
         (* 14 *) Eval [7;39;40]; Bind [36];
         (* 15 *) Eval [7;40;39]; Bind [35];
         (* 16 *) Eval [41;36]; Bind [37];
         (* 18 *) Eval [7;38;36;37;35;40;41]; Return]]; Eval [49;45;51;44]; Bind [43];
       (* 241 *) Eval [7;51;45]; Bind [42];
       (* 242 *) Eval [12]; Loop [Call [35;36;37;38] [39;40;41] [(* 13 *) Eval [7;39;40]; Bind [38];
         (* 14 *) Eval [7;39;40]; Bind [36];
         (* 15 *) Eval [7;40;39]; Bind [35];
         (* 16 *) Eval [41;36]; Bind [37];
         (* 18 *) Eval [7;38;36;37;35;40;41]; Return]]; Eval [48;42;44]; Bind [46];
       (* 243 *) Eval [51;45;46;43]; Return]] [If Opaque [Call [53;54;55;56;57;58;59;60;61;62;63;64;65;66;67;68;69;70;71;72;73;74] [75;76;77] [(* 171 *) Eval [75;77]; If Opaque [(* 172 *) Eval [76;7]; Return] [];
        (* 174 *) Eval [75;7;76;77]; Bind [73;71;55];
        (* 176 *) Eval [71;75]; Bind [59];
        (* 177 *) Eval [71;75]; Bind [53];
        (* 178 *) Eval [73]; If Opaque [Eval [75]] []; Bind [60];
        (* 179 *) Eval [73]; If Opaque [Eval [75]] []; Bind [54];
        (* 181 *) Eval [75]; If Opaque [(* 182 *) Eval [7]; Bind [65];
         (* 185 *) Eval [65]; Loop [Call [] [78;79;80] [(* 183 *) Eval [78]; If Opaque [] [Eval [7;78;79;80]]; Return]]; Eval [75]; Bind [56];
         (* 186 *) Eval [75;56]; Bind [72];
         (* 187 *) Eval [75;56]; Bind [62]] [(* 189 *) Eval [75]; Bind [72];
         (* 190 *) Eval [75]; Bind [62]];
        (* 192 *) Eval [76]; Bind [67];
        (* 193 *) Eval []; Bind [70];
        (* 194 *) Eval [70]; If Opaque [(* 195 *) Eval [7;76]; Bind [57];
         (* 196 *) Eval [57;59;71];
         (* 198 *) Eval [67;57]; Bind [67];
         (* 199 *) Eval [67;53;62]] [(* 201 *) Eval [67;59;72];
         (* 202 *) Eval [67;53;62]];
        (* 206 *) Eval [7;71;55]; Bind [58];
        (* 207 *) Eval [58]; If Opaque [(* 208 *) Eval [75;58;76;77]; Bind [64];
         (* 209 *) Eval [7;76]; Bind [63];
         (* 210 *) Eval [7;64;63]; Bind [66];
         (* 211 *) Eval [66;72;67;58]] [];
        (* 215 *) Eval [75;7;76]; Bind [61];
        (* 216 *) Eval [75;61]; Bind [68;74;69];
        (* 217 *) Eval [69]; If Opaque [(* 218 *) Eval [76;7;74;72;67];
         (* 219 *) Eval []] [(* 222 *) Eval [75;7;67]; Bind [61];
         (* 223 *) Eval [75;61]; Bind [68;74;69];
         (* 224 *) Eval [69]; If Opaque [(* 225 *) Eval [67;7;74];
          (* 226 *) Eval []] []];
        (* 229 *) Eval [67;59;53;60;54;73;58;7;74]; Return]] [If Opaque [Call [] [81;82] [(* 156 *) Eval [82;81]; If Opaque [(* 157 *) Eval [82;81]; Raise] [];
         (* 159 *) Eval [82;81]]] [If Opaque [Call [83;84;85;86;87;88;89;90;91] [92;93;94;95] [(* 139 *) Eval [92;93]; Bind [84;93;83;86;89;91];
          (* 140 *) Eval [92]; If Opaque [(* 141 *) Eval [83]; If Opaque [(* 142 *) Eval [92;94]; If Opaque [(* 143 *) Eval [92;84]; Bind [85];
             (* 144 *) Eval [92;85]; Bind [87;90;88];
             (* 145 *) Eval [88;92;94]] [];
            (* 146 *) Eval [92;84;94]] [(* 147 *) Eval [92;94]; If Opaque [(* 148 *) Eval [92;95;94]] []]] [];
          (* 149 *) Eval [84;93;83;86;89;91;94]; Return]] [If Opaque [Call [96;97;98;99;100;101;102;103;104;105;106;107;108;109;110;111;112;113;114] [115;116;117] [(* 97 *) Eval [7;116]; Bind [100];
           (* 98 *) Eval [116]; Bind [103];
           (* 99 *) Eval []; Bind [97];
           (* 100 *) Eval [115]; Loop [Bind [96];
            (* 101 *) Eval [115]; If Opaque [(* 102 *) Eval [115]; If Opaque [(* 103 *) Eval [115;100]; Bind [110];
              (* 104 *) Eval [110]; If Opaque [(* 105 *) Eval [115;116;110;100;7]; Return] []] [(* 107 *) Eval [115];
              (* 108 *) Eval [115]; Bind [110]]] [(* 110 *) Eval []; Bind [110]];
            (* 112 *) Eval [];
            (* 113 *) Eval [];
            (* 114 *) Eval [];
            (* 115 *) Eval [];
            (* 116 *) Eval [];
            (* 117 *) Eval [];
            (* 118 *) Eval [];
            (* 119 *) Eval [115;103;110]; Bind [103;107;98;108;99;111;105;112];
            (* 121 *) Eval [115;103;110;100]; Bind [104;103;102;109;113;114;110];
            (* 123 *) Eval [97;109]; Bind [97];
            (* 124 *) Eval [102]; If Opaque [(* 125 *) Break] []];
           (* 126 *) Eval [115]; If Opaque [(* 127 *) Eval [115;108;99;117;111;110]; Bind [101];
            (* 129 *) Eval [115;105;117;100;110]; Bind [106]] [(* 131 *) Eval []; Bind [101];
            (* 132 *) Eval []; Bind [106]];
           (* 134 *) Eval [104;103;102;97;113;114;110;112;108;99;101;106]; Return]] [If Opaque [Call [] [118;119;120;121;122;123;124;125;126;127;128;129;130;131;132;133] [(* 52 *) Eval [122;118];
            (* 53 *) Eval [123;118];
            (* 54 *) Eval [119;118];
            (* 55 *) Eval [120;118];
            (* 56 *) Eval [121;118];
            (* 57 *) Eval [128;118];
            (* 58 *) Eval [8;11;118];
            (* 59 *) Eval [129]; If Opaque [Eval [129]] [Eval [9;128]]; Eval [118];
            (* 60 *) Eval [129;118];
            (* 61 *) Eval [7;118];
            (* 62 *) Eval [120;118]; If Opaque [(* 63 *) Eval [7;120;118]] [(* 65 *) Eval [118;120];
             (* 66 *) Eval [7;118]];
            (* 68 *) Eval [118];
            (* 69 *) Eval [126;118];
            (* 70 *) Eval [123;118];
            (* 71 *) Eval [127;118];
            (* 72 *) Eval [127]; If Opaque [Eval [10;126;123]] []; Eval [118];
            (* 74 *) Eval [124;118];
            (* 75 *) Eval [125;118];
            (* 77 *) Eval [130;118];
            (* 78 *) Eval [131;118];
            (* 79 *) Eval [132;118];
            (* 80 *) Eval [133;118];
            (* 81 *) Eval [2]]] [If Opaque [Call [35;36;37;38] [39;40;41] [(* 13 *) Eval [7;39;40]; Bind [38];
             (* 14 *) Eval [7;39;40]; Bind [36];
             (* 15 *) Eval [7;40;39]; Bind [35];
             (* 16 *) Eval [41;36]; Bind [37];
             (* 18 *) Eval [7;38;36;37;35;40;41]; Return]] []]]]]]]]]] |}.

(** decoders/turbo.py:1-57. *)
Definition py_decoders_turbo : file := {| f_name := "decoders/turbo.py";
  f_vars := ["np"; "NDArray"; "Decoder"; "DecoderType"; "LogSpaDecoder"; "track_errors"; "TurboDecoder.__init__"; "TurboDecoder.decode_buffer"
    ; "TurboDecoder"; "TurboDecoder.decode_buffer._"; "TurboDecoder.decode_buffer.decode_success1"; "TurboDecoder.decode_buffer.decode_success2"
    ; "TurboDecoder.decode_buffer.err1"; "TurboDecoder.decode_buffer.err2"; "TurboDecoder.decode_buffer.estimate1"; "TurboDecoder.decode_buffer.estimate2"
    ; "TurboDecoder.decode_buffer.first_decoder_output"; "TurboDecoder.decode_buffer.first_decoder_prior"; "TurboDecoder.decode_buffer.llr1"
    ; "TurboDecoder.decode_buffer.llr2"; "TurboDecoder.decode_buffer.second_decoder_output"; "TurboDecoder.decode_buffer.second_decoder_prior"
    ; "TurboDecoder.decode_buffer.self"; "TurboDecoder.decode_buffer.channel_word"; "TurboDecoder.decode_buffer.error_idx"
    ; "track_errors.errors_bool"; "track_errors.tx"; "track_errors.error_idx"; "track_errors.rx"; "track_errors.estimate"
    ; "TurboDecoder.__init__.self"; "TurboDecoder.__init__.first_decoder"; "TurboDecoder.__init__.second_decoder"; "TurboDecoder.__init__.max_iter"
    ; "TurboDecoder.__init__.debug"];
  f_body :=
   [(* 1 *) Eval []; Bind [0];
   (* 2 *) Eval []; Bind [1];
   (* 3 *) Eval []; Bind [2;3];
   (* 4 *) Eval []; Bind [4];
   (* 7 *) Eval [1;0]; Bind [5];
   (* 15 *) Eval [2];
   (* 18 *) Eval [2;4]; Bind [6];
   (* 25 *) Eval [1;0]; Bind [7]; Bind [8]; Loop [If Opaque [Call [9;10;11;12;13;14;15;16;17;18;19;20;21] [22;23;24] [(* 33 *) Eval [0;23]; Bind [17];
      (* 34 *) Eval [0;23]; Bind [21];
      (* 36 *) Eval [22]; Loop [Bind [9];
       (* 37 *) Eval [22;23;17]; Bind [16];
       (* 38 *) Eval [16]; Bind [14;18;10];
       (* 39 *) Eval [10]; If Opaque [(* 40 *) Eval [14;18;10]; Return] [];
       (* 41 *) Eval [18;23;17]; Bind [21];
       (* 43 *) Eval [22;21;23]; Bind [20];
       (* 44 *) Eval [20]; Bind [15;19;11];
       (* 45 *) Eval [11]; If Opaque [(* 46 *) Eval [15;19;11]; Return] [];
       (* 47 *) Eval [19;23;21]; Bind [17];
       (* 49 *) Eval [22]; If Opaque [(* 50 *) Eval [5]; Loop [Call [25;26] [27;28;29] [(* 9 *) Eval [0;28]; Bind [25];
          (* 10 *) Eval [25;27];
          (* 11 *) Eval [28;25]; Bind [26];
          (* 12 *) Eval [26;29]; Return]]; Eval [24;0;23;14]; Bind [12];
        (* 51 *) Eval [5]; Loop [Call [25;26] [27;28;29] [(* 9 *) Eval [0;28]; Bind [25];
          (* 10 *) Eval [25;27];
          (* 11 *) Eval [28;25]; Bind [26];
          (* 12 *) Eval [26;29]; Return]]; Eval [24;0;23;15]; Bind [13]] []];
      (* 54 *) Eval [22]; If Opaque [(* 55 *) Eval [15;19;11;13]; Return] [(* 57 *) Eval [15;19;11]; Return]]] [If Opaque [Call [] [30;31;32;33;34] [(* 19 *) Eval [31;30];
       (* 20 *) Eval [32;30];
       (* 21 *) Eval [33;30];
       (* 22 *) Eval [34;30];
       (* 23 *) Eval [3]]] [If Opaque [Call [25;26] [27;28;29] [(* 9 *) Eval [0;28]; Bind [25];
        (* 10 *) Eval [25;27];
        (* 11 *) Eval [28;25]; Bind [26];
        (* 12 *) Eval [26;29]; Return]] []]]]] |}.

(** inference/__init__.py:1-9. *)
Definition py_inference_init : file := {| f_name := "inference/__init__.py";
  f_vars := ["FieldModel"; "BufferModel"; "MsgParts"; "BufferStructure"; "BufferSegmentation"; "Cluster"; "BufferClassifier"
    ; "BMM"; "OnlineDude"; "DUDE"; "EMLE"; "__all__"];
  f_body :=
   [(* 2 *) Eval []; Bind [0;1];
   (* 3 *) Eval []; Bind [2;3;4];
   (* 4 *) Eval []; Bind [5;6];
   (* 5 *) Eval []; Bind [7];
   (* 6 *) Eval []; Bind [8;9];
   (* 7 *) Eval []; Bind [10];
   (* 8 *) Eval []; Bind [11]] |}.

(** inference/bmm.py:1-107. *)
Definition py_inference_bmm : file := {| f_name := "inference/bmm.py";
  f_vars := ["logsumexp"; "np"; "BMM.__init__"; "BMM.fit"; "BMM.reset_params"; "BMM.remember_params"; "BMM.init_params"; "BMM.normalize_mu"
    ; "BMM.get_responsibilities"; "BMM.get_log_bernoullis"; "BMM.get_save_single"; "BMM.get_Neff"; "BMM.get_mu"; "BMM.get_pi"
    ; "BMM.predict"; "BMM.get_sample_log_likelihood"; "BMM.get_log_likelihood"; "BMM.score"; "BMM.score_samples"; "BMM"; "__all__"
    ; "BMM.score_samples.log_bernoullis"; "BMM.score_samples.self"; "BMM.score_samples.x"; "BMM.score.log_bernoullis"; "BMM.score.self"
    ; "BMM.score.x"; "BMM.get_log_likelihood.self"; "BMM.get_log_likelihood.log_bernoullis"; "BMM.get_sample_log_likelihood.self"
    ; "BMM.get_sample_log_likelihood.log_bernoullis"; "BMM.predict.gamma"; "BMM.predict.log_bernoullis"; "BMM.predict.self"
    ; "BMM.predict.x"; "BMM.get_pi.self"; "BMM.get_mu.self"; "BMM.get_Neff.self"; "BMM.get_save_single.mu_place"; "BMM.get_save_single.self"
    ; "BMM.get_save_single.x"; "BMM.get_save_single.mu"; "BMM.get_log_bernoullis.log_bernoullis"; "BMM.get_log_bernoullis.self"
    ; "BMM.get_log_bernoullis.x"; "BMM.get_responsibilities.Z"; "BMM.get_responsibilities.gamma"; "BMM.get_responsibilities.k"
    ; "BMM.get_responsibilities.self"; "BMM.get_responsibilities.log_bernoullis"; "BMM.normalize_mu.k"; "BMM.normalize_mu.sum_over_features"
    ; "BMM.normalize_mu.self"; "BMM.init_params.self"; "BMM.remember_params.self"; "BMM.reset_params.log_bernoullis"; "BMM.reset_params.self"
    ; "BMM.fit.log_bernoullis"; "BMM.fit.step"; "BMM.fit.self"; "BMM.fit.x"; "BMM.__init__.self"; "BMM.__init__.n_components"
    ; "BMM.__init__.max_iter"; "BMM.__init__.tol"];
  f_body :=
   [(* 1 *) Eval []; Bind [0];
   (* 2 *) Eval []; Bind [1];
   (* 5 *) Eval [];
   (* 7 *) Eval []; Bind [2];
   (* 12 *) Eval []; Bind [3];
   (* 35 *) Eval []; Bind [4];
   (* 43 *) Eval []; Bind [5];
   (* 48 *) Eval []; Bind [6];
   (* 56 *) Eval []; Bind [7];
   (* 61 *) Eval []; Bind [8];
   (* 68 *) Eval []; Bind [9];
   (* 73 *) Eval []; Bind [10];
   (* 78 *) Eval []; Bind [11];
   (* 81 *) Eval []; Bind [12];
   (* 84 *) Eval []; Bind [13];
   (* 87 *) Eval []; Bind [14];
   (* 92 *) Eval []; Bind [15];
   (* 95 *) Eval []; Bind [16];
   (* 98 *) Eval []; Bind [17];
   (* 102 *) Eval []; Bind [18]; Bind [19];
   (* 107 *) Eval []; Bind [20]; Loop [If Opaque [Call [21] [22;23] [(* 103 *) Eval [22;23]; Bind [21];
      (* 104 *) Eval [22;21]; Return]] [If Opaque [Call [24] [25;26] [(* 99 *) Eval [25;26]; Bind [24];
       (* 100 *) Eval [25;24]; Return]] [If Opaque [Call [] [27;28] [(* 96 *) Eval [1;27;28]; Return]] [If Opaque [Call [] [29;30] [(* 93 *) Eval [0;1;29;30]; Return]] [If Opaque [Call [31;32] [33;34] [(* 88 *) Eval [33;34]; Bind [32];
          (* 89 *) Eval [33;32]; Bind [31];
          (* 90 *) Eval [1;31]; Return]] [If Opaque [Call [] [35] [(* 85 *) Eval [35]]] [If Opaque [Call [] [36] [(* 82 *) Eval [1;36]]] [If Opaque [Call [] [37] [(* 79 *) Eval [1;37]]] [If Opaque [Call [38] [39;40;41] [(* 74 *) Eval [1;41]; Bind [38];
              (* 75 *) Eval [1;38]; Bind [38];
              (* 76 *) Eval [1;40;38]; Return]] [If Opaque [Call [42] [43;44] [(* 69 *) Eval [43;44]; Bind [42];
               (* 70 *) Eval [42;43;44]; Bind [42];
               (* 71 *) Eval [42]; Return]] [If Opaque [Call [45;46;47] [48;49] [(* 62 *) Eval [1;49;48]; Bind [46];
                (* 63 *) Eval [0;1;48;49]; Bind [45];
                (* 64 *) Eval [48]; Loop [Bind [47];
                 (* 65 *) Eval [1;48;47;49;45;46]];
                (* 66 *) Eval [46]; Return]] [If Opaque [Call [50;51] [52] [(* 57 *) Eval [1;52]; Bind [51];
                 (* 58 *) Eval [52]; Loop [Bind [50];
                  (* 59 *) Eval [52;50;51]]]] [If Opaque [Call [] [53] [(* 49 *) Eval [53];
                  (* 50 *) Eval [53];
                  (* 52 *) Eval [53;1];
                  (* 53 *) Eval [1;53];
                  (* 54 *) Eval [53]]] [If Opaque [Call [] [54] [(* 44 *) Eval [54];
                   (* 45 *) Eval [54];
                   (* 46 *) Eval [54]]] [If Opaque [Call [55] [56] [(* 36 *) Eval [56];
                    (* 37 *) Eval [56];
                    (* 38 *) Eval [56];
                    (* 39 *) Eval [56];
                    (* 40 *) Eval [56]; Bind [55];
                    (* 41 *) Eval [56;55]]] [If Opaque [Call [57;58] [59;60] [(* 13 *) Eval [60;59];
                     (* 14 *) Eval [59];
                     (* 15 *) Eval [59]; Bind [57];
                     (* 16 *) Eval [59;57];
                     (* 17 *) Eval [59]; Loop [Bind [58];
                      (* 18 *) Eval [58]; If Opaque [(* 19 *) Eval [59]] [];
                      (* 21 *) Eval [59;57];
                      (* 22 *) Eval [59];
                      (* 24 *) Eval [59];
                      (* 25 *) Eval [59];
                      (* 26 *) Eval [59];
                      (* 28 *) Eval [59]; Bind [57];
                      (* 29 *) Eval [59;57];
                      (* 30 *) Eval [1;59]; If Opaque [(* 31 *) Eval [59];
                       (* 32 *) Eval [59];
                       (* 33 *) Break] []]]] [If Opaque [Call [] [61;62;63;64] [(* 8 *) Eval [62;61];
                      (* 9 *) Eval [63;61];
                      (* 10 *) Eval [64;61]]] []]]]]]]]]]]]]]]]]]] |}.

(** inference/buffer_segmentation.py:1-214. *)
Definition py_inference_buffer_segmentation : file := {| f_name := "inference/buffer_segmentation.py";
  f_vars := ["contextlib"; "Enum"; "meta"; "FrameHeader"; "is_valid_header"; "MAVError"; "Callable"; "Union"; "Any"; "array"
    ; "np"; "npt"; "MutableSequence"; "BufferModel"; "MsgParts.HEADER"; "MsgParts.PAYLOAD"; "MsgParts.CHECKSUM"; "MsgParts.UNKNOWN"
    ; "MsgParts"; "BufferStructure.__init__"; "BufferStructure.__eq__"; "BufferStructure.register_buffer"; "BufferStructure.__str__"
    ; "BufferStructure.__len__"; "BufferStructure.adheres_to_structure"; "BufferStructure.set_models"; "BufferStructure"; "BufferSegmentation.__init__"
    ; "BufferSegmentation.segment_buffer"; "BufferSegmentation.bad_buffer_parts"; "BufferSegmentation.bad_buffer_idx"; "BufferStructure.__init__.self"
    ; "BufferStructure.__init__.msgs"; "BufferStructure.__init__.byte_structure"; "BufferStructure.__eq__.self"; "BufferStructure.__eq__.other"
    ; "BufferStructure.register_buffer.self"; "BufferStructure.register_buffer.buffer"; "BufferStructure.__str__.self"; "BufferStructure.__len__.self"
    ; "BufferStructure.adheres_to_structure.hdr"; "BufferStructure.adheres_to_structure.idx"; "BufferStructure.adheres_to_structure.msg_id"
    ; "BufferStructure.adheres_to_structure.self"; "BufferStructure.adheres_to_structure.buffer"; "BufferStructure.set_models.self"
    ; "BufferStructure.set_models.models"; "BufferSegmentation.get_buffer_structure"; "BufferSegmentation.get_msg_fields"
    ; "BufferSegmentation"; "BufferSegmentation.get_msg_fields.bit_validity"; "BufferSegmentation.get_msg_fields.buffer_description"
    ; "BufferSegmentation.get_msg_fields.buffer_structure"; "BufferSegmentation.get_msg_fields.field"; "BufferSegmentation.get_msg_fields.fields"
    ; "BufferSegmentation.get_msg_fields.idx"; "BufferSegmentation.get_msg_fields.k"; "BufferSegmentation.get_msg_fields.msg_parts"
    ; "BufferSegmentation.get_msg_fields.parsed_msg"; "BufferSegmentation.get_msg_fields.type_idx"; "BufferSegmentation.get_msg_fields.v"
    ; "BufferSegmentation.get_msg_fields.self"; "BufferSegmentation.get_msg_fields.buffer"; "BufferSegmentation.get_buffer_structure._"
    ; "BufferSegmentation.get_buffer_structure.buffer_structure"; "BufferSegmentation.get_buffer_structure.self"; "BufferSegmentation.get_buffer_structure.buffer"
    ; "BufferSegmentation.bad_buffer_idx.bad_buffer_parts"; "BufferSegmentation.bad_buffer_idx.byte_idx"; "BufferSegmentation.bad_buffer_idx.length"
    ; "BufferSegmentation.bad_buffer_idx.buffer"; "BufferSegmentation.bad_buffer_idx.msg_parts"; "BufferSegmentation.bad_buffer_parts.bad_buffer_parts"
    ; "BufferSegmentation.bad_buffer_parts.byte_idx"; "BufferSegmentation.bad_buffer_parts.length"; "BufferSegmentation.bad_buffer_parts.buffer"
    ; "BufferSegmentation.bad_buffer_parts.msg_parts"; "BufferSegmentation.segment_buffer.bit_validity"; "BufferSegmentation.segment_buffer.buffer_structure"
    ; "BufferSegmentation.segment_buffer.byte_idx"; "BufferSegmentation.segment_buffer.candidate_buffer"; "BufferSegmentation.segment_buffer.header"
    ; "BufferSegmentation.segment_buffer.msg_parts"; "BufferSegmentation.segment_buffer.self"; "BufferSegmentation.segment_buffer.buffer"
    ; "BufferSegmentation.__init__.self"; "BufferSegmentation.__init__.protocol_parser_handler"];
  f_body :=
   [(* 2 *) Eval []; Bind [0];
   (* 3 *) Eval []; Bind [1];
   (* 4 *) Eval []; Bind [2];
   (* 5 *) Eval []; Bind [3;4;5];
   (* 6 *) Eval []; Bind [6;7;8];
   (* 7 *) Eval []; Bind [9];
   (* 8 *) Eval []; Bind [10];
   (* 9 *) Eval []; Bind [11];
   (* 10 *) Eval []; Bind [12];
   (* 11 *) Eval []; Bind [13];
   (* 14 *) Eval [1];
   (* 16 *) Eval []; Bind [14];
   (* 17 *) Eval []; Bind [15];
   (* 18 *) Eval []; Bind [16];
   (* 19 *) Eval []; Bind [17]; Bind [18];
   (* 22 *) Eval [];
   (* 25 *) Eval [7;10]; Bind [19];
   (* 35 *) Eval [8]; Bind [20];
   (* 41 *) Eval []; Bind [21];
   (* 53 *) Eval []; Bind [22];
   (* 56 *) Eval []; Bind [23];
   (* 60 *) Eval []; Bind [24];
   (* 71 *) Eval [13]; Bind [25]; Bind [26];
   (* 75 *) Eval [];
   (* 78 *) Eval [6;12]; Bind [27];
   (* 85 *) Eval [11;10]; Bind [28];
   (* 128 *) Eval [11;10]; Bind [29];
   (* 156 *) Eval [11;10;7]; Bind [30];
   (* 183 *) Eval [26]; Loop [Call [] [31;32;33] [(* 29 *) Eval [32;31];
     (* 30 *) Eval [31];
     (* 31 *) Eval [31];
     (* 32 *) Eval [13;31];
     (* 33 *) Eval [33;31]]]; Loop [Call [] [34;35] [(* 37 *) Eval [35;26]; Loop [Call [] [31;32;33] [(* 29 *) Eval [32;31];
       (* 30 *) Eval [31];
       (* 31 *) Eval [31];
       (* 32 *) Eval [13;31];
       (* 33 *) Eval [33;31]]]; Loop [Call [] [36;37] [(* 47 *) Eval [36;37]; If Opaque [(* 48 *) Eval [36;37];
        (* 49 *) Eval [36]] [(* 51 *) Eval []; Raise]]]; Loop [Call [] [38] [(* 54 *) Eval [38]; Return]]; Loop [Call [] [39] [(* 58 *) Eval [39]; Return]]; Loop [Call [40;41;42] [43;44] [(* 65 *) Eval [43]; Loop [Bind [41;42];
        (* 66 *) Eval [3;44;41;2]; Bind [40];
        (* 67 *) Eval [40;42]; If Opaque [(* 68 *) Eval []; Return] []];
       (* 69 *) Eval []; Return]]; Loop [Call [] [45;46] [(* 72 *) Eval [46;45]]]; If Opaque [(* 38 *) Eval [34;35]; Return] [];
     (* 39 *) Eval [35]; If Opaque [Eval [34;35]] []; Return]]; Loop [Call [] [36;37] [(* 47 *) Eval [36;37]; If Opaque [(* 48 *) Eval [36;37];
      (* 49 *) Eval [36]] [(* 51 *) Eval []; Raise]]]; Loop [Call [] [38] [(* 54 *) Eval [38]; Return]]; Loop [Call [] [39] [(* 58 *) Eval [39]; Return]]; Loop [Call [40;41;42] [43;44] [(* 65 *) Eval [43]; Loop [Bind [41;42];
      (* 66 *) Eval [3;44;41;2]; Bind [40];
      (* 67 *) Eval [40;42]; If Opaque [(* 68 *) Eval []; Return] []];
     (* 69 *) Eval []; Return]]; Loop [Call [] [45;46] [(* 72 *) Eval [46;45]]]; Bind [47];
   (* 192 *) Eval [8]; Bind [48]; Bind [49]; Loop [If Opaque [Call [50;51;52;53;54;55;56;57;58;59;60] [61;62] [(* 198 *) Eval [61;62]; Bind [57;50;52];
      (* 199 *) Eval [52]; If Opaque [(* 200 *) Eval []; Return] [];
      (* 201 *) Eval []; Bind [54];
      (* 202 *) Eval []; Bind [51];
      (* 203 *) Eval [52]; Loop [Bind [56;60];
       (* 204 *) Eval [2;9;62;56;60]; Bind [58];
       (* 206 *) Eval [51;58];
       (* 207 *) Eval [58]; Loop [Bind [55;53];
        (* 208 *) Eval [58;55]; Bind [59];
        (* 209 *) Eval [58;53;59;54];
        (* 211 *) Eval [51;58;53;59]];
       (* 212 *) Eval [51]];
      (* 214 *) Eval [54;51]; Return]] [If Opaque [Call [63;64] [65;66] [(* 189 *) Eval [65;66]; Bind [63;63;64];
       (* 190 *) Eval [26]; Loop [Call [] [31;32;33] [(* 29 *) Eval [32;31];
         (* 30 *) Eval [31];
         (* 31 *) Eval [31];
         (* 32 *) Eval [13;31];
         (* 33 *) Eval [33;31]]]; Loop [Call [] [34;35] [(* 37 *) Eval [35;26]; Loop [Call [] [31;32;33] [(* 29 *) Eval [32;31];
           (* 30 *) Eval [31];
           (* 31 *) Eval [31];
           (* 32 *) Eval [13;31];
           (* 33 *) Eval [33;31]]]; Loop [Call [] [36;37] [(* 47 *) Eval [36;37]; If Opaque [(* 48 *) Eval [36;37];
            (* 49 *) Eval [36]] [(* 51 *) Eval []; Raise]]]; Loop [Call [] [38] [(* 54 *) Eval [38]; Return]]; Loop [Call [] [39] [(* 58 *) Eval [39]; Return]]; Loop [Call [40;41;42] [43;44] [(* 65 *) Eval [43]; Loop [Bind [41;42];
            (* 66 *) Eval [3;44;41;2]; Bind [40];
            (* 67 *) Eval [40;42]; If Opaque [(* 68 *) Eval []; Return] []];
           (* 69 *) Eval []; Return]]; Loop [Call [] [45;46] [(* 72 *) Eval [46;45]]]; If Opaque [(* 38 *) Eval [34;35]; Return] [];
         (* 39 *) Eval [35]; If Opaque [Eval [34;35]] []; Return]]; Loop [Call [] [36;37] [(* 47 *) Eval [36;37]; If Opaque [(* 48 *) Eval [36;37];
          (* 49 *) Eval [36]] [(* 51 *) Eval []; Raise]]]; Loop [Call [] [38] [(* 54 *) Eval [38]; Return]]; Loop [Call [] [39] [(* 58 *) Eval [39]; Return]]; Loop [Call [40;41;42] [43;44] [(* 65 *) Eval [43]; Loop [Bind [41;42];
          (* 66 *) Eval [3;44;41;2]; Bind [40];
          (* 67 *) Eval [40;42]; If Opaque [(* 68 *) Eval []; Return] []];
         (* 69 *) Eval []; Return]]; Loop [Call [] [45;46] [(* 72 *) Eval [46;45]]]; Eval [64]; Return]] [If Opaque [Call [67;68;69] [70;71] [(* 165 *) Eval [18;71]; If Opaque [(* 166 *) Eval []; Return] [];
        (* 168 *) Eval []; Bind [67];
        (* 169 *) Eval []; Bind [69];
        (* 170 *) Eval []; Bind [68];
        (* 171 *) Eval []; Eval [68;70]; Loop [(* 172 *) Eval [71;68;18]; If Opaque [(* 173 *) Eval [69]; Bind [69]] [(* 175 *) Eval [69]; If Opaque [(* 176 *) Eval [67;68;69]] [];
          (* 177 *) Eval []; Bind [69]];
         (* 178 *) Eval [68]; Bind [68]; Eval [68;70]];
        (* 179 *) Eval [69]; If Opaque [(* 180 *) Eval [67;68;69]] [];
        (* 181 *) Eval [67]; Return]] [If Opaque [Call [72;73;74] [75;76] [(* 136 *) Eval [18;76]; If Opaque [(* 137 *) Eval []; Return] [];
         (* 140 *) Eval []; Bind [72];
         (* 141 *) Eval []; Bind [74];
         (* 142 *) Eval []; Bind [73];
         (* 143 *) Eval []; Eval [73;75]; Loop [(* 144 *) Eval [76;73;18]; If Opaque [(* 145 *) Eval [74]; Bind [74]] [(* 147 *) Eval [74]; If Opaque [(* 148 *) Eval [75;73;74;72]] [];
           (* 149 *) Eval []; Bind [74]];
          (* 150 *) Eval [73]; Bind [73]; Eval [73;75]];
         (* 151 *) Eval [74]; If Opaque [(* 152 *) Eval [75;73;74;72]] [];
         (* 153 *) Eval [72]; Return]] [If Opaque [Call [77;78;79;80;81;82] [83;84] [(* 98 *) Eval [10;18;84]; Bind [82];
          (* 100 *) Eval [10;84]; Bind [77];
          (* 102 *) Eval []; Bind [78];
          (* 105 *) Eval [84;2]; Loop [Bind [79];
           (* 107 *) Eval [82;79;18]; If Opaque [(* 108 *) Continue] [];
           (* 109 *) Eval [4;84;79;2]; If Opaque [(* 111 *) Eval [3;84;79;2]; Bind [81];
            (* 112 *) Eval [9;84;79;81;2]; Bind [80];
            (* 113 *) Eval [0;5];
            (* 114 *) Eval [83;80];
            (* 117 *) Eval [18;82;79;2];
            (* 118 *) Eval [18;82;79;2;81];
            (* 119 *) Eval [18;82;79;2;81];
            (* 121 *) Eval [77;79;80];
            (* 124 *) Eval [81;78;79]] []];
          (* 125 *) Eval [82;77;78]; Return]] [If Opaque [Call [] [85;86] [(* 83 *) Eval [86;85]]] []]]]]]]] |}.

(** inference/clustering.py:1-124. *)
Definition py_inference_clustering : file := {| f_name := "inference/clustering.py";
  f_vars := ["combinations"; "Bits"; "NDArray"; "np"; "prob"; "hellinger"; "hamming_distance"; "entropy"; "Cluster.__init__"
    ; "Cluster.hard_bits"; "Cluster.dist"; "Cluster.add_sample"; "Cluster.merge_cluster"; "Cluster.__str__"; "Cluster.__len__"
    ; "Cluster"; "BufferClassifier.__init__"; "BufferClassifier.classify"; "Cluster.__init__.self"; "Cluster.__init__.dist"
    ; "Cluster.__init__.uid"; "Cluster.__init__.n_samples"; "Cluster.hard_bits.self"; "Cluster.dist.self"; "Cluster.add_sample.sample"
    ; "Cluster.add_sample.self"; "Cluster.add_sample.buffer"; "Cluster.merge_cluster.self"; "Cluster.merge_cluster.cluster"
    ; "Cluster.__str__.self"; "Cluster.__len__.self"; "BufferClassifier.__add_cluster"; "BufferClassifier.merge_clusters"
    ; "BufferClassifier"; "__all__"; "BufferClassifier.merge_clusters.c"; "BufferClassifier.merge_clusters.c1"; "BufferClassifier.merge_clusters.c2"
    ; "BufferClassifier.merge_clusters.d"; "BufferClassifier.merge_clusters.idx"; "BufferClassifier.merge_clusters.indices"
    ; "BufferClassifier.merge_clusters.min_dist"; "BufferClassifier.merge_clusters.mx"; "BufferClassifier.merge_clusters.pair"
    ; "BufferClassifier.merge_clusters.w"; "BufferClassifier.merge_clusters.self"; "BufferClassifier.__add_cluster.self"; "BufferClassifier.__add_cluster.dist"
    ; "BufferClassifier.classify.closest"; "BufferClassifier.classify.cluster"; "BufferClassifier.classify.d"; "BufferClassifier.classify.ll"
    ; "BufferClassifier.classify.metric"; "BufferClassifier.classify.sample"; "BufferClassifier.classify.self"; "BufferClassifier.classify.buffer"
    ; "BufferClassifier.__init__.self"; "BufferClassifier.__init__.min_data_size"; "BufferClassifier.__init__.k"; "BufferClassifier.__init__.classify_dist"
    ; "BufferClassifier.__init__.merge_dist"; "BufferClassifier.__init__.weight_scheme"];
  f_body :=
   [(* 1 *) Eval []; Bind [0];
   (* 2 *) Eval []; Bind [1];
   (* 3 *) Eval []; Bind [2];
   (* 4 *) Eval []; Bind [3];
   (* 5 *) Eval []; Bind [4;5];
   (* 6 *) Eval []; Bind [6];
   (* 7 *) Eval []; Bind [7];
   (* 10 *) Eval [];
   (* 11 *) Eval [2;3]; Bind [8];
   (* 17 *) Eval [2;3]; Bind [9];
   (* 21 *) Eval [2;3]; Bind [10];
   (* 24 *) Eval [1]; Bind [11];
   (* 30 *) Eval []; Bind [12];
   (* 34 *) Eval []; Bind [13];
   (* 37 *) Eval []; Bind [14]; Bind [15];
   (* 41 *) Eval [];
   (* 42 *) Eval []; Bind [16];
   (* 62 *) Eval [1]; Bind [17];
   (* 91 *) Eval [2;3;15]; Loop [Call [] [18;19;20;21] [(* 12 *) Eval [3;19;21;18];
     (* 13 *) Eval [20;18];
     (* 14 *) Eval [21;18]]]; Loop [Call [] [22] [(* 18 *) Eval [3;22]; Return]]; Loop [Call [] [23] [(* 22 *) Eval [23]; Return]]; Loop [Call [24] [25;26] [(* 25 *) Eval [3;26]; Bind [24];
     (* 26 *) Eval [25;24];
     (* 27 *) Eval [25;24];
     (* 28 *) Eval [25]]]; Loop [Call [] [27;28] [(* 31 *) Eval [27;28];
     (* 32 *) Eval [27;28]]]; Loop [Call [] [29] [(* 35 *) Eval [29]; Return]]; Loop [Call [] [30] [(* 38 *) Eval [30]; Return]]; Bind [31];
   (* 96 *) Eval []; Bind [32]; Bind [33];
   (* 124 *) Eval []; Bind [34]; Loop [If Opaque [Call [35;36;37;38;39;40;41;42;43;44] [45] [(* 97 *) Eval []; Eval [45]; Loop [(* 99 *) Eval [0;45]; Bind [40];
       (* 100 *) Eval []; Bind [41];
       (* 101 *) Eval [40]; Loop [Bind [36;37];
        (* 102 *) Eval [45;36;37]; Bind [42];
        (* 103 *) Eval [45]; If Opaque [(* 104 *) Eval [3;42]; Bind [44]] [(* 105 *) Eval [45]; If Opaque [(* 106 *) Eval [42]; Bind [44]] [(* 108 *) Eval []; Bind [44]]];
        (* 109 *) Eval [45]; If Opaque [(* 110 *) Eval [44;3;7;45;36;37]; Bind [38]] [(* 114 *) Eval [44;3;5;45;36;37]; Bind [38]];
        (* 115 *) Eval [41]; If Opaque [Eval [38;41]] []; If Opaque [(* 116 *) Eval [38]; Bind [41];
         (* 117 *) Eval [36;37]; Bind [43]] []];
       (* 118 *) Eval [45;43]; Bind [35];
       (* 119 *) Eval [45;43;35]; Eval [45]];
      (* 120 *) Eval [45]; Loop [Bind [39;35];
       (* 121 *) Eval [39;35]]]] [If Opaque [Call [] [46;47] [(* 92 *) Eval [46;15]; Loop [Call [] [18;19;20;21] [(* 12 *) Eval [3;19;21;18];
         (* 13 *) Eval [20;18];
         (* 14 *) Eval [21;18]]]; Loop [Call [] [22] [(* 18 *) Eval [3;22]; Return]]; Loop [Call [] [23] [(* 22 *) Eval [23]; Return]]; Loop [Call [24] [25;26] [(* 25 *) Eval [3;26]; Bind [24];
         (* 26 *) Eval [25;24];
         (* 27 *) Eval [25;24];
         (* 28 *) Eval [25]]]; Loop [Call [] [27;28] [(* 31 *) Eval [27;28];
         (* 32 *) Eval [27;28]]]; Loop [Call [] [29] [(* 35 *) Eval [29]; Return]]; Loop [Call [] [30] [(* 38 *) Eval [30]; Return]]; Eval [47;46];
       (* 93 *) Eval [46];
       (* 94 *) Eval [46]; Return]] [If Opaque [Call [48;49;50;51;52;53] [54;55] [(* 63 *) Eval [54];
        (* 64 *) Eval [54]; If Opaque [(* 65 *) Eval [3;55]; Bind [53];
         (* 66 *) Eval [54;4;53];
         (* 67 *) Eval []; Return] [];
        (* 68 *) Eval [54]; If Opaque [(* 69 *) Eval [54];
         (* 70 *) Eval [54]] [];
        (* 72 *) Eval []; Bind [52];
        (* 73 *) Eval [54]; Loop [Bind [49];
         (* 74 *) Eval [54]; If Opaque [(* 75 *) Eval [6;55;49]; Bind [50];
          (* 76 *) Eval [52]; If Opaque [Eval [50;52]] []; If Opaque [(* 77 *) Eval [50]; Bind [52];
           (* 78 *) Eval [49]; Bind [48]] []] [(* 80 *) Eval [3;49;55]; Bind [51];
          (* 84 *) Eval [52]; If Opaque [Eval [51;52]] []; If Opaque [(* 85 *) Eval [51]; Bind [52];
           (* 86 *) Eval [49]; Bind [48]] []]];
        (* 88 *) Eval [48;55];
        (* 89 *) Eval [48]; Return]] [If Opaque [Call [] [56;57;58;59;60;61] [(* 52 *) Eval [57;56];
         (* 53 *) Eval [58;56];
         (* 54 *) Eval [56];
         (* 55 *) Eval [56];
         (* 56 *) Eval [56];
         (* 57 *) Eval [56];
         (* 58 *) Eval [59;56];
         (* 59 *) Eval [60;56];
         (* 60 *) Eval [61;56]]] []]]]]] |}.

(** inference/dude.py:1-238. *)
Definition py_inference_dude : file := {| f_name := "inference/dude.py";
  f_vars := ["np"; "OnlineDude.__init__"; "OnlineDude.denoise_sample"; "OnlineDude.denoise_sequence"; "OnlineDude.smooth_posterior"
    ; "OnlineDude.initial_context"; "OnlineDude.reset"; "OnlineDude"; "DUDE.__init__"; "DUDE.denoise_sample"; "DUDE.denoise_sequence"
    ; "DUDE.smooth_posterior"; "DUDE"; "__all__"; "DUDE.smooth_posterior.tmp"; "DUDE.smooth_posterior.self"; "DUDE.smooth_posterior.empirical_p"
    ; "DUDE.smooth_posterior.observation"; "DUDE.denoise_sequence.context"; "DUDE.denoise_sequence.contexts"; "DUDE.denoise_sequence.cost"
    ; "DUDE.denoise_sequence.costs"; "DUDE.denoise_sequence.empirical_p"; "DUDE.denoise_sequence.estimates"; "DUDE.denoise_sequence.i"
    ; "DUDE.denoise_sequence.n"; "DUDE.denoise_sequence.observation"; "DUDE.denoise_sequence.posterior_p"; "DUDE.denoise_sequence.self"
    ; "DUDE.denoise_sequence.observations"; "DUDE.denoise_sample.cost"; "DUDE.denoise_sample.empirical_p"; "DUDE.denoise_sample.estimate"
    ; "DUDE.denoise_sample.posterior_p"; "DUDE.denoise_sample.self"; "DUDE.denoise_sample.observation"; "DUDE.__init__.self"
    ; "DUDE.__init__.channel_transition_matrix"; "DUDE.__init__.loss_matrix"; "DUDE.__init__.k"; "DUDE.__init__.hard_decision"
    ; "DUDE.__init__.alphabet_size"; "OnlineDude.reset.self"; "OnlineDude.initial_context.self"; "OnlineDude.initial_context.context"
    ; "OnlineDude.smooth_posterior.tmp"; "OnlineDude.smooth_posterior.self"; "OnlineDude.smooth_posterior.empirical_p"; "OnlineDude.smooth_posterior.observation"
    ; "OnlineDude.denoise_sequence.costs"; "OnlineDude.denoise_sequence.estimates"; "OnlineDude.denoise_sequence.i"; "OnlineDude.denoise_sequence.self"
    ; "OnlineDude.denoise_sequence.observations"; "OnlineDude.denoise_sample.cost"; "OnlineDude.denoise_sample.empirical_p"
    ; "OnlineDude.denoise_sample.estimate"; "OnlineDude.denoise_sample.posterior_p"; "OnlineDude.denoise_sample.self"; "OnlineDude.denoise_sample.observation"
    ; "OnlineDude.__init__.self"; "OnlineDude.__init__.channel_transition_matrix"; "OnlineDude.__init__.loss_matrix"; "OnlineDude.__init__.k"
    ; "OnlineDude.__init__.hard_decision"; "OnlineDude.__init__.alphabet_size"];
  f_body :=
   [(* 1 *) Eval []; Bind [0];
   (* 4 *) Eval [];
   (* 9 *) Eval [0]; Bind [1];
   (* 30 *) Eval []; Bind [2];
   (* 65 *) Eval [0]; Bind [3];
   (* 80 *) Eval [0]; Bind [4];
   (* 98 *) Eval []; Bind [5];
   (* 107 *) Eval []; Bind [6]; Bind [7];
   (* 113 *) Eval [];
   (* 117 *) Eval [0]; Bind [8];
   (* 136 *) Eval []; Bind [9];
   (* 167 *) Eval [0]; Bind [10];
   (* 219 *) Eval [0]; Bind [11]; Bind [12];
   (* 238 *) Eval []; Bind [13]; Loop [If Opaque [Call [14] [15;16;17] [(* 227 *) Eval [0;16;15]; Bind [14];
      (* 228 *) Eval [14]; If Opaque [(* 229 *) Eval [14];
       (* 230 *) Eval [0;14]] [(* 231 *) Eval [14]; If Opaque [(* 232 *) Eval [14];
        (* 233 *) Eval [0;14]] []];
      (* 234 *) Eval [14;15;17]; Bind [14];
      (* 235 *) Eval [14;0]; Return]] [If Opaque [Call [18;19;20;21;22;23;24;25;26;27] [28;29] [(* 173 *) Eval [29]; Bind [25];
       (* 174 *) Eval [28]; If Opaque [(* 175 *) Eval [0;29]; Bind [23];
        (* 176 *) Eval [29;28;23];
        (* 177 *) Eval [29;28;23]] [(* 179 *) Eval [0;29;28]; Bind [23];
        (* 180 *) Eval [0;28;29;23];
        (* 181 *) Eval [0;28;29;23]];
       (* 183 *) Eval [0;29]; Bind [21];
       (* 185 *) Eval []; Bind [19];
       (* 186 *) Eval [28;25]; Loop [Bind [24];
        (* 187 *) Eval [29;24;28]; Bind [18];
        (* 189 *) Eval [18;19]; If Opaque [(* 190 *) Eval [0;28;19;18]] [];
        (* 191 *) Eval [19;18;29;24]];
       (* 199 *) Eval [28;25]; Loop [Bind [24];
        (* 201 *) Eval [29;24;28]; Bind [18];
        (* 202 *) Eval [29;24]; Bind [26];
        (* 203 *) Eval [19;18;0]; Bind [22];
        (* 204 *) Eval [28]; If Opaque [(* 205 *) Eval [0;22;28;26]; Bind [27];
         (* 208 *) Eval [0;27;28]; Bind [20];
         (* 209 *) Eval [0;20;23;24];
         (* 210 *) Eval [20;23;24;21]] [(* 214 *) Eval [28;22;26]; Bind [27];
         (* 215 *) Eval [0;27;28]; Bind [20];
         (* 216 *) Eval [27;20;23;24;21]]];
       (* 217 *) Eval [23;21]; Return]] [If Opaque [Call [30;31;32;33] [34;35] [(* 141 *) Eval [34]; If Opaque [(* 142 *) Eval []; Raise] [];
        (* 143 *) Eval [35;34]; If Opaque [(* 144 *) Eval [34]; Raise] [];
        (* 145 *) Eval [34]; If Opaque [(* 146 *) Eval [0;34]] [];
        (* 147 *) Eval [34;35];
        (* 149 *) Eval [34;0]; Bind [31];
        (* 151 *) Eval [34;35];
        (* 153 *) Eval [34]; If Opaque [(* 154 *) Eval [0;31;34;35]; Bind [33];
         (* 157 *) Eval [0;33;34]; Bind [30];
         (* 158 *) Eval [0;30]; Bind [32];
         (* 159 *) Eval [32;30]; Return] [(* 163 *) Eval [34;31;35]; Bind [33];
         (* 164 *) Eval [0;33;34]; Bind [30];
         (* 165 *) Eval [33;30]; Return]]] [If Opaque [Call [] [36;37;38;39;40;41] [(* 128 *) Eval [37;36];
         (* 129 *) Eval [0;37;36];
         (* 131 *) Eval [38;36];
         (* 132 *) Eval [39;36];
         (* 133 *) Eval [41;36];
         (* 134 *) Eval [40;36]]] [If Opaque [Call [] [42] [(* 109 *) Eval [42];
          (* 110 *) Eval [42]]] [If Opaque [Call [] [43;44] [(* 103 *) Eval [44;43]; If Opaque [(* 104 *) Eval []; Raise] [];
           (* 105 *) Eval [44;43]]] [If Opaque [Call [45] [46;47;48] [(* 88 *) Eval [0;47;46]; Bind [45];
            (* 89 *) Eval [45]; If Opaque [(* 90 *) Eval [45];
             (* 91 *) Eval [0;45]] [(* 92 *) Eval [45]; If Opaque [(* 93 *) Eval [45];
              (* 94 *) Eval [0;45]] []];
            (* 95 *) Eval [45;46;48]; Bind [45];
            (* 96 *) Eval [45;0]; Return]] [If Opaque [Call [49;50;51] [52;53] [(* 71 *) Eval [52]; If Opaque [(* 72 *) Eval [0;53]; Bind [50]] [(* 74 *) Eval [0;53;52]; Bind [50]];
             (* 75 *) Eval [0;53]; Bind [49];
             (* 76 *) Eval [53]; Loop [Bind [51];
              (* 77 *) Eval [52;53;51;50;49]];
             (* 78 *) Eval [50;49]; Return]] [If Opaque [Call [54;55;56;57] [58;59] [(* 35 *) Eval [59;58]; If Opaque [(* 36 *) Eval [58]; Raise] [];
              (* 37 *) Eval [58]; If Opaque [(* 39 *) Eval [58;59];
               (* 40 *) Eval [58]; If Opaque [(* 41 *) Eval [59]; Return] [(* 43 *) Eval [0;58;59]; Return]] [];
              (* 44 *) Eval [58]; If Opaque [(* 45 *) Eval [0;58]] [];
              (* 46 *) Eval [58;59];
              (* 47 *) Eval [58;0]; Bind [55];
              (* 49 *) Eval [58;59];
              (* 51 *) Eval [58]; If Opaque [(* 52 *) Eval [0;55;58;59]; Bind [57];
               (* 55 *) Eval [0;57;58]; Bind [54];
               (* 56 *) Eval [0;54]; Bind [56];
               (* 57 *) Eval [56;54]; Return] [(* 61 *) Eval [58;55;59]; Bind [57];
               (* 62 *) Eval [0;57;58]; Bind [54];
               (* 63 *) Eval [57;54]; Return]]] [If Opaque [Call [] [60;61;62;63;64;65] [(* 20 *) Eval [61;60];
               (* 21 *) Eval [0;61;60];
               (* 23 *) Eval [62;60];
               (* 24 *) Eval [63;60];
               (* 25 *) Eval [65;60];
               (* 26 *) Eval [60];
               (* 27 *) Eval [60];
               (* 28 *) Eval [64;60]]] []]]]]]]]]]]] |}.

(** inference/entropy_mle.py:1-112. *)
Definition py_inference_entropy_mle : file := {| f_name := "inference/entropy_mle.py";
  f_vars := ["np"; "NDArray"; "Callable"; "entropy"; "bsc_llr"; "EMLE.__init__"; "EMLE._model_confidence"; "EMLE.reset"; "EMLE.predict"
    ; "EMLE.update_model"; "EMLE.denoise_buffer"; "EMLE.denoise_sequence"; "EMLE"; "__all__"; "EMLE.denoise_sequence.costs"
    ; "EMLE.denoise_sequence.estimates"; "EMLE.denoise_sequence.i"; "EMLE.denoise_sequence.self"; "EMLE.denoise_sequence.buffer_sequence"
    ; "EMLE.denoise_buffer.cost"; "EMLE.denoise_buffer.estimated_bits"; "EMLE.denoise_buffer.estimated_llr"; "EMLE.denoise_buffer.hard_bits"
    ; "EMLE.denoise_buffer.llr"; "EMLE.denoise_buffer.self"; "EMLE.denoise_buffer.observation"; "bsc_llr.p"; "EMLE.update_model.arr"
    ; "EMLE.update_model.v"; "EMLE.update_model.self"; "EMLE.update_model.observation_bits"; "EMLE.predict.c"; "EMLE.predict.structural_elements"
    ; "EMLE.predict.self"; "EMLE.predict.observation_llr"; "EMLE.reset.self"; "EMLE._model_confidence.self"; "EMLE.__init__.self"
    ; "EMLE.__init__.f"; "EMLE.__init__.threshold"; "EMLE.__init__.window_length"; "EMLE.__init__.conf_center"; "EMLE.__init__.conf_slope"
    ; "EMLE.__init__.hard_decision"; "EMLE.__init__.soft_input"];
  f_body :=
   [(* 1 *) Eval []; Bind [0];
   (* 2 *) Eval []; Bind [1];
   (* 3 *) Eval []; Bind [2];
   (* 4 *) Eval []; Bind [3];
   (* 7 *) Eval [2;1;0]; Bind [4];
   (* 17 *) Eval [];
   (* 20 *) Eval []; Bind [5];
   (* 41 *) Eval [0]; Bind [6];
   (* 45 *) Eval []; Bind [7];
   (* 52 *) Eval [1;0]; Bind [8];
   (* 66 *) Eval [1;0]; Bind [9];
   (* 81 *) Eval [1;0]; Bind [10];
   (* 96 *) Eval [0]; Bind [11]; Bind [12];
   (* 112 *) Eval []; Bind [13]; Loop [If Opaque [Call [14;15;16] [17;18] [(* 102 *) Eval [17]; If Opaque [(* 103 *) Eval [0;18]; Bind [15]] [(* 105 *) Eval [0;18]; Bind [15]];
      (* 106 *) Eval [0;18]; Bind [14];
      (* 107 *) Eval [18]; Loop [Bind [16];
       (* 108 *) Eval [17;18;16;15;14]];
      (* 109 *) Eval [15;14]; Return]] [If Opaque [Call [19;20;21;22;23] [24;25] [(* 88 *) Eval [24]; If Opaque [Eval [25]] [Eval [4]; Loop [Call [] [26] [(* 14 *) Eval []; If Opaque [Eval [0;26]] []; Return]]; Eval [24;25]]; Bind [23];
       (* 89 *) Eval [24]; If Opaque [Eval [0;23]] [Eval [25]]; Bind [22];
       (* 90 *) Eval [24;23]; Bind [21];
       (* 91 *) Eval [0;21]; Bind [20];
       (* 92 *) Eval [24;22];
       (* 93 *) Eval [0;22;20]; Bind [19];
       (* 94 *) Eval [24]; If Opaque [Eval [20;19]] [Eval [21;19]]; Return]] [If Opaque [Call [27;28] [29;30] [(* 70 *) Eval [30;0]; Bind [27];
        (* 71 *) Eval [29]; If Opaque [Eval [27]] [Eval [0;29;27]]; Eval [29];
        (* 72 *) Eval [29]; If Opaque [Eval [29]] []; If Opaque [(* 74 *) Eval [29]] [];
        (* 75 *) Eval [0;29]; Bind [28];
        (* 76 *) Eval [0;28;29];
        (* 77 *) Eval [3;0;29];
        (* 78 *) Eval [29]; If Opaque [Eval [29]] []; If Opaque [(* 79 *) Eval [29]] []]] [If Opaque [Call [31;32] [33;34] [(* 57 *) Eval [33]; Bind [32];
         (* 58 *) Eval [32]; If Opaque [(* 59 *) Eval [34]; Return] [];
         (* 60 *) Eval [33]; Bind [31];
         (* 61 *) Eval [31]; If Opaque [(* 62 *) Eval [34;32;31;0;33]] [];
         (* 64 *) Eval [34]; Return]] [If Opaque [Call [] [35] [(* 47 *) Eval [35];
          (* 48 *) Eval [0;35];
          (* 49 *) Eval [0;35];
          (* 50 *) Eval [0;35]]] [If Opaque [Call [] [36] [(* 42 *) Eval [36]; If Opaque [] [Eval [0;36]]; Return]] [If Opaque [Call [] [37;38;39;40;41;42;43;44] [(* 28 *) Eval [38;37];
            (* 29 *) Eval [43;37];
            (* 30 *) Eval [44;37];
            (* 31 *) Eval [39;37];
            (* 32 *) Eval [41;37];
            (* 33 *) Eval [42;37];
            (* 34 *) Eval [40;37];
            (* 36 *) Eval [37];
            (* 37 *) Eval [0;37];
            (* 38 *) Eval [0;37];
            (* 39 *) Eval [0;37]]] [If Opaque [Call [] [26] [(* 14 *) Eval []; If Opaque [Eval [0;26]] []; Return]] []]]]]]]]]] |}.

(** inference/statistical_models.py:1-380. *)
Definition py_inference_statistical_models : file := {| f_name := "inference/statistical_models.py";
  f_vars := ["Any"; "ndarray"; "norm"; "erf"; "field_lengths"; "dialect_meta"; "format_strings"; "inv_format_strings"; "json"
    ; "NDArray"; "np"; "mavlink_map"; "Sequence"; "struct"; "num2bits"; "FieldModel.__init__"; "FieldModel.add_sample"; "FieldModel.mean"
    ; "FieldModel.std"; "FieldModel._update"; "FieldModel.pdf"; "FieldModel.cdf"; "FieldModel.classify_value"; "FieldModel.p_of_sign_bit"
    ; "FieldModel.bitwise_classify_value"; "FieldModel.std_significant_bits"; "FieldModel.__str__"; "FieldModel.model_size"
    ; "FieldModel.bitwise_mean"; "FieldModel"; "FieldModel.__init__.self"; "FieldModel.__init__.name"; "FieldModel.__init__.field_type"
    ; "FieldModel.__init__.window_size"; "FieldModel.add_sample.self"; "FieldModel.add_sample.sample"; "FieldModel.mean.self"
    ; "FieldModel.std.self"; "FieldModel._update.self"; "FieldModel.pdf.self"; "FieldModel.pdf.x"; "FieldModel.cdf.self"; "FieldModel.cdf.x"
    ; "FieldModel.classify_value.normalized_distance"; "FieldModel.classify_value.self"; "FieldModel.classify_value.value"
    ; "FieldModel.p_of_sign_bit.p_change"; "FieldModel.p_of_sign_bit.self"; "FieldModel.bitwise_classify_value.self"; "FieldModel.bitwise_classify_value.value"
    ; "FieldModel.std_significant_bits.self"; "FieldModel.std_significant_bits.num_std"; "FieldModel.__str__.self"; "FieldModel.model_size.self"
    ; "FieldModel.bitwise_mean.self"; "num2bits.fmt"; "num2bits.to_bytes"; "num2bits.num"; "num2bits.field_type"; "BufferModel.__init__"
    ; "BufferModel.add_sample"; "BufferModel.__getitem__"; "BufferModel.__setitem__"; "BufferModel.__len__"; "BufferModel.__iter__"
    ; "BufferModel.__contains__"; "BufferModel.fields_names"; "BufferModel.set_buffer_description"; "BufferModel.get_buffer_description"
    ; "BufferModel.get_field_model"; "BufferModel.predict"; "BufferModel.unpack_values"; "BufferModel.unpack_structure"; "BufferModel.save"
    ; "BufferModel.load"; "BufferModel.find_damaged_fields"; "BufferModel.add_buffer"; "BufferModel.bitwise_model_mean"; "BufferModel"
    ; "__all__"; "BufferModel.bitwise_model_mean.bit_2_val_idx"; "BufferModel.bitwise_model_mean.field_idx"; "BufferModel.bitwise_model_mean.field_name"
    ; "BufferModel.bitwise_model_mean.field_type"; "BufferModel.bitwise_model_mean.mean_values"; "BufferModel.bitwise_model_mean.ordered_field_names"
    ; "BufferModel.bitwise_model_mean.ordered_field_types"; "BufferModel.bitwise_model_mean.self"; "BufferModel.bitwise_model_mean.bits_idx"
    ; "BufferModel.bitwise_model_mean.buffer_len"; "BufferModel.bitwise_model_mean.buffer_structure"; "BufferModel.add_buffer._"
    ; "BufferModel.add_buffer.field_name"; "BufferModel.add_buffer.field_type"; "BufferModel.add_buffer.fields"; "BufferModel.add_buffer.length"
    ; "BufferModel.add_buffer.ordered_field_names"; "BufferModel.add_buffer.ordered_field_types"; "BufferModel.add_buffer.value"
    ; "BufferModel.add_buffer.self"; "BufferModel.add_buffer.buffer"; "BufferModel.add_buffer.structure"; "BufferModel.find_damaged_fields._"
    ; "BufferModel.find_damaged_fields.bit_2_val_idx"; "BufferModel.find_damaged_fields.ordered_field_names"; "BufferModel.find_damaged_fields.self"
    ; "BufferModel.find_damaged_fields.error_indices"; "BufferModel.find_damaged_fields.structure"; "BufferModel.find_damaged_fields.buffer_len"
    ; "BufferModel.load.buffer_description"; "BufferModel.load.data"; "BufferModel.load.f"; "BufferModel.load.field_name"
    ; "BufferModel.load.i"; "BufferModel.load.model"; "BufferModel.load.model_size"; "BufferModel.load.models"; "BufferModel.load.obj"
    ; "BufferModel.load.val"; "BufferModel.load.vals"; "BufferModel.load.window_size"; "BufferModel.load.cls"; "BufferModel.load.filename"
    ; "BufferModel.save.f"; "BufferModel.save.model"; "BufferModel.save.self"; "BufferModel.save.filename"; "BufferModel.unpack_structure._"
    ; "BufferModel.unpack_structure.bit_2_val_idx"; "BufferModel.unpack_structure.byte_idx"; "BufferModel.unpack_structure.char"
    ; "BufferModel.unpack_structure.field_idx"; "BufferModel.unpack_structure.field_len_bits"; "BufferModel.unpack_structure.format_string"
    ; "BufferModel.unpack_structure.last_bit"; "BufferModel.unpack_structure.msg_id"; "BufferModel.unpack_structure.name"
    ; "BufferModel.unpack_structure.ordered_field_names"; "BufferModel.unpack_structure.ordered_field_types"; "BufferModel.unpack_structure.start_bit"
    ; "BufferModel.unpack_structure.type_idx"; "BufferModel.unpack_structure.bitwise"; "BufferModel.unpack_structure.buffer_len"
    ; "BufferModel.unpack_structure.buffer_structure"; "BufferModel.unpack_values.byte_idx"; "BufferModel.unpack_values.field_values"
    ; "BufferModel.unpack_values.msg_id"; "BufferModel.unpack_values.buffer"; "BufferModel.unpack_values.buffer_structure"
    ; "BufferModel.predict._"; "BufferModel.predict.bit_2_val_idx"; "BufferModel.predict.bits_std"; "BufferModel.predict.field_idx"
    ; "BufferModel.predict.field_name"; "BufferModel.predict.fields"; "BufferModel.predict.length"; "BufferModel.predict.ordered_field_names"
    ; "BufferModel.predict.std"; "BufferModel.predict.val"; "BufferModel.predict.valid_bits_probability"; "BufferModel.predict.valid_field_probability"
    ; "BufferModel.predict.value"; "BufferModel.predict.self"; "BufferModel.predict.buffer"; "BufferModel.predict.buffer_structure"
    ; "BufferModel.get_field_model.self"; "BufferModel.get_field_model.field_name"; "BufferModel.get_buffer_description.self"
    ; "BufferModel.set_buffer_description.item"; "BufferModel.set_buffer_description.self"; "BufferModel.set_buffer_description.description"
    ; "BufferModel.fields_names.self"; "BufferModel.__contains__.self"; "BufferModel.__contains__.item"; "BufferModel.__iter__.self"
    ; "BufferModel.__len__.self"; "BufferModel.__setitem__.self"; "BufferModel.__setitem__.key"; "BufferModel.__setitem__.value"
    ; "BufferModel.__getitem__.self"; "BufferModel.__getitem__.key"; "BufferModel.add_sample.self"; "BufferModel.add_sample.field_name"
    ; "BufferModel.add_sample.sample"; "BufferModel.add_sample.field_type"; "BufferModel.__init__.self"; "BufferModel.__init__.models"
    ; "BufferModel.__init__.window_size"];
  f_body :=
   [(* 1 *) Eval []; Bind [0];
   (* 2 *) Eval []; Bind [1];
   (* 3 *) Eval []; Bind [2];
   (* 4 *) Eval []; Bind [3];
   (* 5 *) Eval []; Bind [4;5;6;7];
   (* 6 *) Eval []; Bind [8];
   (* 7 *) Eval []; Bind [9];
   (* 8 *) Eval []; Bind [10];
   (* 9 *) Eval []; Bind [11];
   (* 10 *) Eval []; Bind [12];
   (* 11 *) Eval []; Bind [13];
   (* 14 *) Eval [9;10]; Bind [14];
   (* 29 *) Eval [];
   (* 30 *) Eval []; Bind [15];
   (* 53 *) Eval []; Bind [16];
   (* 63 *) Eval []; Bind [17];
   (* 69 *) Eval []; Bind [18];
   (* 74 *) Eval []; Bind [19];
   (* 79 *) Eval []; Bind [20];
   (* 84 *) Eval []; Bind [21];
   (* 89 *) Eval []; Bind [22];
   (* 98 *) Eval []; Bind [23];
   (* 110 *) Eval [9;10]; Bind [24];
   (* 117 *) Eval []; Bind [25];
   (* 124 *) Eval []; Bind [26];
   (* 128 *) Eval []; Bind [27];
   (* 131 *) Eval [9;10]; Bind [28]; Bind [29];
   (* 137 *) Eval [];
   (* 138 *) Eval [29]; Loop [Call [] [30;31;32;33] [(* 31 *) Eval [32;4]; If Opaque [(* 32 *) Eval [32]; Raise] [];
     (* 33 *) Eval [31;30];
     (* 34 *) Eval [32;30];
     (* 35 *) Eval [4;32;30];
     (* 36 *) Eval [30];
     (* 37 *) Eval [30];
     (* 38 *) Eval [30];
     (* 39 *) Eval [30];
     (* 40 *) Eval [33;30];
     (* 41 *) Eval [32]; If Opaque [Eval [32]] []; If Opaque [(* 42 *) Eval [30];
      (* 43 *) Eval [30]] [(* 44 *) Eval [32]; If Opaque [(* 45 *) Eval [30];
       (* 46 *) Eval [30]] [(* 47 *) Eval [32]; If Opaque [(* 48 *) Eval [30];
        (* 49 *) Eval [30]] [(* 51 *) Eval [32]; Raise]]]]]; Loop [Call [] [34;35] [(* 54 *) Eval [35]; If Opaque [(* 55 *) Eval [34;35]] [(* 57 *) Eval [34;35]];
     (* 58 *) Eval [34]; If Opaque [Eval [34]] []; If Opaque [(* 59 *) Eval [34]] [];
     (* 60 *) Eval [34]]]; Loop [Call [] [36] [(* 64 *) Eval [36]; If Opaque [(* 65 *) Eval [36]] [];
     (* 66 *) Eval [36]; Return]]; Loop [Call [] [37] [(* 70 *) Eval [37]; If Opaque [(* 71 *) Eval [37]] [];
     (* 72 *) Eval [37]; Return]]; Loop [Call [] [38] [(* 75 *) Eval [38]; If Opaque [(* 76 *) Eval [2;38];
      (* 77 *) Eval [38]] []]]; Loop [Call [] [39;40] [(* 80 *) Eval [39]; If Opaque [(* 81 *) Eval [39]] [];
     (* 82 *) Eval [2;40;39]; Return]]; Loop [Call [] [41;42] [(* 85 *) Eval [41]; If Opaque [(* 86 *) Eval [41]] [];
     (* 87 *) Eval [2;42;41]; Return]]; Loop [Call [43] [44;45] [(* 91 *) Eval [44]; If Opaque [(* 92 *) Eval [44]] [];
     (* 93 *) Eval [44]; If Opaque [(* 94 *) Eval [45;44]; Return] [];
     (* 95 *) Eval [44;45]; Bind [43];
     (* 96 *) Eval [3;43;10;44]; Return]]; Loop [Call [46] [47] [(* 102 *) Eval [47]; If Opaque [(* 103 *) Eval []; Return] [];
     (* 104 *) Eval [47]; If Opaque [(* 105 *) Eval [47]] [];
     (* 107 *) Eval [2;47]; Bind [46];
     (* 108 *) Eval [46]; Return]]; Loop [Call [] [48;49] [(* 112 *) Eval [48]; If Opaque [(* 113 *) Eval [48]] [];
     (* 115 *) Eval [10]; Return]]; Loop [Call [] [50;51] [(* 119 *) Eval [50]; If Opaque [(* 120 *) Eval [50]] [];
     (* 122 *) Eval [10;51;50]; Return]]; Loop [Call [] [52] [(* 125 *) Eval [52]; Return]]; Loop [Call [] [53] [(* 129 *) Eval [53]; Return]]; Loop [Call [] [54] [(* 132 *) Eval [54]; If Opaque [(* 133 *) Eval [54]] [];
     (* 134 *) Eval [14]; Loop [Call [55;56] [57;58] [(* 16 *) Eval [58]; If Opaque [(* 17 *) Eval [57]; Bind [57]] [(* 18 *) Eval [58]; If Opaque [(* 19 *) Eval [57]; If Opaque [Eval [57]] []; Bind [57]] [(* 20 *) Eval [58]; If Opaque [(* 21 *) Eval [57]; Bind [57]] [(* 22 *) Eval [58]; If Opaque [(* 23 *) Eval [58]; Raise] []]]];
       (* 24 *) Eval [6;58]; Bind [55];
       (* 25 *) Eval [13;55;57]; Bind [56];
       (* 26 *) Eval [10;56]; Return]]; Eval [54]; Return]]; Bind [59];
   (* 145 *) Eval []; Bind [60];
   (* 150 *) Eval [29]; Loop [Call [] [30;31;32;33] [(* 31 *) Eval [32;4]; If Opaque [(* 32 *) Eval [32]; Raise] [];
     (* 33 *) Eval [31;30];
     (* 34 *) Eval [32;30];
     (* 35 *) Eval [4;32;30];
     (* 36 *) Eval [30];
     (* 37 *) Eval [30];
     (* 38 *) Eval [30];
     (* 39 *) Eval [30];
     (* 40 *) Eval [33;30];
     (* 41 *) Eval [32]; If Opaque [Eval [32]] []; If Opaque [(* 42 *) Eval [30];
      (* 43 *) Eval [30]] [(* 44 *) Eval [32]; If Opaque [(* 45 *) Eval [30];
       (* 46 *) Eval [30]] [(* 47 *) Eval [32]; If Opaque [(* 48 *) Eval [30];
        (* 49 *) Eval [30]] [(* 51 *) Eval [32]; Raise]]]]]; Loop [Call [] [34;35] [(* 54 *) Eval [35]; If Opaque [(* 55 *) Eval [34;35]] [(* 57 *) Eval [34;35]];
     (* 58 *) Eval [34]; If Opaque [Eval [34]] []; If Opaque [(* 59 *) Eval [34]] [];
     (* 60 *) Eval [34]]]; Loop [Call [] [36] [(* 64 *) Eval [36]; If Opaque [(* 65 *) Eval [36]] [];
     (* 66 *) Eval [36]; Return]]; Loop [Call [] [37] [(* 70 *) Eval [37]; If Opaque [(* 71 *) Eval [37]] [];
     (* 72 *) Eval [37]; Return]]; Loop [Call [] [38] [(* 75 *) Eval [38]; If Opaque [(* 76 *) Eval [2;38];
      (* 77 *) Eval [38]] []]]; Loop [Call [] [39;40] [(* 80 *) Eval [39]; If Opaque [(* 81 *) Eval [39]] [];
     (* 82 *) Eval [2;40;39]; Return]]; Loop [Call [] [41;42] [(* 85 *) Eval [41]; If Opaque [(* 86 *) Eval [41]] [];
     (* 87 *) Eval [2;42;41]; Return]]; Loop [Call [43] [44;45] [(* 91 *) Eval [44]; If Opaque [(* 92 *) Eval [44]] [];
     (* 93 *) Eval [44]; If Opaque [(* 94 *) Eval [45;44]; Return] [];
     (* 95 *) Eval [44;45]; Bind [43];
     (* 96 *) Eval [3;43;10;44]; Return]]; Loop [Call [46] [47] [(* 102 *) Eval [47]; If Opaque [(* 103 *) Eval []; Return] [];
     (* 104 *) Eval [47]; If Opaque [(* 105 *) Eval [47]] [];
     (* 107 *) Eval [2;47]; Bind [46];
     (* 108 *) Eval [46]; Return]]; Loop [Call [] [48;49] [(* 112 *) Eval [48]; If Opaque [(* 113 *) Eval [48]] [];
     (* 115 *) Eval [10]; Return]]; Loop [Call [] [50;51] [(* 119 *) Eval [50]; If Opaque [(* 120 *) Eval [50]] [];
     (* 122 *) Eval [10;51;50]; Return]]; Loop [Call [] [52] [(* 125 *) Eval [52]; Return]]; Loop [Call [] [53] [(* 129 *) Eval [53]; Return]]; Loop [Call [] [54] [(* 132 *) Eval [54]; If Opaque [(* 133 *) Eval [54]] [];
     (* 134 *) Eval [14]; Loop [Call [55;56] [57;58] [(* 16 *) Eval [58]; If Opaque [(* 17 *) Eval [57]; Bind [57]] [(* 18 *) Eval [58]; If Opaque [(* 19 *) Eval [57]; If Opaque [Eval [57]] []; Bind [57]] [(* 20 *) Eval [58]; If Opaque [(* 21 *) Eval [57]; Bind [57]] [(* 22 *) Eval [58]; If Opaque [(* 23 *) Eval [58]; Raise] []]]];
       (* 24 *) Eval [6;58]; Bind [55];
       (* 25 *) Eval [13;55;57]; Bind [56];
       (* 26 *) Eval [10;56]; Return]]; Eval [54]; Return]]; Bind [61];
   (* 153 *) Eval [29]; Loop [Call [] [30;31;32;33] [(* 31 *) Eval [32;4]; If Opaque [(* 32 *) Eval [32]; Raise] [];
     (* 33 *) Eval [31;30];
     (* 34 *) Eval [32;30];
     (* 35 *) Eval [4;32;30];
     (* 36 *) Eval [30];
     (* 37 *) Eval [30];
     (* 38 *) Eval [30];
     (* 39 *) Eval [30];
     (* 40 *) Eval [33;30];
     (* 41 *) Eval [32]; If Opaque [Eval [32]] []; If Opaque [(* 42 *) Eval [30];
      (* 43 *) Eval [30]] [(* 44 *) Eval [32]; If Opaque [(* 45 *) Eval [30];
       (* 46 *) Eval [30]] [(* 47 *) Eval [32]; If Opaque [(* 48 *) Eval [30];
        (* 49 *) Eval [30]] [(* 51 *) Eval [32]; Raise]]]]]; Loop [Call [] [34;35] [(* 54 *) Eval [35]; If Opaque [(* 55 *) Eval [34;35]] [(* 57 *) Eval [34;35]];
     (* 58 *) Eval [34]; If Opaque [Eval [34]] []; If Opaque [(* 59 *) Eval [34]] [];
     (* 60 *) Eval [34]]]; Loop [Call [] [36] [(* 64 *) Eval [36]; If Opaque [(* 65 *) Eval [36]] [];
     (* 66 *) Eval [36]; Return]]; Loop [Call [] [37] [(* 70 *) Eval [37]; If Opaque [(* 71 *) Eval [37]] [];
     (* 72 *) Eval [37]; Return]]; Loop [Call [] [38] [(* 75 *) Eval [38]; If Opaque [(* 76 *) Eval [2;38];
      (* 77 *) Eval [38]] []]]; Loop [Call [] [39;40] [(* 80 *) Eval [39]; If Opaque [(* 81 *) Eval [39]] [];
     (* 82 *) Eval [2;40;39]; Return]]; Loop [Call [] [41;42] [(* 85 *) Eval [41]; If Opaque [(* 86 *) Eval [41]] [];
     (* 87 *) Eval [2;42;41]; Return]]; Loop [Call [43] [44;45] [(* 91 *) Eval [44]; If Opaque [(* 92 *) Eval [44]] [];
     (* 93 *) Eval [44]; If Opaque [(* 94 *) Eval [45;44]; Return] [];
     (* 95 *) Eval [44;45]; Bind [43];
     (* 96 *) Eval [3;43;10;44]; Return]]; Loop [Call [46] [47] [(* 102 *) Eval [47]; If Opaque [(* 103 *) Eval []; Return] [];
     (* 104 *) Eval [47]; If Opaque [(* 105 *) Eval [47]] [];
     (* 107 *) Eval [2;47]; Bind [46];
     (* 108 *) Eval [46]; Return]]; Loop [Call [] [48;49] [(* 112 *) Eval [48]; If Opaque [(* 113 *) Eval [48]] [];
     (* 115 *) Eval [10]; Return]]; Loop [Call [] [50;51] [(* 119 *) Eval [50]; If Opaque [(* 120 *) Eval [50]] [];
     (* 122 *) Eval [10;51;50]; Return]]; Loop [Call [] [52] [(* 125 *) Eval [52]; Return]]; Loop [Call [] [53] [(* 129 *) Eval [53]; Return]]; Loop [Call [] [54] [(* 132 *) Eval [54]; If Opaque [(* 133 *) Eval [54]] [];
     (* 134 *) Eval [14]; Loop [Call [55;56] [57;58] [(* 16 *) Eval [58]; If Opaque [(* 17 *) Eval [57]; Bind [57]] [(* 18 *) Eval [58]; If Opaque [(* 19 *) Eval [57]; If Opaque [Eval [57]] []; Bind [57]] [(* 20 *) Eval [58]; If Opaque [(* 21 *) Eval [57]; Bind [57]] [(* 22 *) Eval [58]; If Opaque [(* 23 *) Eval [58]; Raise] []]]];
       (* 24 *) Eval [6;58]; Bind [55];
       (* 25 *) Eval [13;55;57]; Bind [56];
       (* 26 *) Eval [10;56]; Return]]; Eval [54]; Return]]; Bind [62];
   (* 156 *) Eval []; Bind [63];
   (* 159 *) Eval []; Bind [64];
   (* 162 *) Eval []; Bind [65];
   (* 165 *) Eval []; Bind [66];
   (* 168 *) Eval []; Bind [67];
   (* 177 *) Eval []; Bind [68];
   (* 180 *) Eval [29]; Loop [Call [] [30;31;32;33] [(* 31 *) Eval [32;4]; If Opaque [(* 32 *) Eval [32]; Raise] [];
     (* 33 *) Eval [31;30];
     (* 34 *) Eval [32;30];
     (* 35 *) Eval [4;32;30];
     (* 36 *) Eval [30];
     (* 37 *) Eval [30];
     (* 38 *) Eval [30];
     (* 39 *) Eval [30];
     (* 40 *) Eval [33;30];
     (* 41 *) Eval [32]; If Opaque [Eval [32]] []; If Opaque [(* 42 *) Eval [30];
      (* 43 *) Eval [30]] [(* 44 *) Eval [32]; If Opaque [(* 45 *) Eval [30];
       (* 46 *) Eval [30]] [(* 47 *) Eval [32]; If Opaque [(* 48 *) Eval [30];
        (* 49 *) Eval [30]] [(* 51 *) Eval [32]; Raise]]]]]; Loop [Call [] [34;35] [(* 54 *) Eval [35]; If Opaque [(* 55 *) Eval [34;35]] [(* 57 *) Eval [34;35]];
     (* 58 *) Eval [34]; If Opaque [Eval [34]] []; If Opaque [(* 59 *) Eval [34]] [];
     (* 60 *) Eval [34]]]; Loop [Call [] [36] [(* 64 *) Eval [36]; If Opaque [(* 65 *) Eval [36]] [];
     (* 66 *) Eval [36]; Return]]; Loop [Call [] [37] [(* 70 *) Eval [37]; If Opaque [(* 71 *) Eval [37]] [];
     (* 72 *) Eval [37]; Return]]; Loop [Call [] [38] [(* 75 *) Eval [38]; If Opaque [(* 76 *) Eval [2;38];
      (* 77 *) Eval [38]] []]]; Loop [Call [] [39;40] [(* 80 *) Eval [39]; If Opaque [(* 81 *) Eval [39]] [];
     (* 82 *) Eval [2;40;39]; Return]]; Loop [Call [] [41;42] [(* 85 *) Eval [41]; If Opaque [(* 86 *) Eval [41]] [];
     (* 87 *) Eval [2;42;41]; Return]]; Loop [Call [43] [44;45] [(* 91 *) Eval [44]; If Opaque [(* 92 *) Eval [44]] [];
     (* 93 *) Eval [44]; If Opaque [(* 94 *) Eval [45;44]; Return] [];
     (* 95 *) Eval [44;45]; Bind [43];
     (* 96 *) Eval [3;43;10;44]; Return]]; Loop [Call [46] [47] [(* 102 *) Eval [47]; If Opaque [(* 103 *) Eval []; Return] [];
     (* 104 *) Eval [47]; If Opaque [(* 105 *) Eval [47]] [];
     (* 107 *) Eval [2;47]; Bind [46];
     (* 108 *) Eval [46]; Return]]; Loop [Call [] [48;49] [(* 112 *) Eval [48]; If Opaque [(* 113 *) Eval [48]] [];
     (* 115 *) Eval [10]; Return]]; Loop [Call [] [50;51] [(* 119 *) Eval [50]; If Opaque [(* 120 *) Eval [50]] [];
     (* 122 *) Eval [10;51;50]; Return]]; Loop [Call [] [52] [(* 125 *) Eval [52]; Return]]; Loop [Call [] [53] [(* 129 *) Eval [53]; Return]]; Loop [Call [] [54] [(* 132 *) Eval [54]; If Opaque [(* 133 *) Eval [54]] [];
     (* 134 *) Eval [14]; Loop [Call [55;56] [57;58] [(* 16 *) Eval [58]; If Opaque [(* 17 *) Eval [57]; Bind [57]] [(* 18 *) Eval [58]; If Opaque [(* 19 *) Eval [57]; If Opaque [Eval [57]] []; Bind [57]] [(* 20 *) Eval [58]; If Opaque [(* 21 *) Eval [57]; Bind [57]] [(* 22 *) Eval [58]; If Opaque [(* 23 *) Eval [58]; Raise] []]]];
       (* 24 *) Eval [6;58]; Bind [55];
       (* 25 *) Eval [13;55;57]; Bind [56];
       (* 26 *) Eval [10;56]; Return]]; Eval [54]; Return]]; Bind [69];
   (* 183 *) Eval [9;10]; Bind [70];
   (* 215 *) Eval [9;10]; Bind [71];
   (* 240 *) Eval [9;10;0]; Bind [72];
   (* 290 *) Eval []; Bind [73];
   (* 299 *) Eval []; Bind [74];
   (* 321 *) Eval [9;10]; Bind [75];
   (* 343 *) Eval [9;10]; Bind [76];
   (* 363 *) Eval [9;10]; Bind [77]; Bind [78];
   (* 380 *) Eval []; Bind [79]; Loop [If Opaque [Call [80;81;82;83;84;85;86] [87;88;89;90] [(* 371 *) Eval [87;89;90]; Bind [80;85;86];
      (* 373 *) Eval [10;89]; Bind [84];
      (* 374 *) Eval [85;86]; Loop [Bind [81;82;83];
       (* 376 *) Eval [14]; Loop [Call [55;56] [57;58] [(* 16 *) Eval [58]; If Opaque [(* 17 *) Eval [57]; Bind [57]] [(* 18 *) Eval [58]; If Opaque [(* 19 *) Eval [57]; If Opaque [Eval [57]] []; Bind [57]] [(* 20 *) Eval [58]; If Opaque [(* 21 *) Eval [57]; Bind [57]] [(* 22 *) Eval [58]; If Opaque [(* 23 *) Eval [58]; Raise] []]]];
         (* 24 *) Eval [6;58]; Bind [55];
         (* 25 *) Eval [13;55;57]; Bind [56];
         (* 26 *) Eval [10;56]; Return]]; Eval [87;82;83;84;80;81]];
      (* 377 *) Eval [84;88]; Return]] [If Opaque [Call [91;92;93;94;95;96;97;98] [99;100;101] [(* 348 *) Eval [100]; If Opaque [(* 349 *) Eval [100]; Bind [95]] [(* 350 *) Eval [100;10]; If Opaque [(* 351 *) Eval [100]; Bind [95]] [(* 353 *) Eval []; Raise]];
       (* 355 *) Eval [99;95;101]; Bind [91;96;97];
       (* 356 *) Eval [99;100;101]; Bind [94];
       (* 358 *) Eval [99]; If Opaque [Eval [99]] []; If Opaque [Eval [99]] [Eval [99]]; Eval [99];
       (* 360 *) Eval [96;94;97]; Loop [Bind [92;98;93];
        (* 361 *) Eval [99;92;98;93]]]] [If Opaque [Call [102;103;104] [105;106;107;108] [(* 330 *) Eval [105;108;107]; Bind [103;104;102];
        (* 331 *) Eval [104]; Bind [104];
        (* 332 *) Try [(* 333 *) Eval [10;106]; If Opaque [Eval [103]; If Opaque [Eval [103]] []; Eval [104;103]] []; Return] []]] [If Opaque [Call [109;110;111;112;113;114;115;116;117;118;119;120] [121;122] [(* 300 *) Eval [122]; Bind [111];
         (* 301 *) Eval [8;111]; Bind [110];
         (* 302 *) Eval [110]; Bind [116];
         (* 303 *) Eval [110]; Bind [109];
         (* 304 *) Eval [110]; Bind [120];
         (* 305 *) Eval [110]; Bind [115];
         (* 306 *) Eval [121]; Bind [117];
         (* 307 *) Eval [116]; Loop [Bind [112;119];
          (* 308 *) Eval [29]; Loop [Call [] [30;31;32;33] [(* 31 *) Eval [32;4]; If Opaque [(* 32 *) Eval [32]; Raise] [];
            (* 33 *) Eval [31;30];
            (* 34 *) Eval [32;30];
            (* 35 *) Eval [4;32;30];
            (* 36 *) Eval [30];
            (* 37 *) Eval [30];
            (* 38 *) Eval [30];
            (* 39 *) Eval [30];
            (* 40 *) Eval [33;30];
            (* 41 *) Eval [32]; If Opaque [Eval [32]] []; If Opaque [(* 42 *) Eval [30];
             (* 43 *) Eval [30]] [(* 44 *) Eval [32]; If Opaque [(* 45 *) Eval [30];
              (* 46 *) Eval [30]] [(* 47 *) Eval [32]; If Opaque [(* 48 *) Eval [30];
               (* 49 *) Eval [30]] [(* 51 *) Eval [32]; Raise]]]]]; Loop [Call [] [34;35] [(* 54 *) Eval [35]; If Opaque [(* 55 *) Eval [34;35]] [(* 57 *) Eval [34;35]];
            (* 58 *) Eval [34]; If Opaque [Eval [34]] []; If Opaque [(* 59 *) Eval [34]] [];
            (* 60 *) Eval [34]]]; Loop [Call [] [36] [(* 64 *) Eval [36]; If Opaque [(* 65 *) Eval [36]] [];
            (* 66 *) Eval [36]; Return]]; Loop [Call [] [37] [(* 70 *) Eval [37]; If Opaque [(* 71 *) Eval [37]] [];
            (* 72 *) Eval [37]; Return]]; Loop [Call [] [38] [(* 75 *) Eval [38]; If Opaque [(* 76 *) Eval [2;38];
             (* 77 *) Eval [38]] []]]; Loop [Call [] [39;40] [(* 80 *) Eval [39]; If Opaque [(* 81 *) Eval [39]] [];
            (* 82 *) Eval [2;40;39]; Return]]; Loop [Call [] [41;42] [(* 85 *) Eval [41]; If Opaque [(* 86 *) Eval [41]] [];
            (* 87 *) Eval [2;42;41]; Return]]; Loop [Call [43] [44;45] [(* 91 *) Eval [44]; If Opaque [(* 92 *) Eval [44]] [];
            (* 93 *) Eval [44]; If Opaque [(* 94 *) Eval [45;44]; Return] [];
            (* 95 *) Eval [44;45]; Bind [43];
            (* 96 *) Eval [3;43;10;44]; Return]]; Loop [Call [46] [47] [(* 102 *) Eval [47]; If Opaque [(* 103 *) Eval []; Return] [];
            (* 104 *) Eval [47]; If Opaque [(* 105 *) Eval [47]] [];
            (* 107 *) Eval [2;47]; Bind [46];
            (* 108 *) Eval [46]; Return]]; Loop [Call [] [48;49] [(* 112 *) Eval [48]; If Opaque [(* 113 *) Eval [48]] [];
            (* 115 *) Eval [10]; Return]]; Loop [Call [] [50;51] [(* 119 *) Eval [50]; If Opaque [(* 120 *) Eval [50]] [];
            (* 122 *) Eval [10;51;50]; Return]]; Loop [Call [] [52] [(* 125 *) Eval [52]; Return]]; Loop [Call [] [53] [(* 129 *) Eval [53]; Return]]; Loop [Call [] [54] [(* 132 *) Eval [54]; If Opaque [(* 133 *) Eval [54]] [];
            (* 134 *) Eval [14]; Loop [Call [55;56] [57;58] [(* 16 *) Eval [58]; If Opaque [(* 17 *) Eval [57]; Bind [57]] [(* 18 *) Eval [58]; If Opaque [(* 19 *) Eval [57]; If Opaque [Eval [57]] []; Bind [57]] [(* 20 *) Eval [58]; If Opaque [(* 21 *) Eval [57]; Bind [57]] [(* 22 *) Eval [58]; If Opaque [(* 23 *) Eval [58]; Raise] []]]];
              (* 24 *) Eval [6;58]; Bind [55];
              (* 25 *) Eval [13;55;57]; Bind [56];
              (* 26 *) Eval [10;56]; Return]]; Eval [54]; Return]]; Eval [112;119]; Bind [114];
          (* 309 *) Eval [114;119];
          (* 310 *) Eval [114];
          (* 311 *) Eval [114;117;112]];
         (* 312 *) Eval [109]; If Opaque [(* 313 *) Eval [109]; Loop [Bind [113;118];
           (* 314 *) Eval [118]; If Opaque [Eval [118]] []; If Opaque [(* 315 *) Eval [118;109;113]] []];
          (* 316 *) Eval [117;109]] [];
         (* 317 *) Eval [120;117];
         (* 318 *) Eval [115;117];
         (* 319 *) Eval [117]; Return]] [If Opaque [Call [123;124] [125;126] [(* 291 *) Eval [125]; Loop [Bind [124];
           (* 292 *) Eval [124]];
          (* 293 *) Eval [126]; Bind [123];
          (* 294 *) Eval [8;125;123]]] [If Opaque [Call [127;128;129;130;131;132;133;134;135;136;137;138;139;140] [141;142;143] [(* 253 *) Eval [141]; If Opaque [Eval [10;142]] [Eval [10]]; Bind [128];
           (* 257 *) Eval []; Bind [137];
           (* 258 *) Eval []; Bind [138];
           (* 259 *) Eval []; Bind [131];
           (* 260 *) Eval [143]; Loop [Bind [129;135];
            (* 263 *) Eval [137;11;135]; Bind [137];
            (* 265 *) Eval [138]; Bind [138];
            (* 267 *) Eval [137;11;135]; If Opaque [Eval [11;135]] []; Bind [137];
            (* 268 *) Eval [11;135]; Loop [Bind [136];
             (* 269 *) Eval [11;135;136]; Bind [140];
             (* 270 *) Eval [138;11;135;140]];
            (* 271 *) Eval [141]; If Opaque [(* 273 *) Eval [129]; Bind [139];
             (* 274 *) Eval [5]; Loop [Bind [127];
              (* 275 *) Eval [139]; Bind [134];
              (* 276 *) Eval [131;134;139;128];
              (* 277 *) Eval [131]; Bind [131];
              (* 278 *) Eval [134]; Bind [139]];
             (* 280 *) Eval [11;135]; Bind [133];
             (* 281 *) Eval [129;5]; Bind [139];
             (* 282 *) Eval [133]; Loop [Bind [130];
              (* 283 *) Eval [4;7;130]; Bind [132];
              (* 284 *) Eval [139;132]; Bind [134];
              (* 285 *) Eval [131;134;139;128];
              (* 286 *) Eval [131]; Bind [131];
              (* 287 *) Eval [134]; Bind [139]]] []];
           (* 288 *) Eval [128;137;138]; Return]] [If Opaque [Call [144;145;146] [147;148] [(* 221 *) Eval [147;1]; If Opaque [(* 222 *) Eval [147]; If Opaque [Eval [147]] []; Bind [147];
             (* 226 *) Eval [147]; Bind [147]] [(* 227 *) Eval [147]; If Opaque [(* 228 *) Eval []; Raise] []];
            (* 229 *) Eval []; Bind [145];
            (* 230 *) Eval [148]; Loop [Bind [144;146];
             (* 232 *) Eval [145;13;147;144;5]; Bind [145];
             (* 234 *) Eval [145;11;146;147;144;5]; Bind [145]];
            (* 237 *) Eval [145]; Return]] [If Opaque [Call [149;150;151;152;153;154;155;156;157;158;159;160;161] [162;163;164] [(* 193 *) Eval [163]; If Opaque [(* 194 *) Eval [163]; Bind [155]] [(* 195 *) Eval [163;10]; If Opaque [(* 196 *) Eval [163]; Bind [155]] [(* 198 *) Eval []; Raise]];
             (* 199 *) Eval [162;155;164]; Bind [150;156;149];
             (* 200 *) Eval [162;163;164]; Bind [154];
             (* 203 *) Eval [10;150]; Bind [159];
             (* 204 *) Eval [10;150]; Bind [151];
             (* 205 *) Eval [154]; Bind [160];
             (* 206 *) Eval [154;156]; Loop [Bind [152;153;161];
              (* 207 *) Eval [153;162]; If Opaque [(* 208 *) Eval [162;153;161]; Bind [158;157];
               (* 209 *) Eval [158;159;150;152];
               (* 210 *) Eval [157;151;150;152];
               (* 211 *) Eval [153;158;157;160;152]] []];
             (* 212 *) Eval [160;159;151]; Return]] [If Opaque [Call [] [165;166] [(* 181 *) Eval [165;166]; Return]] [If Opaque [Call [] [167] [(* 178 *) Eval [167]; Return]] [If Opaque [Call [168] [169;170] [(* 171 *) Eval [170;169];
                (* 172 *) Eval [169];
                (* 173 *) Eval [170]; Loop [Bind [168];
                 (* 174 *) Eval [170;12]; If Opaque [Eval [168]] []; If Opaque [(* 175 *) Eval [169;168]] []]]] [If Opaque [Call [] [171] [(* 166 *) Eval [171]; Return]] [If Opaque [Call [] [172;173] [(* 163 *) Eval [173;172]; Return]] [If Opaque [Call [] [174] [(* 160 *) Eval [174]; Return]] [If Opaque [Call [] [175] [(* 157 *) Eval [175]; Return]] [If Opaque [Call [] [176;177;178] [(* 154 *) Eval [178;176;177]]] [If Opaque [Call [] [179;180] [(* 151 *) Eval [179;180]; Return]] [If Opaque [Call [] [181;182;183;184] [(* 146 *) Eval [182;181]; If Opaque [(* 147 *) Eval [29]; Loop [Call [] [30;31;32;33] [(* 31 *) Eval [32;4]; If Opaque [(* 32 *) Eval [32]; Raise] [];
                          (* 33 *) Eval [31;30];
                          (* 34 *) Eval [32;30];
                          (* 35 *) Eval [4;32;30];
                          (* 36 *) Eval [30];
                          (* 37 *) Eval [30];
                          (* 38 *) Eval [30];
                          (* 39 *) Eval [30];
                          (* 40 *) Eval [33;30];
                          (* 41 *) Eval [32]; If Opaque [Eval [32]] []; If Opaque [(* 42 *) Eval [30];
                           (* 43 *) Eval [30]] [(* 44 *) Eval [32]; If Opaque [(* 45 *) Eval [30];
                            (* 46 *) Eval [30]] [(* 47 *) Eval [32]; If Opaque [(* 48 *) Eval [30];
                             (* 49 *) Eval [30]] [(* 51 *) Eval [32]; Raise]]]]]; Loop [Call [] [34;35] [(* 54 *) Eval [35]; If Opaque [(* 55 *) Eval [34;35]] [(* 57 *) Eval [34;35]];
                          (* 58 *) Eval [34]; If Opaque [Eval [34]] []; If Opaque [(* 59 *) Eval [34]] [];
                          (* 60 *) Eval [34]]]; Loop [Call [] [36] [(* 64 *) Eval [36]; If Opaque [(* 65 *) Eval [36]] [];
                          (* 66 *) Eval [36]; Return]]; Loop [Call [] [37] [(* 70 *) Eval [37]; If Opaque [(* 71 *) Eval [37]] [];
                          (* 72 *) Eval [37]; Return]]; Loop [Call [] [38] [(* 75 *) Eval [38]; If Opaque [(* 76 *) Eval [2;38];
                           (* 77 *) Eval [38]] []]]; Loop [Call [] [39;40] [(* 80 *) Eval [39]; If Opaque [(* 81 *) Eval [39]] [];
                          (* 82 *) Eval [2;40;39]; Return]]; Loop [Call [] [41;42] [(* 85 *) Eval [41]; If Opaque [(* 86 *) Eval [41]] [];
                          (* 87 *) Eval [2;42;41]; Return]]; Loop [Call [43] [44;45] [(* 91 *) Eval [44]; If Opaque [(* 92 *) Eval [44]] [];
                          (* 93 *) Eval [44]; If Opaque [(* 94 *) Eval [45;44]; Return] [];
                          (* 95 *) Eval [44;45]; Bind [43];
                          (* 96 *) Eval [3;43;10;44]; Return]]; Loop [Call [46] [47] [(* 102 *) Eval [47]; If Opaque [(* 103 *) Eval []; Return] [];
                          (* 104 *) Eval [47]; If Opaque [(* 105 *) Eval [47]] [];
                          (* 107 *) Eval [2;47]; Bind [46];
                          (* 108 *) Eval [46]; Return]]; Loop [Call [] [48;49] [(* 112 *) Eval [48]; If Opaque [(* 113 *) Eval [48]] [];
                          (* 115 *) Eval [10]; Return]]; Loop [Call [] [50;51] [(* 119 *) Eval [50]; If Opaque [(* 120 *) Eval [50]] [];
                          (* 122 *) Eval [10;51;50]; Return]]; Loop [Call [] [52] [(* 125 *) Eval [52]; Return]]; Loop [Call [] [53] [(* 129 *) Eval [53]; Return]]; Loop [Call [] [54] [(* 132 *) Eval [54]; If Opaque [(* 133 *) Eval [54]] [];
                          (* 134 *) Eval [14]; Loop [Call [55;56] [57;58] [(* 16 *) Eval [58]; If Opaque [(* 17 *) Eval [57]; Bind [57]] [(* 18 *) Eval [58]; If Opaque [(* 19 *) Eval [57]; If Opaque [Eval [57]] []; Bind [57]] [(* 20 *) Eval [58]; If Opaque [(* 21 *) Eval [57]; Bind [57]] [(* 22 *) Eval [58]; If Opaque [(* 23 *) Eval [58]; Raise] []]]];
                            (* 24 *) Eval [6;58]; Bind [55];
                            (* 25 *) Eval [13;55;57]; Bind [56];
                            (* 26 *) Eval [10;56]; Return]]; Eval [54]; Return]]; Eval [182;184;181]] [];
                       (* 148 *) Eval [181;182;183]]] [If Opaque [Call [] [185;186;187] [(* 139 *) Eval [185];
                        (* 140 *) Eval [185];
                        (* 141 *) Eval [186]; If Opaque [] [Eval [186]]; Eval [185];
                        (* 142 *) Eval [187;185];
                        (* 143 *) Eval [185]]] []]]]]]]]]]]]]]]]]]]]] |}.

(** mavlink_utils/utils.py:1-27. *)
Definition py_mavlink_utils_utils : file := {| f_name := "mavlink_utils/utils.py";
  f_vars := ["mavgen"; "mavparse"; "dialect_creator"; "path"; "getcwd"; "xml_defs_path"; "output_path"; "dialect_creator.args"
    ; "dialect_creator.opts"; "dialect_creator.output_dialects_path"; "dialect_creator.xml_path"; "dialect_creator.protocol_language"
    ];
  f_body :=
   [(* 1 *) Eval []; Bind [0];
   (* 2 *) Eval []; Bind [1];
   (* 5 *) Eval [0]; Bind [2];
   (* 21 *) If Opaque [(* 22 *) Eval []; Bind [3;4];
    (* 24 *) Eval [3;4]; Bind [5];
    (* 25 *) Eval []; Bind [6];
    (* 27 *) Eval [2]; Loop [Call [7;8] [9;10;11] [(* 11 *) Eval [0;9;1;11]; Bind [8];
      (* 17 *) Eval [10]; Bind [7];
      (* 18 *) Eval [0;8;7]]]; Eval [6;5]] []] |}.

(** protocol_meta/__init__.py:1-6. *)
Definition py_protocol_meta_init : file := {| f_name := "protocol_meta/__init__.py";
  f_vars := ["MAVError"; "field_lengths"; "format_strings"; "inv_format_strings"; "dialect_meta"; "hamming_distance_2_valid_header"
    ; "FrameHeader"; "is_valid_header"; "NonExistentMsdId"; "__all__"];
  f_body :=
   [(* 2 *) Eval []; Bind [0;1;2;3];
   (* 3 *) Eval []; Bind [4];
   (* 4 *) Eval []; Bind [5;6;7;8];
   (* 5 *) Eval []; Bind [9]] |}.

(** protocol_meta/msg_header.py:1-138. *)
Definition py_protocol_meta_msg_header : file := {| f_name := "protocol_meta/msg_header.py";
  f_vars := ["annotations"; "meta"; "bitstring"; "NonUint8"; "hamming_distance"; "Optional"; "HeaderLength"; "NonExistentMsdId"
    ; "is_valid_header"; "hamming_distance_2_valid_header"; "FrameHeader.__init__"; "FrameHeader.length"; "FrameHeader.sequence"
    ; "FrameHeader.sys_id"; "FrameHeader.comp_id"; "FrameHeader.msg_id"; "FrameHeader.bit_string"; "FrameHeader.hamming_distance"
    ; "FrameHeader.__str__"; "FrameHeader.__repr__"; "FrameHeader.from_buffer"; "FrameHeader"; "FrameHeader.from_buffer.comp_id"
    ; "FrameHeader.from_buffer.msg_id"; "FrameHeader.from_buffer.seq"; "FrameHeader.from_buffer.sys_id"; "FrameHeader.from_buffer.cls"
    ; "FrameHeader.from_buffer.buffer"; "FrameHeader.from_buffer.force_msg_id"; "FrameHeader.__repr__.self"; "FrameHeader.__str__.self"
    ; "FrameHeader.hamming_distance.self"; "FrameHeader.hamming_distance.some_buffer"; "FrameHeader.bit_string.self"; "FrameHeader.msg_id.self"
    ; "FrameHeader.comp_id.self"; "FrameHeader.sys_id.self"; "FrameHeader.sequence.self"; "FrameHeader.length.self"; "FrameHeader.__init__.length"
    ; "FrameHeader.__init__.self"; "FrameHeader.__init__.msg_id"; "FrameHeader.__init__.sys_id"; "FrameHeader.__init__.comp_id"
    ; "FrameHeader.__init__.seq"; "hamming_distance_2_valid_header.candidate_dist"; "hamming_distance_2_valid_header.chosen_msg_id"
    ; "hamming_distance_2_valid_header.dist"; "hamming_distance_2_valid_header.min_dist"; "hamming_distance_2_valid_header.msg_id"
    ; "hamming_distance_2_valid_header.msg_len"; "hamming_distance_2_valid_header.buffer"; "hamming_distance_2_valid_header.max_len"
    ; "is_valid_header.buffer"];
  f_body :=
   [(* 2 *) Eval []; Bind [0];
   (* 3 *) Eval []; Bind [1];
   (* 4 *) Eval []; Bind [2];
   (* 5 *) Eval []; Bind [3];
   (* 6 *) Eval []; Bind [4];
   (* 7 *) Eval []; Bind [5];
   (* 10 *) Eval []; Bind [6];
   (* 15 *) Eval []; Bind [7];
   (* 20 *) Eval []; Bind [8];
   (* 37 *) Eval []; Bind [9];
   (* 68 *) Eval [];
   (* 71 *) Eval []; Bind [10];
   (* 84 *) Eval []; Bind [11];
   (* 89 *) Eval []; Bind [12];
   (* 94 *) Eval []; Bind [13];
   (* 99 *) Eval []; Bind [14];
   (* 104 *) Eval []; Bind [15];
   (* 109 *) Eval []; Bind [16];
   (* 113 *) Eval []; Bind [17];
   (* 119 *) Eval []; Bind [18];
   (* 122 *) Eval []; Bind [19];
   (* 126 *) Eval []; Bind [20]; Bind [21]; Loop [If Opaque [Call [22;23;24;25] [26;27;28] [(* 133 *) Eval [27;1]; If Opaque [(* 134 *) Eval [6;27]; Raise] [];
      (* 135 *) Eval [27]; Bind [24;25;22;23];
      (* 136 *) Eval [28]; If Opaque [(* 137 *) Eval [28]; Bind [23]] [];
      (* 138 *) Eval [26;23;25;22;24]; Return]] [If Opaque [Call [] [29] [(* 123 *) Eval [29]; Return]] [If Opaque [Call [] [30] [(* 120 *) Eval [30]; Return]] [If Opaque [Call [] [31;32] [(* 115 *) Eval [32;1]; If Opaque [(* 116 *) Eval [6;32]; Raise] [];
         (* 117 *) Eval [4;31;32]; Return]] [If Opaque [Call [] [33] [(* 111 *) Eval [2;33]; Return]] [If Opaque [Call [] [34] [(* 106 *) Eval [34]; Return]] [If Opaque [Call [] [35] [(* 101 *) Eval [35]; Return]] [If Opaque [Call [] [36] [(* 96 *) Eval [36]; Return]] [If Opaque [Call [] [37] [(* 91 *) Eval [37]; Return]] [If Opaque [Call [] [38] [(* 86 *) Eval [38]; Return]] [If Opaque [Call [39] [40;41;42;43;44] [(* 72 *) Eval [42]; If Opaque [Eval [43;44;42]] []; If Opaque [(* 73 *) Eval [3;41;43;44]; Raise] [];
                (* 74 *) Eval [41;1]; If Opaque [(* 75 *) Eval [1;41]; Bind [39]] [(* 76 *) Eval [41]; If Opaque [Eval [41]] []; If Opaque [(* 77 *) Eval [3;41]; Raise] [(* 79 *) Eval [7;41]; Raise]];
                (* 81 *) Eval [1;39;44;42;43;41;40]]] [If Opaque [Call [45;46;47;48;49;50] [51;52] [(* 48 *) Eval [51;1]; If Opaque [(* 49 *) Eval [6;51]; Raise] [];
                 (* 50 *) Eval [4;1;51]; Bind [47];
                 (* 53 *) Eval []; Bind [48];
                 (* 54 *) Eval []; Bind [46];
                 (* 56 *) Eval [1]; Loop [Bind [49;50];
                  (* 57 *) Eval [4;50;51;49]; Bind [45];
                  (* 58 *) Eval [45;48]; If Opaque [Eval [52]; If Opaque [Eval [50;52]] []] []; If Opaque [(* 59 *) Eval [45]; Bind [48];
                   (* 60 *) Eval [49]; Bind [46]] [];
                  (* 61 *) Eval [45]; If Opaque [(* 62 *) Break] []];
                 (* 64 *) Eval [47;48]; Bind [47];
                 (* 65 *) Eval [47;46]; Return]] [If Opaque [Call [] [53] [(* 26 *) Eval [53;1]; If Opaque [(* 27 *) Eval []; Return] [];
                  (* 33 *) Eval [53;1]; If Opaque [Eval [53;1]] []; Return]] []]]]]]]]]]]]]]] |}.

(** protocol_meta/protocol_meta.py:1-64. *)
Definition py_protocol_meta_protocol_meta : file := {| f_name := "protocol_meta/protocol_meta.py";
  f_vars := ["dialect"; "MAVError"; "Callable"; "MutableSequence"; "STX"; "field_lengths"; "format_strings"; "inv_format_strings"
    ; "msg_ids"; "header_length"; "crc_length"; "protocol_overhead"; "MavlinkDialectMeta.__init__"; "MavlinkDialectMeta.__msg_fields"
    ; "MavlinkDialectMeta.__msg_len"; "MavlinkDialectMeta"; "mav_obj"; "MavlinkDialectMeta.__init__.self"; "MavlinkDialectMeta.__init__.stx"
    ; "MavlinkDialectMeta.__init__.header_len"; "MavlinkDialectMeta.__init__.crc_len"; "MavlinkDialectMeta.__init__.msg_ids_"
    ; "MavlinkDialectMeta.__init__.field_lengths_"; "MavlinkDialectMeta.__init__.protocol_parser"; "MavlinkDialectMeta.__msg_fields.fields"
    ; "MavlinkDialectMeta.__msg_fields.i"; "MavlinkDialectMeta.__msg_fields.num_of_fields"; "MavlinkDialectMeta.__msg_fields.obj"
    ; "MavlinkDialectMeta.__msg_fields.ordered_fieldnames"; "MavlinkDialectMeta.__msg_fields.unordered_fieldnames"; "MavlinkDialectMeta.__msg_fields.msg_id"
    ; "MavlinkDialectMeta.__msg_len.field_types"; "MavlinkDialectMeta.__msg_len.obj"; "MavlinkDialectMeta.__msg_len.self"
    ; "MavlinkDialectMeta.__msg_len.msg_id"; "dialect_meta"; "__all__"];
  f_body :=
   [(* 2 *) Eval []; Bind [0];
   (* 3 *) Eval []; Bind [1];
   (* 4 *) Eval []; Bind [2];
   (* 5 *) Eval []; Bind [3];
   (* 7 *) Eval [0]; Bind [4];
   (* 8 *) Eval []; Bind [5];
   (* 10 *) Eval []; Bind [6];
   (* 13 *) Eval [6]; Bind [7];
   (* 14 *) Eval [0]; Bind [8];
   (* 15 *) Eval [0]; Bind [9];
   (* 16 *) Eval []; Bind [10];
   (* 17 *) Eval [9;10]; Bind [11];
   (* 20 *) Eval [];
   (* 22 *) Eval [2;3]; Bind [12];
   (* 35 *) Eval []; Bind [13];
   (* 54 *) Eval []; Bind [14]; Bind [15];
   (* 62 *) Eval [0]; Bind [16];
   (* 63 *) Eval [15]; Loop [Call [] [17;18;19;20;21;22;23] [(* 24 *) Eval [18;17];
     (* 25 *) Eval [19;17];
     (* 26 *) Eval [20;17];
     (* 27 *) Eval [21;17];
     (* 28 *) Eval [22;17];
     (* 29 *) Eval [19;20;17];
     (* 30 *) Eval [21]; If Opaque [Eval [17]] []; Eval [17];
     (* 31 *) Eval [21]; If Opaque [Eval [17]] []; Eval [17];
     (* 32 *) Eval [23;17]]]; Loop [Call [24;25;26;27;28;29] [30] [(* 41 *) Eval [0;30]; Bind [27];
     (* 42 *) Eval [27;0]; If Opaque [(* 43 *) Eval []; Raise] [];
     (* 44 *) Eval [27]; Bind [26];
     (* 45 *) Eval [26]; If Opaque [Eval [27]] []; Bind [29];
     (* 48 *) Eval [27]; Bind [28];
     (* 49 *) Eval [26]; Bind [24];
     (* 50 *) Eval [26]; Loop [Bind [25];
      (* 51 *) Eval [28;25;29;24]];
     (* 52 *) Eval [24]; Return]]; Loop [Call [31;32] [33;34] [(* 55 *) Eval [0;34]; Bind [32];
     (* 56 *) Eval [32;0]; If Opaque [(* 57 *) Eval []; Raise] [];
     (* 58 *) Eval [32]; Bind [31];
     (* 59 *) Eval [31]; If Opaque [Eval [33]] []; Return]]; Eval [4;9;10;8;5;16]; Bind [35];
   (* 64 *) Eval []; Bind [36]] |}.

(** runs/Feb_2022/data/ship_log_reader.py:1-39. *)
Definition py_runs_Feb_2022_data_ship_log_reader : file := {| f_name := "runs/Feb_2022/data/ship_log_reader.py";
  f_vars := ["glob"; "os"; "datetime"; "break_down"; "folder_name"; "rx_files"; "acquisitions"; "f_name"; "f"; "log_file"
    ; "temp_acquisitions"; "break_down.buffer"; "break_down.d"; "break_down.res"; "break_down.t"; "break_down.valid"; "break_down.buffers"
    ; "acquisitions_14"; "acquisitions_15"; "acquisitions_16"];
  f_body :=
   [(* 1 *) Eval []; Bind [0];
   (* 2 *) Eval []; Bind [1];
   (* 3 *) Eval []; Bind [2];
   (* 6 *) Eval []; Bind [3];
   (* 25 *) Eval []; Bind [4];
   (* 26 *) Eval [0;4]; If Opaque [Eval [1]] []; Bind [5];
   (* 28 *) Eval [5]; If Opaque [Eval [2]] [];
   (* 29 *) Eval []; Bind [6];
   (* 30 *) Eval [5]; Loop [Bind [7];
    (* 31 *) Eval [7]; Bind [8];
    (* 32 *) Eval [8]; Bind [9];
    (* 33 *) Eval [9]; Bind [10];
    (* 35 *) Eval [6;3]; Loop [Call [11;12;13;14;15] [16] [(* 7 *) Eval []; Bind [13];
      (* 8 *) Eval [16]; Loop [Bind [11];
       (* 9 *) Eval [11]; Bind [15];
       (* 10 *) Eval [15]; If Opaque [(* 11 *) Eval [11]; Bind [14];
        (* 12 *) Eval [14]; Bind [14];
        (* 14 *) Eval [2;11;14]; Bind [12];
        (* 21 *) Eval [13;12]] []];
      (* 22 *) Eval [13]; Return]]; Eval [10]; Bind [6]];
   (* 37 *) Eval [6]; Bind [17];
   (* 38 *) Eval [6]; Bind [18];
   (* 39 *) Eval [6]; Bind [19]] |}.

(** runs/Feb_2022/experimental_data_run.py:1-174. *)
Definition py_runs_Feb_2022_experimental_data_run : file := {| f_name := "runs/Feb_2022/experimental_data_run.py";
  f_vars := ["pickle"; "np"; "AList"; "LogSpaDecoder"; "ClassifyingEntropyDecoder"; "hamming_distance"; "Any"; "argparse"
    ; "datetime"; "os"; "savemat"; "lzma"; "pd"; "setup_logger"; "parser"; "args"; "ldpc_iterations"; "thr"; "clipping_factor"
    ; "tx"; "rx"; "temp"; "h"; "number_of_messages"; "n"; "k"; "window_len"; "model_length"; "timestamp"; "path"; "logger"
    ; "cmd"; "f"; "ldpc_decoder"; "entropy_decoder"; "decoded_ldpc"; "decoded_entropy"; "errors"; "tx_idx"; "d"; "ldpc_success"
    ; "hamm"; "entropy_success"; "good_tx"; "bad_tx"; "input_ber"; "info_errors"; "parity_errors"; "zipped"; "results"; "decoded_entropy_df"
    ; "decoded_ldpc_df"; "summary_txt"];
  f_body :=
   [(* 1 *) Eval []; Bind [0];
   (* 2 *) Eval []; Bind [1];
   (* 3 *) Eval []; Bind [2];
   (* 4 *) Eval []; Bind [3];
   (* 5 *) Eval []; Bind [4];
   (* 6 *) Eval []; Bind [5];
   (* 7 *) Eval []; Bind [6];
   (* 8 *) Eval []; Bind [7];
   (* 9 *) Eval []; Bind [8];
   (* 10 *) Eval []; Bind [9];
   (* 11 *) Eval []; Bind [10];
   (* 12 *) Eval []; Bind [11];
   (* 13 *) Eval []; Bind [12];
   (* 14 *) Eval []; Bind [13];
   (* 17 *) Eval [7]; Bind [14];
   (* 18 *) Eval [14];
   (* 19 *) Eval [14];
   (* 20 *) Eval [14];
   (* 21 *) Eval [14];
   (* 22 *) Eval [14];
   (* 23 *) Eval [14];
   (* 24 *) Eval [14];
   (* 25 *) Eval [14];
   (* 26 *) Eval [14];
   (* 27 *) Eval [14];
   (* 29 *) Eval [14]; Bind [15];
   (* 31 *) Eval [15]; Bind [16];
   (* 32 *) Eval [15]; Bind [17];
   (* 33 *) Eval [15]; Bind [18];
   (* 34 *) Eval [15]; If (Is "experiment_date" (VStr "all")) [(* 35 *) Eval [1]; Bind [19];
    (* 36 *) Eval [1]; Bind [20];
    (* 38 *) Eval [1]; Bind [21];
    (* 39 *) Eval [1;19;21]; Bind [19];
    (* 40 *) Eval [1]; Bind [21];
    (* 41 *) Eval [1;20;21]; Bind [20]] [(* 43 *) Eval [1;15]; Bind [19];
    (* 44 *) Eval [1;15]; Bind [20]];
   (* 46 *) Eval [2]; Bind [22];
   (* 47 *) Eval [20]; Bind [23;24];
   (* 48 *) Eval []; Bind [25];
   (* 49 *) Eval [15]; If Opaque [Eval [15]] []; Bind [26];
   (* 51 *) Eval [15]; If Opaque [Eval [25]] [Eval [24]]; Bind [27];
   (* 53 *) Eval [8]; Bind [28];
   (* 56 *) Eval [9;28]; Bind [29];
   (* 57 *) Eval [9;29];
   (* 59 *) Eval [13;9;29]; Bind [30];
   (* 62 *) Eval [30];
   (* 63 *) Eval [30;23];
   (* 64 *) Eval [30;16];
   (* 65 *) Eval [30;17];
   (* 66 *) Eval [30;26];
   (* 67 *) Eval [30;18];
   (* 68 *) Eval [30;15];
   (* 69 *) Eval [30;15];
   (* 70 *) Eval [30;15];
   (* 71 *) Eval [30;15];
   (* 72 *) Eval [30;15];
   (* 73 *) Eval [30;15];
   (* 75 *) Eval [16;17;18;15]; Bind [31];
   (* 78 *) Eval [26]; If Opaque [(* 79 *) Eval [31;26]; Bind [31]] [(* 81 *) Eval [31]; Bind [31]];
   (* 83 *) Eval [9;29]; Bind [32];
   (* 84 *) Eval [32;31];
   (* 85 *) Eval [30;31];
   (* 87 *) Eval [3;22;15;1;25;24]; Bind [33];
   (* 89 *) Eval [4;3;22;15;1;25;24;27;17;18;26]; Bind [34];
   (* 96 *) Eval []; Bind [35];
   (* 97 *) Eval []; Bind [36];
   (* 98 *) Eval [1;20]; Bind [37];
   (* 100 *) Eval [23]; Loop [Bind [38];
    (* 101 *) Eval [33;20;38]; Bind [39];
    (* 102 *) Eval [39]; Bind [40];
    (* 103 *) Eval [19;38]; If Opaque [(* 104 *) Eval [19;38;20;37];
     (* 105 *) Eval [5;39;19;38]; Bind [41]] [(* 107 *) Eval []; Bind [41]];
    (* 108 *) Eval [35;39;41];
    (* 109 *) Eval [34;20;38]; Bind [39];
    (* 110 *) Eval [39]; Bind [42];
    (* 111 *) Eval [19;38]; If Opaque [(* 112 *) Eval [5;39;19;38]; Bind [41]] [(* 114 *) Eval []; Bind [41]];
    (* 115 *) Eval [36;39;41];
    (* 116 *) Eval [30;38;40;42]];
   (* 118 *) Eval [30;35;23];
   (* 119 *) Eval [30;36;23];
   (* 123 *) Eval [19]; Bind [43];
   (* 124 *) Eval [19]; Bind [44];
   (* 125 *) Eval [1;37;24]; Bind [45];
   (* 126 *) Eval [45;44];
   (* 127 *) Eval [1;37;25]; Bind [46];
   (* 128 *) Eval [46;44];
   (* 129 *) Eval [1;37;25]; Bind [47];
   (* 130 *) Eval [47;44];
   (* 131 *) Eval [19;20;37;46;47;45]; Bind [48];
   (* 135 *) Eval [12;48;6]; Bind [49];
   (* 138 *) Eval [24;49];
   (* 139 *) Eval [23;49];
   (* 140 *) Eval [16;49];
   (* 143 *) Eval [12;36]; Bind [50];
   (* 146 *) Eval [50;49];
   (* 147 *) Eval [12;35]; Bind [51];
   (* 150 *) Eval [51;49];
   (* 153 *) Eval [35;23;49];
   (* 154 *) Eval [36;23;49];
   (* 155 *) Eval [35;24;43;49];
   (* 156 *) Eval [36;24;43;49];
   (* 157 *) Eval [45;49];
   (* 160 *) Eval [11;9;29;28]; Bind [32];
   (* 162 *) Eval [0;49;32];
   (* 164 *) Eval [49];
   (* 165 *) Eval [49];
   (* 166 *) Eval [49];
   (* 167 *) Eval [15;49];
   (* 169 *) Eval [10;9;29;28;49];
   (* 171 *) Eval [35;23;36]; Bind [52];
   (* 173 *) Eval [9;29]; Bind [32];
   (* 174 *) Eval [32;52]] |}.

(** runs/Feb_2022/experimental_data_unified_decoder.py:1-202. *)
Definition py_runs_Feb_2022_experimental_data_unified_decoder : file := {| f_name := "runs/Feb_2022/experimental_data_unified_decoder.py";
  f_vars := ["pickle"; "AList"; "LogSpaDecoder"; "CombinedUnifiedDecoder"; "BufferSegmentation"; "BufferModel"; "meta"; "hamming_distance"
    ; "Any"; "argparse"; "datetime"; "os"; "savemat"; "lzma"; "pd"; "setup_logger"; "np"; "parser"; "args"; "ldpc_iterations"
    ; "thr"; "clipping_factor"; "tx"; "rx"; "temp"; "k"; "bs"; "_"; "buffer_structure"; "h"; "number_of_messages"; "n"; "window_len"
    ; "data_model"; "model_length"; "timestamp"; "path"; "logger"; "cmd"; "f"; "ldpc_decoder"; "nr_decoder"; "decoded_ldpc"
    ; "decoded_nr"; "errors"; "tx_idx"; "d"; "ldpc_success"; "hamm"; "errors_idx"; "nr_success"; "good_tx"; "bad_tx"; "input_ber"
    ; "info_errors"; "parity_errors"; "zipped"; "results"; "decoded_nr_df"; "decoded_ldpc_df"; "summary_txt"; "e"];
  f_body :=
   [(* 1 *) Eval []; Bind [0];
   (* 2 *) Eval []; Bind [1];
   (* 3 *) Eval []; Bind [2];
   (* 4 *) Eval []; Bind [3];
   (* 5 *) Eval []; Bind [4;5];
   (* 6 *) Eval []; Bind [6];
   (* 7 *) Eval []; Bind [7];
   (* 8 *) Eval []; Bind [8];
   (* 9 *) Eval []; Bind [9];
   (* 10 *) Eval []; Bind [10];
   (* 11 *) Eval []; Bind [11];
   (* 12 *) Eval []; Bind [12];
   (* 13 *) Eval []; Bind [13];
   (* 14 *) Eval []; Bind [14];
   (* 15 *) Eval []; Bind [15];
   (* 16 *) Eval []; Bind [16];
   (* 18 *) Eval [9]; Bind [17];
   (* 19 *) Eval [17];
   (* 20 *) Eval [17];
   (* 21 *) Eval [17];
   (* 22 *) Eval [17];
   (* 23 *) Eval [17];
   (* 24 *) Eval [17];
   (* 26 *) Eval [17];
   (* 28 *) Eval [17];
   (* 30 *) Eval [17];
   (* 31 *) Eval [17];
   (* 32 *) Eval [17];
   (* 33 *) Eval [17];
   (* 34 *) Eval [17];
   (* 35 *) Eval [17];
   (* 36 *) Eval [17];
   (* 37 *) Eval [17];
   (* 39 *) Eval [17]; Bind [18];
   (* 41 *) Eval [18]; Bind [19];
   (* 42 *) Eval [18]; Bind [20];
   (* 43 *) Eval [18]; Bind [21];
   (* 45 *) Eval [18]; If (Is "experiment_date" (VStr "all")) [(* 46 *) Eval [16]; Bind [22];
    (* 47 *) Eval [16]; Bind [23];
    (* 49 *) Eval [16]; Bind [24];
    (* 50 *) Eval [16;22;24]; Bind [22];
    (* 51 *) Eval [16]; Bind [24];
    (* 52 *) Eval [16;23;24]; Bind [23]] [(* 54 *) Eval [16;18]; Bind [22];
    (* 55 *) Eval [16;18]; Bind [23]];
   (* 57 *) Eval []; Bind [25];
   (* 58 *) Eval [4;6]; Bind [26];
   (* 59 *) Eval [26;16;22;25]; Bind [27;27;28];
   (* 60 *) Eval [1]; Bind [29];
   (* 61 *) Eval [23]; Bind [30;31];
   (* 62 *) Eval [18]; If Opaque [Eval [18]] []; Bind [32];
   (* 63 *) Eval [18]; If Opaque [] [Eval [5]]; Bind [33];
   (* 65 *) Eval [25]; Bind [34];
   (* 67 *) Eval [10]; Bind [35];
   (* 70 *) Eval [11;35]; Bind [36];
   (* 71 *) Eval [11;36];
   (* 73 *) Eval [15;11;36]; Bind [37];
   (* 75 *) Eval [37];
   (* 76 *) Eval [37;30];
   (* 77 *) Eval [37;19];
   (* 78 *) Eval [37;32];
   (* 79 *) Eval [37;18];
   (* 80 *) Eval [37;18];
   (* 81 *) Eval [37;18];
   (* 82 *) Eval [37;18];
   (* 83 *) Eval [37;18];
   (* 84 *) Eval [37;18];
   (* 85 *) Eval [37;18];
   (* 86 *) Eval [37;18];
   (* 87 *) Eval [37;18];
   (* 88 *) Eval [37;20];
   (* 89 *) Eval [37;21];
   (* 90 *) Eval [37;18];
   (* 91 *) Eval [37;18];
   (* 93 *) Eval [19;18;20;21]; Bind [38];
   (* 99 *) Eval [32]; If Opaque [(* 100 *) Eval [38;32]; Bind [38]] [(* 102 *) Eval [38]; Bind [38]];
   (* 104 *) Eval [11;36]; Bind [39];
   (* 105 *) Eval [39;38];
   (* 106 *) Eval [37;38];
   (* 108 *) Try [(* 109 *) Eval [2;29;18;16;25;31]; Bind [40];
    (* 111 *) Eval [3;2;29;18;16;25;31;34;20;21;32;33]; Bind [41];
    (* 122 *) Eval [41;28];
    (* 123 *) Eval []; Bind [42];
    (* 124 *) Eval []; Bind [43];
    (* 125 *) Eval [16;23]; Bind [44];
    (* 126 *) Eval [30]; Loop [Bind [45];
     (* 127 *) Eval [40;23;45]; Bind [46];
     (* 128 *) Eval [46]; Bind [47];
     (* 129 *) Eval [22;45]; If Opaque [(* 130 *) Eval [22;45;23;44];
      (* 131 *) Eval [7;46;22;45]; Bind [48];
      (* 132 *) Eval [16;44;45]; Bind [49]] [(* 134 *) Eval []; Bind [48];
      (* 135 *) Eval []; Bind [49]];
     (* 136 *) Eval [42;46;48];
     (* 137 *) Eval [41;23;45;49]; Bind [46];
     (* 138 *) Eval [46]; Bind [50];
     (* 139 *) Eval [22;45]; If Opaque [Eval [7;46;22;45]] []; Bind [48];
     (* 140 *) Eval [43;46;48];
     (* 141 *) Eval [37;45;47;50]];
    (* 143 *) Eval [37;42;30];
    (* 144 *) Eval [37;43;30];
    (* 148 *) Eval [22]; Bind [51];
    (* 149 *) Eval [22]; Bind [52];
    (* 150 *) Eval [16;44;31]; Bind [53];
    (* 151 *) Eval [53;52];
    (* 152 *) Eval [16;44;25]; Bind [54];
    (* 153 *) Eval [54;52];
    (* 154 *) Eval [16;44;25]; Bind [55];
    (* 155 *) Eval [55;52];
    (* 156 *) Eval [22;23;44;54;55;53]; Bind [56];
    (* 160 *) Eval [14;56;8]; Bind [57];
    (* 163 *) Eval [31;57];
    (* 164 *) Eval [30;57];
    (* 165 *) Eval [19;57];
    (* 168 *) Eval [14;43]; Bind [58];
    (* 170 *) Eval [58;57];
    (* 171 *) Eval [14;42]; Bind [59];
    (* 174 *) Eval [59;57];
    (* 177 *) Eval [42;30;57];
    (* 178 *) Eval [43;30;57];
    (* 179 *) Eval [42;31;51;57];
    (* 180 *) Eval [43;31;51;57];
    (* 181 *) Eval [53;57];
    (* 184 *) Eval [13;11;36;35]; Bind [39];
    (* 186 *) Eval [0;57;39];
    (* 188 *) Eval [57];
    (* 189 *) Eval [57];
    (* 190 *) Eval [57];
    (* 191 *) Eval [18;57];
    (* 193 *) Eval [12;11;36;35;57];
    (* 195 *) Eval [42;30;43]; Bind [60];
    (* 197 *) Eval [11;36]; Bind [39];
    (* 198 *) Eval [39;60]] [Bind [61];
    (* 201 *) Eval [37;61];
    (* 202 *) Eval [61]; Raise]] |}.

(** runs/Feb_2022/experimental_mavlink_based.py:1-188. *)
Definition py_runs_Feb_2022_experimental_mavlink_based : file := {| f_name := "runs/Feb_2022/experimental_mavlink_based.py";
  f_vars := ["pickle"; "np"; "AList"; "LogSpaDecoder"; "MavlinkRectifyingDecoder"; "BufferSegmentation"; "BufferModel"; "meta"
    ; "hamming_distance"; "Any"; "argparse"; "datetime"; "os"; "savemat"; "lzma"; "pd"; "setup_logger"; "parser"; "args"; "ldpc_iterations"
    ; "tx"; "rx"; "temp"; "k"; "bs"; "_"; "buffer_structure"; "data_model"; "h"; "number_of_messages"; "n"; "window_len"; "timestamp"
    ; "path"; "logger"; "cmd"; "f"; "model_length"; "ldpc_decoder"; "rectify_decoder"; "decoded_ldpc"; "decoded_rect"; "errors"
    ; "tx_idx"; "d"; "ldpc_success"; "hamm"; "mavlink_success"; "good_tx"; "bad_tx"; "input_ber"; "info_errors"; "parity_errors"
    ; "zipped"; "results"; "decoded_rect_df"; "decoded_ldpc_df"; "summary_txt"];
  f_body :=
   [(* 1 *) Eval []; Bind [0];
   (* 2 *) Eval []; Bind [1];
   (* 3 *) Eval []; Bind [2];
   (* 4 *) Eval []; Bind [3];
   (* 5 *) Eval []; Bind [4];
   (* 6 *) Eval []; Bind [5;6];
   (* 7 *) Eval []; Bind [7];
   (* 8 *) Eval []; Bind [8];
   (* 9 *) Eval []; Bind [9];
   (* 10 *) Eval []; Bind [10];
   (* 11 *) Eval []; Bind [11];
   (* 12 *) Eval []; Bind [12];
   (* 13 *) Eval []; Bind [13];
   (* 14 *) Eval []; Bind [14];
   (* 15 *) Eval []; Bind [15];
   (* 16 *) Eval []; Bind [16];
   (* 18 *) Eval [10]; Bind [17];
   (* 19 *) Eval [17];
   (* 20 *) Eval [17];
   (* 21 *) Eval [17];
   (* 22 *) Eval [17];
   (* 23 *) Eval [17];
   (* 24 *) Eval [17];
   (* 26 *) Eval [17];
   (* 28 *) Eval [17];
   (* 29 *) Eval [17];
   (* 30 *) Eval [17];
   (* 31 *) Eval [17];
   (* 32 *) Eval [17];
   (* 34 *) Eval [17]; Bind [18];
   (* 36 *) Eval [18]; Bind [19];
   (* 37 *) Eval [18]; If (Is "experiment_date" (VStr "all")) [(* 38 *) Eval [1]; Bind [20];
    (* 39 *) Eval [1]; Bind [21];
    (* 41 *) Eval [1]; Bind [22];
    (* 42 *) Eval [1;20;22]; Bind [20];
    (* 43 *) Eval [1]; Bind [22];
    (* 44 *) Eval [1;21;22]; Bind [21]] [(* 46 *) Eval [1;18]; Bind [20];
    (* 47 *) Eval [1;18]; Bind [21]];
   (* 49 *) Eval []; Bind [23];
   (* 50 *) Eval [5;7]; Bind [24];
   (* 51 *) Eval [24;1;20;23]; Bind [25;25;26];
   (* 52 *) Eval [6]; Bind [27];
   (* 53 *) Eval [2]; Bind [28];
   (* 54 *) Eval [21]; Bind [29;30];
   (* 55 *) Eval [18]; If Opaque [Eval [18]] []; Bind [31];
   (* 57 *) Eval [11]; Bind [32];
   (* 60 *) Eval [12;32]; Bind [33];
   (* 61 *) Eval [12;33];
   (* 63 *) Eval [16;12;33]; Bind [34];
   (* 65 *) Eval [34];
   (* 66 *) Eval [34;29];
   (* 67 *) Eval [34;19];
   (* 68 *) Eval [34;31];
   (* 69 *) Eval [34;18];
   (* 70 *) Eval [34;18];
   (* 71 *) Eval [34;18];
   (* 72 *) Eval [34;18];
   (* 73 *) Eval [34;18];
   (* 74 *) Eval [34;18];
   (* 75 *) Eval [34;18];
   (* 76 *) Eval [34;18];
   (* 77 *) Eval [34;18];
   (* 78 *) Eval [34;18];
   (* 80 *) Eval [19;18;31]; Bind [35];
   (* 85 *) Eval [31]; If Opaque [(* 86 *) Eval [35;31]; Bind [35]] [(* 88 *) Eval [35]; Bind [35]];
   (* 90 *) Eval [12;33]; Bind [36];
   (* 91 *) Eval [36;35];
   (* 92 *) Eval [34;35];
   (* 94 *) Eval [23]; Bind [37];
   (* 96 *) Eval [3;28;18;1;23;30]; Bind [38];
   (* 98 *) Eval [4;3;28;18;1;23;30;37;31;27]; Bind [39];
   (* 107 *) Eval [39;26];
   (* 108 *) Eval []; Bind [40];
   (* 109 *) Eval []; Bind [41];
   (* 110 *) Eval [1;21]; Bind [42];
   (* 112 *) Eval [29]; Loop [Bind [43];
    (* 113 *) Eval [38;21;43]; Bind [44];
    (* 114 *) Eval [44]; Bind [45];
    (* 115 *) Eval [20;43]; If Opaque [(* 116 *) Eval [20;43;21;42];
     (* 117 *) Eval [8;44;20;43]; Bind [46]] [(* 119 *) Eval []; Bind [46]];
    (* 120 *) Eval [40;44;46];
    (* 121 *) Eval [39;21;43;1;42]; Bind [44];
    (* 122 *) Eval [44]; Bind [47];
    (* 123 *) Eval [20;43]; If Opaque [(* 124 *) Eval [8;44;20;43]; Bind [46]] [(* 126 *) Eval []; Bind [46]];
    (* 127 *) Eval [41;44;46];
    (* 128 *) Eval [34;43;45;47]];
   (* 130 *) Eval [34;40;29];
   (* 131 *) Eval [34;41;29];
   (* 135 *) Eval [20]; Bind [48];
   (* 136 *) Eval [20]; Bind [49];
   (* 137 *) Eval [1;42;30]; Bind [50];
   (* 138 *) Eval [50;49];
   (* 139 *) Eval [1;42;23]; Bind [51];
   (* 140 *) Eval [51;49];
   (* 141 *) Eval [1;42;23]; Bind [52];
   (* 142 *) Eval [52;49];
   (* 143 *) Eval [20;21;42;51;52;50]; Bind [53];
   (* 147 *) Eval [15;53;9]; Bind [54];
   (* 150 *) Eval [30;54];
   (* 151 *) Eval [29;54];
   (* 152 *) Eval [19;54];
   (* 155 *) Eval [15;41]; Bind [55];
   (* 160 *) Eval [55;54];
   (* 161 *) Eval [15;40]; Bind [56];
   (* 164 *) Eval [56;54];
   (* 167 *) Eval [40;29;54];
   (* 168 *) Eval [41;29;54];
   (* 169 *) Eval [40;30;48;54];
   (* 170 *) Eval [41;30;48;54];
   (* 171 *) Eval [50;54];
   (* 174 *) Eval [14;12;33;32]; Bind [36];
   (* 176 *) Eval [0;54;36];
   (* 178 *) Eval [54];
   (* 179 *) Eval [54];
   (* 180 *) Eval [54];
   (* 181 *) Eval [18;54];
   (* 183 *) Eval [13;12;33;32;54];
   (* 185 *) Eval [40;29;41]; Bind [57];
   (* 187 *) Eval [12;33]; Bind [36];
   (* 188 *) Eval [36;57]] |}.

(** runs/Feb_2022/simulation_rafael_code.py:1-240. *)
Definition py_runs_Feb_2022_simulation_rafael_code : file := {| f_name := "runs/Feb_2022/simulation_rafael_code.py";
  f_vars := ["pickle"; "Bits"; "BitArray"; "np"; "bsc_llr"; "LogSpaDecoder"; "AList"; "ClassifyingEntropyDecoder"; "hamming_distance"
    ; "Any"; "plt"; "argparse"; "datetime"; "os"; "Pool"; "savemat"; "lzma"; "pd"; "setup_logger"; "shutil"; "parser"; "args"
    ; "ldpc_iterations"; "thr"; "clipping_factor"; "processes"; "hc_tx"; "encoded"; "n"; "window_len"; "rng"; "bit_flip_p"
    ; "_"; "k"; "word_len"; "model_length"; "logger"; "cmd"; "h"; "simulation_step"; "timestamp"; "path"; "f"; "pool"; "simulation_step.channel"
    ; "simulation_step.channel_llr"; "simulation_step.corrupted"; "simulation_step.d"; "simulation_step.decoded_entropy"; "simulation_step.decoded_entropy_df"
    ; "simulation_step.decoded_ldpc"; "simulation_step.decoded_ldpc_df"; "simulation_step.entropy_decoder"; "simulation_step.errors"
    ; "simulation_step.f"; "simulation_step.idx"; "simulation_step.info_errors"; "simulation_step.ldpc_decoder"; "simulation_step.no_errors"
    ; "simulation_step.parity_errors"; "simulation_step.rx"; "simulation_step.step_results"; "simulation_step.timestamp"; "simulation_step.tx_idx"
    ; "simulation_step.zipped"; "simulation_step.p"; "results"; "raw_ber"; "ldpc_ber"; "entropy_ber"; "fig"; "figure"; "ldpc_buffer_success_rate"
    ; "entropy_buffer_success_rate"; "summary"; "step"; "e"];
  f_body :=
   [(* 1 *) Eval []; Bind [0];
   (* 2 *) Eval []; Bind [1;2];
   (* 3 *) Eval []; Bind [3];
   (* 4 *) Eval []; Bind [4;5];
   (* 5 *) Eval []; Bind [6];
   (* 6 *) Eval []; Bind [7];
   (* 7 *) Eval []; Bind [8];
   (* 8 *) Eval []; Bind [9];
   (* 9 *) Eval []; Bind [10];
   (* 10 *) Eval []; Bind [11];
   (* 11 *) Eval []; Bind [12];
   (* 12 *) Eval []; Bind [13];
   (* 13 *) Eval []; Bind [14];
   (* 14 *) Eval []; Bind [15];
   (* 15 *) Eval []; Bind [16];
   (* 16 *) Eval []; Bind [17];
   (* 17 *) Eval []; Bind [18];
   (* 18 *) Eval []; Bind [19];
   (* 20 *) Eval [11]; Bind [20];
   (* 21 *) Eval [20];
   (* 22 *) Eval [20];
   (* 23 *) Eval [20];
   (* 24 *) Eval [20];
   (* 25 *) Eval [20];
   (* 26 *) Eval [20];
   (* 27 *) Eval [20];
   (* 28 *) Eval [20];
   (* 29 *) Eval [20];
   (* 30 *) Eval [20];
   (* 31 *) Eval [20];
   (* 32 *) Eval [20];
   (* 33 *) Eval [20];
   (* 34 *) Eval [20];
   (* 36 *) Eval [20]; Bind [21];
   (* 38 *) Eval [21]; Bind [22];
   (* 39 *) Eval [21]; Bind [23];
   (* 40 *) Eval [21]; Bind [24];
   (* 41 *) Eval [21]; If Opaque [Eval [21]] []; Bind [25];
   (* 43 *) Eval [3]; Bind [26];
   (* 45 *) Eval [26]; If Opaque [Eval [1]] []; Bind [27];
   (* 46 *) Eval [21]; If Opaque [Eval [21]] [Eval [27]]; Bind [28];
   (* 47 *) Eval [27;28]; Bind [27];
   (* 48 *) Eval [21]; If Opaque [Eval [21]] []; Bind [29];
   (* 51 *) Eval [3]; Bind [30];
   (* 52 *) Eval [3;21]; Bind [31];
   (* 54 *) Eval [21]; Loop [Bind [32];
    (* 55 *) Eval [27]];
   (* 57 *) Eval []; Bind [33];
   (* 58 *) Eval []; Bind [34];
   (* 59 *) Eval [21]; If Opaque [Eval [33]] [Eval [34]]; Bind [35];
   (* 60 *) Eval [27]; Bind [28];
   (* 62 *) Eval [18;13]; Bind [36];
   (* 64 *) Eval [21;22;23;24]; Bind [37];
   (* 69 *) Eval [29]; If Opaque [(* 70 *) Eval [37;29]; Bind [37]] [(* 72 *) Eval [37]; Bind [37]];
   (* 73 *) Eval [21]; If Opaque [(* 74 *) Eval [37;28]; Bind [37]] [];
   (* 75 *) Eval [25]; If Opaque [(* 76 *) Eval [37;25]; Bind [37]] [];
   (* 78 *) Eval [6]; Bind [38];
   (* 81 *) Eval [9]; Bind [39];
   (* 160 *) 
   (* 162 *) Eval [12]; Bind [40];
   (* 165 *) Eval [13;40]; Bind [41];
   (* 166 *) Eval [13;41];
   (* 168 *) Eval [36];
   (* 169 *) Eval [36;28];
   (* 170 *) Eval [36;21];
   (* 171 *) Eval [36;21];
   (* 172 *) Eval [36;21];
   (* 173 *) Eval [36;22];
   (* 174 *) Eval [36;23];
   (* 175 *) Eval [36;29];
   (* 176 *) Eval [36;24];
   (* 177 *) Eval [36;21];
   (* 178 *) Eval [36;21];
   (* 179 *) Eval [36;21];
   (* 180 *) Eval [36;21];
   (* 181 *) Eval [36;21];
   (* 182 *) Eval [36;21];
   (* 184 *) Eval [13;41]; Bind [42];
   (* 185 *) Eval [42;37];
   (* 186 *) Eval [36;37];
   (* 188 *) Eval [14;25]; Bind [43];
   (* 189 *) Eval [43;39]; Loop [Call [44;45;46;47;48;49;50;51;52;53;54;55;56;57;58;59;60;61;62;63;64] [65] [(* 93 *) Eval [4;65]; Bind [44];
     (* 94 *) Eval [5;38;22;21;3;33;34]; Bind [57];
     (* 96 *) Eval [7;5;38;22;21;3;33;34;35;23;24;29;65]; Bind [52];
     (* 102 *) Eval [34;65]; Bind [58];
     (* 103 *) Eval []; Bind [60];
     (* 104 *) Eval []; Bind [50];
     (* 105 *) Eval []; Bind [48];
     (* 106 *) Eval [3;28]; If Opaque [Eval [30;34;58]] []; Bind [53];
     (* 110 *) Eval []; Bind [61];
     (* 111 *) Eval [28]; Loop [Bind [63];
      (* 112 *) Eval [2;27;63]; Bind [46];
      (* 113 *) Eval [53;63]; Loop [Bind [55];
       (* 114 *) Eval [46;55]];
      (* 115 *) Eval [60;46];
      (* 116 *) Eval [44;3;46]; Bind [45];
      (* 117 *) Eval [57;45]; Bind [47];
      (* 118 *) Eval [50;47;8;27;63];
      (* 119 *) Eval [52;45]; Bind [47];
      (* 120 *) Eval [48;47;8;27;63];
      (* 121 *) Eval [36;65;63]];
     (* 122 *) Eval [36;65;50;28];
     (* 123 *) Eval [36;65;48;28];
     (* 125 *) Eval [3;53;33]; Bind [56];
     (* 126 *) Eval [3;53;33]; Bind [59];
     (* 127 *) Eval [27;60;53;56;59]; If Opaque [Eval [3]] []; Bind [64];
     (* 129 *) Eval [17;64;61];
     (* 133 *) Eval [58;34;61];
     (* 134 *) Eval [34;61];
     (* 135 *) Eval [28;61];
     (* 136 *) Eval [22;61];
     (* 139 *) Eval [17;48]; Bind [49];
     (* 142 *) Eval [49;61];
     (* 143 *) Eval [17;50]; Bind [51];
     (* 146 *) Eval [51;61];
     (* 148 *) Eval [50;28;61];
     (* 149 *) Eval [50;28;27;61];
     (* 150 *) Eval [48;28;61];
     (* 151 *) Eval [48;28;27;61];
     (* 153 *) Eval [12]; Bind [62];
     (* 155 *) Eval [62;65]; Bind [54];
     (* 156 *) Eval [0;61;54];
     (* 157 *) Eval [61]; Return]]; Eval [31;9]; Bind [66];
   (* 192 *) Try [(* 193 *) Eval [13;41;40;21];
    (* 194 *) Eval [16;13;41;40]; Bind [42];
    (* 197 *) Eval [0;66;42];
    (* 198 *) Eval [36];
    (* 200 *) Eval [3;66]; Bind [67];
    (* 201 *) Eval [3;66]; Bind [68];
    (* 202 *) Eval [3;66]; Bind [69];
    (* 203 *) Eval [10]; Bind [70];
    (* 204 *) Eval [10;67;68;69];
    (* 205 *) Eval [10];
    (* 206 *) Eval [10];
    (* 207 *) Eval [70;13;41];
    (* 209 *) Eval [10]; Bind [71];
    (* 210 *) Eval [3;66]; Bind [72];
    (* 211 *) Eval [3;66]; Bind [73];
    (* 212 *) Eval [10;67;72;73];
    (* 213 *) Eval [10];
    (* 214 *) Eval [10];
    (* 215 *) Eval [71;13;41];
    (* 217 *) Eval [36];
    (* 218 *) Eval [21;67;68;69;72;73]; Bind [74];
    (* 221 *) Eval [13;41;40]; Bind [42];
    (* 222 *) Eval [0;74;42];
    (* 224 *) Eval [15;13;41;40;74];
    (* 226 *) Eval [36];
    (* 227 *) Eval [66]; Loop [Bind [75];
     (* 228 *) Eval [75];
     (* 229 *) Eval [75];
     (* 230 *) Eval [75]];
    (* 232 *) Eval [66;74];
    (* 233 *) Eval [15;13;41;40;74];
    (* 235 *) Eval [36];
    (* 236 *) Eval [19;13;41]] [Bind [76];
    (* 238 *) Eval [36;76];
    (* 239 *) Eval [19;13;41];
    (* 240 *) Eval [76]; Raise]] |}.

(** runs/Feb_2022/train_buffer_model.py:1-19. *)
Definition py_runs_Feb_2022_train_buffer_model : file := {| f_name := "runs/Feb_2022/train_buffer_model.py";
  f_vars := ["BufferSegmentation"; "BufferModel"; "meta"; "np"; "tx"; "temp"; "bs"; "buffer_model"; "parts"; "validity"; "structure"
    ; "bad_idx"; "tx_idx"];
  f_body :=
   [(* 1 *) Eval []; Bind [0;1];
   (* 2 *) Eval []; Bind [2];
   (* 3 *) Eval []; Bind [3];
   (* 5 *) Eval [3]; Bind [4];
   (* 6 *) Eval [3]; Bind [5];
   (* 7 *) Eval [3;4;5]; Bind [4];
   (* 8 *) Eval [0;2]; Bind [6];
   (* 9 *) Eval [1]; Bind [7];
   (* 10 *) Eval [6;3;4]; Bind [8;9;10];
   (* 11 *) Eval []; Bind [11];
   (* 12 *) Eval [4]; Loop [Bind [12];
    (* 13 *) Eval [4;12]; If Opaque [(* 15 *) Eval [3;4;12]; If Opaque [(* 16 *) Eval [11;12];
      (* 17 *) Continue] [];
     (* 18 *) Eval [7;4;12;10]] []];
   (* 19 *) Eval [7]] |}.

(** runs/Feb_2023/experimental_data_run_feb_23.py:1-201. *)
Definition py_runs_Feb_2023_experimental_data_run_feb_23 : file := {| f_name := "runs/Feb_2023/experimental_data_run_feb_23.py";
  f_vars := ["pickle"; "np"; "AList"; "LogSpaDecoder"; "ClassifyingEntropyDecoder"; "hamming_distance"; "Any"; "argparse"
    ; "datetime"; "os"; "savemat"; "lzma"; "pd"; "setup_logger"; "parser"; "args"; "ldpc_iterations"; "thr"; "clipping_factor"
    ; "msg_type"; "h"; "k"; "n_clusters"; "tx"; "rx"; "temp"; "number_of_messages"; "n"; "window_len"; "model_length"; "timestamp"
    ; "path"; "logger"; "cmd"; "f"; "ldpc_decoder"; "entropy_decoder"; "decoded_ldpc"; "decoded_entropy"; "errors"; "tx_idx"
    ; "d"; "ldpc_success"; "hamm"; "entropy_success"; "good_tx"; "bad_tx"; "input_ber"; "info_errors"; "parity_errors"; "zipped"
    ; "results"; "decoded_entropy_df"; "decoded_ldpc_df"; "summary_txt"];
  f_body :=
   [(* 1 *) Eval []; Bind [0];
   (* 2 *) Eval []; Bind [1];
   (* 3 *) Eval []; Bind [2];
   (* 4 *) Eval []; Bind [3];
   (* 5 *) Eval []; Bind [4];
   (* 6 *) Eval []; Bind [5];
   (* 7 *) Eval []; Bind [6];
   (* 8 *) Eval []; Bind [7];
   (* 9 *) Eval []; Bind [8];
   (* 10 *) Eval []; Bind [9];
   (* 11 *) Eval []; Bind [10];
   (* 12 *) Eval []; Bind [11];
   (* 13 *) Eval []; Bind [12];
   (* 14 *) Eval []; Bind [13];
   (* 16 *) Eval [7]; Bind [14];
   (* 17 *) Eval [14];
   (* 18 *) Eval [14];
   (* 19 *) Eval [14];
   (* 20 *) Eval [14];
   (* 21 *) Eval [14];
   (* 22 *) Eval [14];
   (* 23 *) Eval [14];
   (* 24 *) Eval [14];
   (* 25 *) Eval [14];
   (* 26 *) Eval [14];
   (* 27 *) Eval [14];
   (* 28 *) Eval [14];
   (* 30 *) Eval [14]; Bind [15];
   (* 32 *) Eval [15]; Bind [16];
   (* 33 *) Eval [15]; Bind [17];
   (* 34 *) Eval [15]; Bind [18];
   (* 35 *) Eval [15]; If (Is "msg_type" (VInt 0)) [(* 36 *) Eval []; Bind [19];
    (* 37 *) Eval [2]; Bind [20];
    (* 38 *) Eval []; Bind [21];
    (* 39 *) Eval []; Bind [22]] [(* 40 *) Eval [15]; If (Is "msg_type" (VInt 1)) [(* 41 *) Eval []; Bind [19];
     (* 42 *) Eval [2]; Bind [20];
     (* 43 *) Eval []; Bind [21];
     (* 44 *) Eval [15]; If (Is "separate_models" (VInt 0)) [(* 45 *) Eval []; Bind [22]] [(* 47 *) Eval []; Bind [22]]] [(* 48 *) Eval [15]; If (Is "msg_type" (VInt 2)) [(* 49 *) Eval []; Bind [19];
      (* 50 *) Eval [2]; Bind [20];
      (* 51 *) Eval []; Bind [21];
      (* 52 *) Eval [15]; If (Is "separate_models" (VInt 0)) [(* 53 *) Eval []; Bind [22]] [(* 55 *) Eval []; Bind [22]]] [(* 56 *) Eval [15]; If (Is "msg_type" (VInt 3)) [(* 57 *) Eval []; Bind [19];
       (* 58 *) Eval []; Bind [21];
       (* 59 *) Eval []; Bind [22]] []]]];
   (* 62 *) Eval [15]; If (Is "experiment_date" (VStr "all")) [(* 63 *) Eval [1;19]; Bind [23];
    (* 64 *) Eval [1;19]; Bind [24];
    (* 66 *) Eval [1;19]; Bind [25];
    (* 67 *) Eval [1;23;25]; Bind [23];
    (* 68 *) Eval [1;19]; Bind [25];
    (* 69 *) Eval [1;24;25]; Bind [24]] [(* 71 *) Eval [1;15;19]; Bind [23];
    (* 72 *) Eval [1;15;19]; Bind [24]];
   (* 74 *) Eval [24]; Bind [26;27];
   (* 76 *) Eval [15]; If Opaque [Eval [15]] []; Bind [28];
   (* 78 *) Eval [15]; If Opaque [Eval [21]] [Eval [27]]; Bind [29];
   (* 80 *) Eval [8]; Bind [30];
   (* 83 *) Eval [9;30]; Bind [31];
   (* 84 *) Eval [9;31];
   (* 86 *) Eval [13;9;31]; Bind [32];
   (* 88 *) Eval [32];
   (* 89 *) Eval [32;26];
   (* 90 *) Eval [32;16];
   (* 91 *) Eval [32;17];
   (* 92 *) Eval [32;28];
   (* 93 *) Eval [32;18];
   (* 94 *) Eval [32;15];
   (* 95 *) Eval [32;15];
   (* 96 *) Eval [32;15];
   (* 97 *) Eval [32;15];
   (* 98 *) Eval [32;15];
   (* 99 *) Eval [32;15];
   (* 100 *) Eval [32;15];
   (* 102 *) Eval [16;17;18;15]; Bind [33];
   (* 105 *) Eval [28]; If Opaque [(* 106 *) Eval [33;28]; Bind [33]] [(* 108 *) Eval [33]; Bind [33]];
   (* 110 *) Eval [9;31]; Bind [34];
   (* 111 *) Eval [34;33];
   (* 112 *) Eval [32;33];
   (* 114 *) Eval [3;20;15;1;21;27]; Bind [35];
   (* 116 *) Eval [4;3;20;15;1;21;27;29;17;18;22;28]; Bind [36];
   (* 123 *) Eval []; Bind [37];
   (* 124 *) Eval []; Bind [38];
   (* 125 *) Eval [1;24]; Bind [39];
   (* 127 *) Eval [26]; Loop [Bind [40];
    (* 128 *) Eval [35;24;40]; Bind [41];
    (* 129 *) Eval [41]; Bind [42];
    (* 130 *) Eval [23;40]; If Opaque [(* 131 *) Eval [23;40;24;39];
     (* 132 *) Eval [5;41;23;40]; Bind [43]] [(* 134 *) Eval []; Bind [43]];
    (* 135 *) Eval [37;41;43];
    (* 136 *) Eval [36;24;40]; Bind [41];
    (* 137 *) Eval [41]; Bind [44];
    (* 138 *) Eval [23;40]; If Opaque [(* 139 *) Eval [5;41;23;40]; Bind [43]] [(* 141 *) Eval []; Bind [43]];
    (* 142 *) Eval [38;41;43];
    (* 143 *) Eval [32;40;42;44]];
   (* 145 *) Eval [32;37;26];
   (* 146 *) Eval [32;38;26];
   (* 150 *) Eval [23]; Bind [45];
   (* 151 *) Eval [23]; Bind [46];
   (* 152 *) Eval [1;39;27]; Bind [47];
   (* 153 *) Eval [47;46];
   (* 154 *) Eval [1;39;21]; Bind [48];
   (* 155 *) Eval [48;46];
   (* 156 *) Eval [1;39;21]; Bind [49];
   (* 157 *) Eval [49;46];
   (* 158 *) Eval [23;24;39;48;49;47]; Bind [50];
   (* 162 *) Eval [12;50;6]; Bind [51];
   (* 165 *) Eval [27;51];
   (* 166 *) Eval [26;51];
   (* 167 *) Eval [16;51];
   (* 170 *) Eval [12;38]; Bind [52];
   (* 173 *) Eval [52;51];
   (* 174 *) Eval [12;37]; Bind [53];
   (* 177 *) Eval [53;51];
   (* 180 *) Eval [37;26;51];
   (* 181 *) Eval [38;26;51];
   (* 182 *) Eval [37;27;45;51];
   (* 183 *) Eval [38;27;45;51];
   (* 184 *) Eval [47;51];
   (* 187 *) Eval [11;9;31;30]; Bind [34];
   (* 189 *) Eval [0;51;34];
   (* 191 *) Eval [51];
   (* 192 *) Eval [51];
   (* 193 *) Eval [51];
   (* 194 *) Eval [15;51];
   (* 196 *) Eval [10;9;31;30;51];
   (* 198 *) Eval [37;26;38]; Bind [54];
   (* 200 *) Eval [9;31]; Bind [34];
   (* 201 *) Eval [34;54]] |}.

(** runs/Feb_2023/experimental_data_unified_decoder.py:1-233. *)
Definition py_runs_Feb_2023_experimental_data_unified_decoder : file := {| f_name := "runs/Feb_2023/experimental_data_unified_decoder.py";
  f_vars := ["pickle"; "AList"; "LogSpaDecoder"; "CombinedUnifiedDecoder"; "BufferSegmentation"; "BufferModel"; "meta"; "hamming_distance"
    ; "Any"; "argparse"; "datetime"; "os"; "savemat"; "lzma"; "pd"; "setup_logger"; "np"; "parser"; "args"; "ldpc_iterations"
    ; "thr"; "clipping_factor"; "msg_type"; "h"; "k"; "n_clusters"; "tx"; "rx"; "temp"; "bs"; "_"; "buffer_structure"; "number_of_messages"
    ; "n"; "window_len"; "data_model"; "model_length"; "timestamp"; "path"; "logger"; "cmd"; "f"; "ldpc_decoder"; "nr_decoder"
    ; "decoded_ldpc"; "decoded_nr"; "errors"; "tx_idx"; "d"; "ldpc_success"; "hamm"; "errors_idx"; "nr_success"; "good_tx"
    ; "bad_tx"; "input_ber"; "info_errors"; "parity_errors"; "zipped"; "results"; "decoded_nr_df"; "decoded_ldpc_df"; "summary_txt"
    ; "e"];
  f_body :=
   [(* 1 *) Eval []; Bind [0];
   (* 2 *) Eval []; Bind [1];
   (* 3 *) Eval []; Bind [2];
   (* 4 *) Eval []; Bind [3];
   (* 5 *) Eval []; Bind [4;5];
   (* 6 *) Eval []; Bind [6];
   (* 7 *) Eval []; Bind [7];
   (* 8 *) Eval []; Bind [8];
   (* 9 *) Eval []; Bind [9];
   (* 10 *) Eval []; Bind [10];
   (* 11 *) Eval []; Bind [11];
   (* 12 *) Eval []; Bind [12];
   (* 13 *) Eval []; Bind [13];
   (* 14 *) Eval []; Bind [14];
   (* 15 *) Eval []; Bind [15];
   (* 16 *) Eval []; Bind [16];
   (* 18 *) Eval [9]; Bind [17];
   (* 19 *) Eval [17];
   (* 20 *) Eval [17];
   (* 21 *) Eval [17];
   (* 22 *) Eval [17];
   (* 23 *) Eval [17];
   (* 24 *) Eval [17];
   (* 26 *) Eval [17];
   (* 28 *) Eval [17];
   (* 30 *) Eval [17];
   (* 31 *) Eval [17];
   (* 32 *) Eval [17];
   (* 33 *) Eval [17];
   (* 34 *) Eval [17];
   (* 35 *) Eval [17];
   (* 36 *) Eval [17];
   (* 37 *) Eval [17];
   (* 38 *) Eval [17];
   (* 39 *) Eval [17];
   (* 41 *) Eval [17]; Bind [18];
   (* 43 *) Eval [18]; Bind [19];
   (* 44 *) Eval [18]; Bind [20];
   (* 45 *) Eval [18]; Bind [21];
   (* 47 *) Eval [18]; If (Is "msg_type" (VInt 0)) [(* 48 *) Eval []; Bind [22];
    (* 49 *) Eval [1]; Bind [23];
    (* 50 *) Eval []; Bind [24];
    (* 51 *) Eval []; Bind [25]] [(* 52 *) Eval [18]; If (Is "msg_type" (VInt 1)) [(* 53 *) Eval []; Bind [22];
     (* 54 *) Eval [1]; Bind [23];
     (* 55 *) Eval []; Bind [24];
     (* 56 *) Eval [18]; If (Is "separate_models" (VInt 0)) [(* 57 *) Eval []; Bind [25]] [(* 59 *) Eval []; Bind [25]]] [(* 60 *) Eval [18]; If (Is "msg_type" (VInt 2)) [(* 61 *) Eval []; Bind [22];
      (* 62 *) Eval [1]; Bind [23];
      (* 63 *) Eval []; Bind [24];
      (* 64 *) Eval [18]; If (Is "separate_models" (VInt 0)) [(* 65 *) Eval []; Bind [25]] [(* 67 *) Eval []; Bind [25]]] [(* 68 *) Eval [18]; If (Is "msg_type" (VInt 3)) [(* 69 *) Eval []; Bind [22];
       (* 70 *) Eval []; Bind [24];
       (* 71 *) Eval []; Bind [25]] []]]];
   (* 74 *) Eval [18]; If (Is "experiment_date" (VStr "all")) [(* 75 *) Eval [16;22]; Bind [26];
    (* 76 *) Eval [16;22]; Bind [27];
    (* 78 *) Eval [16;22]; Bind [28];
    (* 79 *) Eval [16;26;28]; Bind [26];
    (* 80 *) Eval [16;22]; Bind [28];
    (* 81 *) Eval [16;27;28]; Bind [27]] [(* 83 *) Eval [16;18;22]; Bind [26];
    (* 84 *) Eval [16;18;22]; Bind [27]];
   (* 86 *) Eval [4;6]; Bind [29];
   (* 87 *) Eval [29;16;26;24]; Bind [30;30;31];
   (* 88 *) Eval [1]; Bind [23];
   (* 89 *) Eval [27]; Bind [32;33];
   (* 90 *) Eval [18]; If Opaque [Eval [18]] []; Bind [34];
   (* 91 *) Eval [18]; If Opaque [] [Eval [5]]; Bind [35];
   (* 93 *) Eval [24]; Bind [36];
   (* 95 *) Eval [10]; Bind [37];
   (* 98 *) Eval [11;37]; Bind [38];
   (* 99 *) Eval [11;38];
   (* 101 *) Eval [15;11;38]; Bind [39];
   (* 103 *) Eval [39];
   (* 104 *) Eval [39;32];
   (* 105 *) Eval [39;19];
   (* 106 *) Eval [39;34];
   (* 107 *) Eval [39;18];
   (* 108 *) Eval [39;18];
   (* 109 *) Eval [39;18];
   (* 110 *) Eval [39;18];
   (* 111 *) Eval [39;18];
   (* 112 *) Eval [39;18];
   (* 113 *) Eval [39;18];
   (* 114 *) Eval [39;18];
   (* 115 *) Eval [39;18];
   (* 116 *) Eval [39;20];
   (* 117 *) Eval [39;21];
   (* 118 *) Eval [39;18];
   (* 119 *) Eval [39;18];
   (* 120 *) Eval [39;18];
   (* 121 *) Eval [39;18];
   (* 123 *) Eval [19;18;20;21]; Bind [40];
   (* 130 *) Eval [34]; If Opaque [(* 131 *) Eval [40;34]; Bind [40]] [(* 133 *) Eval [40]; Bind [40]];
   (* 135 *) Eval [11;38]; Bind [41];
   (* 136 *) Eval [41;40];
   (* 137 *) Eval [39;40];
   (* 139 *) Try [(* 140 *) Eval [2;23;18;16;24;33]; Bind [42];
    (* 142 *) Eval [3;2;23;18;16;24;33;36;20;21;34;35]; Bind [43];
    (* 153 *) Eval [43;31];
    (* 154 *) Eval []; Bind [44];
    (* 155 *) Eval []; Bind [45];
    (* 156 *) Eval [16;27]; Bind [46];
    (* 157 *) Eval [32]; Loop [Bind [47];
     (* 158 *) Eval [42;27;47]; Bind [48];
     (* 159 *) Eval [48]; Bind [49];
     (* 160 *) Eval [26;47]; If Opaque [(* 161 *) Eval [26;47;27;46];
      (* 162 *) Eval [7;48;26;47]; Bind [50];
      (* 163 *) Eval [16;46;47]; Bind [51]] [(* 165 *) Eval []; Bind [50];
      (* 166 *) Eval []; Bind [51]];
     (* 167 *) Eval [44;48;50];
     (* 168 *) Eval [43;27;47;51]; Bind [48];
     (* 169 *) Eval [48]; Bind [52];
     (* 170 *) Eval [26;47]; If Opaque [Eval [7;48;26;47]] []; Bind [50];
     (* 171 *) Eval [45;48;50];
     (* 172 *) Eval [39;47;49;52]];
    (* 174 *) Eval [39;44;32];
    (* 175 *) Eval [39;45;32];
    (* 179 *) Eval [26]; Bind [53];
    (* 180 *) Eval [26]; Bind [54];
    (* 181 *) Eval [16;46;33]; Bind [55];
    (* 182 *) Eval [55;54];
    (* 183 *) Eval [16;46;24]; Bind [56];
    (* 184 *) Eval [56;54];
    (* 185 *) Eval [16;46;24]; Bind [57];
    (* 186 *) Eval [57;54];
    (* 187 *) Eval [26;27;46;56;57;55]; Bind [58];
    (* 191 *) Eval [14;58;8]; Bind [59];
    (* 194 *) Eval [33;59];
    (* 195 *) Eval [32;59];
    (* 196 *) Eval [19;59];
    (* 199 *) Eval [14;45]; Bind [60];
    (* 201 *) Eval [60;59];
    (* 202 *) Eval [14;44]; Bind [61];
    (* 205 *) Eval [61;59];
    (* 208 *) Eval [44;32;59];
    (* 209 *) Eval [45;32;59];
    (* 210 *) Eval [44;33;53;59];
    (* 211 *) Eval [45;33;53;59];
    (* 212 *) Eval [55;59];
    (* 215 *) Eval [13;11;38;37]; Bind [41];
    (* 217 *) Eval [0;59;41];
    (* 219 *) Eval [59];
    (* 220 *) Eval [59];
    (* 221 *) Eval [59];
    (* 222 *) Eval [18;59];
    (* 224 *) Eval [12;11;38;37;59];
    (* 226 *) Eval [44;32;45]; Bind [62];
    (* 228 *) Eval [11;38]; Bind [41];
    (* 229 *) Eval [41;62]] [Bind [63];
    (* 232 *) Eval [39;63];
    (* 233 *) Eval [63]; Raise]] |}.

(** runs/Feb_2023/experimental_mavlink_based.py:1-211. *)
Definition py_runs_Feb_2023_experimental_mavlink_based : file := {| f_name := "runs/Feb_2023/experimental_mavlink_based.py";
  f_vars := ["pickle"; "np"; "AList"; "LogSpaDecoder"; "MavlinkRectifyingDecoder"; "BufferSegmentation"; "BufferModel"; "meta"
    ; "hamming_distance"; "Any"; "argparse"; "datetime"; "os"; "savemat"; "lzma"; "pd"; "setup_logger"; "parser"; "args"; "ldpc_iterations"
    ; "msg_type"; "h"; "k"; "n_clusters"; "tx"; "rx"; "temp"; "bs"; "_"; "buffer_structure"; "data_model"; "number_of_messages"
    ; "n"; "window_len"; "model_length"; "timestamp"; "path"; "logger"; "cmd"; "f"; "ldpc_decoder"; "rectify_decoder"; "decoded_ldpc"
    ; "decoded_rect"; "errors"; "tx_idx"; "d"; "ldpc_success"; "hamm"; "mavlink_success"; "good_tx"; "bad_tx"; "input_ber"
    ; "info_errors"; "parity_errors"; "zipped"; "results"; "decoded_rect_df"; "decoded_ldpc_df"; "summary_txt"];
  f_body :=
   [(* 1 *) Eval []; Bind [0];
   (* 2 *) Eval []; Bind [1];
   (* 3 *) Eval []; Bind [2];
   (* 4 *) Eval []; Bind [3];
   (* 5 *) Eval []; Bind [4];
   (* 6 *) Eval []; Bind [5;6];
   (* 7 *) Eval []; Bind [7];
   (* 8 *) Eval []; Bind [8];
   (* 9 *) Eval []; Bind [9];
   (* 10 *) Eval []; Bind [10];
   (* 11 *) Eval []; Bind [11];
   (* 12 *) Eval []; Bind [12];
   (* 13 *) Eval []; Bind [13];
   (* 14 *) Eval []; Bind [14];
   (* 15 *) Eval []; Bind [15];
   (* 16 *) Eval []; Bind [16];
   (* 18 *) Eval [10]; Bind [17];
   (* 19 *) Eval [17];
   (* 20 *) Eval [17];
   (* 21 *) Eval [17];
   (* 22 *) Eval [17];
   (* 23 *) Eval [17];
   (* 24 *) Eval [17];
   (* 26 *) Eval [17];
   (* 28 *) Eval [17];
   (* 29 *) Eval [17];
   (* 30 *) Eval [17];
   (* 31 *) Eval [17];
   (* 32 *) Eval [17];
   (* 33 *) Eval [17];
   (* 34 *) Eval [17];
   (* 36 *) Eval [17]; Bind [18];
   (* 38 *) Eval [18]; Bind [19];
   (* 39 *) Eval [18]; If (Is "msg_type" (VInt 0)) [(* 40 *) Eval []; Bind [20];
    (* 41 *) Eval [2]; Bind [21];
    (* 42 *) Eval []; Bind [22];
    (* 43 *) Eval []; Bind [23]] [(* 44 *) Eval [18]; If (Is "msg_type" (VInt 1)) [(* 45 *) Eval []; Bind [20];
     (* 46 *) Eval [2]; Bind [21];
     (* 47 *) Eval []; Bind [22];
     (* 48 *) Eval [18]; If (Is "separate_models" (VInt 0)) [(* 49 *) Eval []; Bind [23]] [(* 51 *) Eval []; Bind [23]]] [(* 52 *) Eval [18]; If (Is "msg_type" (VInt 2)) [(* 53 *) Eval []; Bind [20];
      (* 54 *) Eval [2]; Bind [21];
      (* 55 *) Eval []; Bind [22];
      (* 56 *) Eval [18]; If (Is "separate_models" (VInt 0)) [(* 57 *) Eval []; Bind [23]] [(* 59 *) Eval []; Bind [23]]] [(* 60 *) Eval [18]; If (Is "msg_type" (VInt 3)) [(* 61 *) Eval []; Bind [20];
       (* 62 *) Eval []; Bind [22];
       (* 63 *) Eval []; Bind [23]] []]]];
   (* 66 *) Eval [18]; If (Is "experiment_date" (VStr "all")) [(* 67 *) Eval [1;20]; Bind [24];
    (* 68 *) Eval [1;20]; Bind [25];
    (* 70 *) Eval [1;20]; Bind [26];
    (* 71 *) Eval [1;24;26]; Bind [24];
    (* 72 *) Eval [1;20]; Bind [26];
    (* 73 *) Eval [1;25;26]; Bind [25]] [(* 75 *) Eval [1;18;20]; Bind [24];
    (* 76 *) Eval [1;18;20]; Bind [25]];
   (* 78 *) Eval [5;7]; Bind [27];
   (* 79 *) Eval [27;1;24;22]; Bind [28;28;29];
   (* 80 *) Eval [6]; Bind [30];
   (* 81 *) Eval [25]; Bind [31;32];
   (* 82 *) Eval [18]; If Opaque [Eval [18]] []; Bind [33];
   (* 83 *) Eval [22]; Bind [34];
   (* 85 *) Eval [11]; Bind [35];
   (* 88 *) Eval [12;35]; Bind [36];
   (* 89 *) Eval [12;36];
   (* 91 *) Eval [16;12;36]; Bind [37];
   (* 93 *) Eval [37];
   (* 94 *) Eval [37;31];
   (* 95 *) Eval [37;19];
   (* 96 *) Eval [37;33];
   (* 97 *) Eval [37;18];
   (* 98 *) Eval [37;18];
   (* 99 *) Eval [37;18];
   (* 100 *) Eval [37;18];
   (* 101 *) Eval [37;18];
   (* 102 *) Eval [37;18];
   (* 103 *) Eval [37;18];
   (* 104 *) Eval [37;18];
   (* 105 *) Eval [37;18];
   (* 106 *) Eval [37;18];
   (* 107 *) Eval [37;18];
   (* 109 *) Eval [19;18]; Bind [38];
   (* 114 *) Eval [33]; If Opaque [(* 115 *) Eval [38;33]; Bind [38]] [(* 117 *) Eval [38]; Bind [38]];
   (* 119 *) Eval [12;36]; Bind [39];
   (* 120 *) Eval [39;38];
   (* 121 *) Eval [37;38];
   (* 123 *) Eval [3;21;18;1;22;32]; Bind [40];
   (* 125 *) Eval [4;3;21;18;1;22;32;34;33;30]; Bind [41];
   (* 133 *) Eval [41;29];
   (* 134 *) Eval []; Bind [42];
   (* 135 *) Eval []; Bind [43];
   (* 136 *) Eval [1;25]; Bind [44];
   (* 138 *) Eval [31]; Loop [Bind [45];
    (* 139 *) Eval [40;25;45]; Bind [46];
    (* 140 *) Eval [46]; Bind [47];
    (* 141 *) Eval [24;45]; If Opaque [(* 142 *) Eval [24;45;25;44];
     (* 143 *) Eval [8;46;24;45]; Bind [48]] [(* 145 *) Eval []; Bind [48]];
    (* 146 *) Eval [42;46;48];
    (* 147 *) Eval [41;25;45;1;44]; Bind [46];
    (* 148 *) Eval [46]; Bind [49];
    (* 149 *) Eval [24;45]; If Opaque [Eval [8;46;24;45]] []; Bind [48];
    (* 150 *) Eval [43;46;48];
    (* 151 *) Eval [37;45;47;49]];
   (* 153 *) Eval [37;42;31];
   (* 154 *) Eval [37;43;31];
   (* 158 *) Eval [24]; Bind [50];
   (* 159 *) Eval [24]; Bind [51];
   (* 160 *) Eval [1;44;32]; Bind [52];
   (* 161 *) Eval [52;51];
   (* 162 *) Eval [1;44;22]; Bind [53];
   (* 163 *) Eval [53;51];
   (* 164 *) Eval [1;44;22]; Bind [54];
   (* 165 *) Eval [54;51];
   (* 166 *) Eval [24;25;44;53;54;52]; Bind [55];
   (* 170 *) Eval [15;55;9]; Bind [56];
   (* 173 *) Eval [32;56];
   (* 174 *) Eval [31;56];
   (* 175 *) Eval [19;56];
   (* 178 *) Eval [15;43]; Bind [57];
   (* 183 *) Eval [57;56];
   (* 184 *) Eval [15;42]; Bind [58];
   (* 187 *) Eval [58;56];
   (* 190 *) Eval [42;31;56];
   (* 191 *) Eval [43;31;56];
   (* 192 *) Eval [42;32;50;56];
   (* 193 *) Eval [43;32;50;56];
   (* 194 *) Eval [52;56];
   (* 197 *) Eval [14;12;36;35]; Bind [39];
   (* 199 *) Eval [0;56;39];
   (* 201 *) Eval [56];
   (* 202 *) Eval [56];
   (* 203 *) Eval [56];
   (* 204 *) Eval [18;56];
   (* 206 *) Eval [13;12;36;35;56];
   (* 208 *) Eval [42;31;43]; Bind [59];
   (* 210 *) Eval [12;36]; Bind [39];
   (* 211 *) Eval [39;59]] |}.

(** runs/Feb_2023/train_buffer_model.py:1-19. *)
Definition py_runs_Feb_2023_train_buffer_model : file := {| f_name := "runs/Feb_2023/train_buffer_model.py";
  f_vars := ["BufferSegmentation"; "BufferModel"; "meta"; "np"; "msg_type"; "tx"; "temp"; "bs"; "buffer_model"; "parts"; "validity"
    ; "structure"; "bad_idx"; "tx_idx"];
  f_body :=
   [(* 1 *) Eval []; Bind [0;1];
   (* 2 *) Eval []; Bind [2];
   (* 3 *) Eval []; Bind [3];
   (* 5 *) Eval []; Bind [4];
   (* 6 *) Eval [3;4]; Bind [5];
   (* 7 *) Eval [3;4]; Bind [6];
   (* 8 *) Eval [3;5;6]; Bind [5];
   (* 9 *) Eval [0;2]; Bind [7];
   (* 10 *) Eval [1]; Bind [8];
   (* 11 *) Eval [7;3;5]; Bind [9;10;11];
   (* 12 *) Eval []; Bind [12];
   (* 13 *) Eval [5]; Loop [Bind [13];
    (* 14 *) Eval [5;13]; If Opaque [(* 15 *) Eval [3;5;13]; If Opaque [(* 16 *) Eval [12;13];
      (* 17 *) Continue] [];
     (* 18 *) Eval [8;5;13;11]] []];
   (* 19 *) Eval [8]] |}.

(** runs/HC_eilat_July_2018/analysis/analysis.py:1-45. *)
Definition py_runs_HC_eilat_July_2018_analysis_analysis : file := {| f_name := "runs/HC_eilat_July_2018/analysis/analysis.py";
  f_vars := ["os"; "pickle"; "prob"; "entropy"; "np"; "plt"; "results_path"; "summary_results"; "dirs"; "dir"; "files"; "file"
    ; "f"; "encoded"; "p"; "buffer_ent"; "figure"; "bit_dist"; "bit_ent"];
  f_body :=
   [(* 1 *) Eval []; Bind [0];
   (* 2 *) Eval []; Bind [1];
   (* 3 *) Eval []; Bind [2;3];
   (* 4 *) Eval []; Bind [4];
   (* 5 *) Eval []; Bind [5];
   (* 7 *) Eval []; Bind [6];
   (* 8 *) Eval []; Bind [7];
   (* 11 *) Eval [0;6]; Bind [8];
   (* 12 *) Eval [8]; Loop [Bind [9];
    (* 13 *) Eval [0;6;9]; If Opaque [(* 14 *) Eval [0;6;9]; Bind [10];
     (* 15 *) Eval [10]; Loop [Bind [11];
      (* 16 *) Eval [11]; If Opaque [(* 17 *) Eval [0;6;9;11]; Bind [12];
       (* 18 *) Eval [1;12;7;11]] []]] []];
   (* 22 *) Eval [0;6]; Bind [12];
   (* 23 *) Eval [1;12]; Bind [13];
   (* 24 *) Eval [4;13]; If Opaque [Eval [4]] []; Bind [13];
   (* 25 *) Eval [2;13]; Bind [14];
   (* 26 *) Eval [3;14]; Bind [15];
   (* 28 *) Eval [5]; Bind [16];
   (* 29 *) Eval [5;15];
   (* 30 *) Eval [5];
   (* 31 *) Eval [5];
   (* 32 *) Eval [5];
   (* 34 *) Eval [2;13]; Bind [17];
   (* 35 *) Eval [3;17]; Bind [18];
   (* 37 *) Eval [5]; Bind [16];
   (* 38 *) Eval [5;18;4];
   (* 39 *) Eval [5];
   (* 40 *) Eval [5];
   (* 41 *) Eval [5];
   (* 42 *) Eval [4;18];
   (* 44 *) Eval []; Bind [12];
   (* 45 *) Eval [1;17;18;12]] |}.

(** runs/HC_eilat_July_2018/analysis/analyze_resutls.py:1-35. *)
Definition py_runs_HC_eilat_July_2018_analysis_analyze_resutls : file := {| f_name := "runs/HC_eilat_July_2018/analysis/analyze_resutls.py";
  f_vars := ["pickle"; "plt"; "pd"; "sns"; "result_file"; "summary_file"; "f"; "results"; "summary"; "ber_df"; "ber_df_m"
    ; "decoding_df"; "decoding_df_m"];
  f_body :=
   [(* 1 *) Eval []; Bind [0];
   (* 2 *) Eval []; Bind [1];
   (* 3 *) Eval []; Bind [2];
   (* 4 *) Eval []; Bind [3];
   (* 6 *) Eval []; Bind [4];
   (* 7 *) Eval []; Bind [5];
   (* 8 *) Eval [4]; Bind [6];
   (* 9 *) Eval [0;6]; Bind [7];
   (* 11 *) Eval [5]; Bind [6];
   (* 12 *) Eval [0;6]; Bind [8];
   (* 13 *) Eval [3];
   (* 15 *) Eval [1;7];
   (* 16 *) Eval [1];
   (* 20 *) Eval [2;8]; Bind [9];
   (* 25 *) Eval [9]; Bind [10];
   (* 27 *) Eval [2;8]; Bind [11];
   (* 31 *) Eval [11]; Bind [12];
   (* 33 *) Eval [3;10];
   (* 34 *) Eval [3;12]] |}.

(** runs/HC_eilat_July_2018/analysis/bit_flips_distribution.py:1-25. *)
Definition py_runs_HC_eilat_July_2018_analysis_bit_flips_distribution : file := {| f_name := "runs/HC_eilat_July_2018/analysis/bit_flips_distribution.py";
  f_vars := ["np"; "plt"; "sns"; "pd"; "n"; "n_bits"; "flip_p"; "rng"; "error_idx"; "df"];
  f_body :=
   [(* 6 *) Eval []; Bind [0];
   (* 7 *) Eval []; Bind [1];
   (* 8 *) Eval []; Bind [2];
   (* 9 *) Eval []; Bind [3];
   (* 11 *) Eval [2];
   (* 12 *) Eval []; Bind [4];
   (* 13 *) Eval []; Bind [5];
   (* 14 *) Eval []; Bind [6];
   (* 17 *) Eval [0]; Bind [7];
   (* 18 *) Eval [0;4]; If Opaque [Eval [7;5;6]] []; Bind [8];
   (* 22 *) Eval [3;8]; Bind [9];
   (* 24 *) Eval [2;9]] |}.

(** runs/HC_eilat_July_2018/analysis/bsc_capacity.py:1-14. *)
Definition py_runs_HC_eilat_July_2018_analysis_bsc_capacity : file := {| f_name := "runs/HC_eilat_July_2018/analysis/bsc_capacity.py";
  f_vars := ["np"; "plt"; "c"; "f"; "capacity"; "r"; "nr_capacity"];
  f_body :=
   [(* 1 *) Eval []; Bind [0];
   (* 2 *) Eval []; Bind [1];
   (* 4 *) Eval []; If Opaque [Eval [0]] []; Bind [2];
   (* 5 *) Eval [0]; Bind [3];
   (* 6 *) Eval [0;3]; If Opaque [Eval [2]] []; Bind [4];
   (* 8 *) Eval []; Bind [5];
   (* 9 *) Eval [0;3]; If Opaque [Eval [5;2]] []; Bind [6];
   (* 10 *) Eval [1;3;4;6;0];
   (* 11 *) Eval [1];
   (* 12 *) Eval [1];
   (* 13 *) Eval [1];
   (* 14 *) Eval [1]] |}.

(** runs/HC_eilat_July_2018/analysis/entropy_with_flips.py:1-9. *)
Definition py_runs_HC_eilat_July_2018_analysis_entropy_with_flips : file := {| f_name := "runs/HC_eilat_July_2018/analysis/entropy_with_flips.py";
  f_vars := ["np"; "p0"; "p1"; "p_flip"; "ent_real"; "p0_measured"; "p1_measured"; "ent_measured"];
  f_body :=
   [(* 1 *) Eval []; Bind [0];
   (* 2 *) Eval []; Bind [1];
   (* 3 *) Eval [1]; Bind [2];
   (* 4 *) Eval []; Bind [3];
   (* 5 *) Eval [1;0;2]; Bind [4];
   (* 7 *) Eval [1;3]; Bind [5];
   (* 8 *) Eval [5]; Bind [6];
   (* 9 *) Eval [5;0;6]; Bind [7]] |}.

(** runs/HC_eilat_July_2018/classifying_entropy_decoder_over_awgn_channel.py:1-319. *)
Definition py_runs_HC_eilat_July_2018_classifying_entropy_decoder_over_awgn_channel : file := {| f_name := "runs/HC_eilat_July_2018/classifying_entropy_decoder_over_awgn_channel.py";
  f_vars := ["pickle"; "Bits"; "np"; "EncoderWiFi"; "WiFiSpecCode"; "DecoderWiFi"; "ClassifyingEntropyDecoder"; "hamming_distance"
    ; "Any"; "plt"; "argparse"; "datetime"; "os"; "Pool"; "savemat"; "lzma"; "pd"; "setup_logger"; "erfc"; "shutil"; "awgn_llr"
    ; "parser"; "args"; "ldpc_iterations"; "thr"; "clipping_factor"; "processes"; "f"; "hc_tx"; "hc_bin_data"; "n"; "window_len"
    ; "rng"; "spec"; "encoder"; "encoded"; "binary_data"; "pad_len"; "padded"; "_"; "model_length"; "logger"; "simulation_step"
    ; "timestamp"; "path"; "cmd"; "snr_list"; "pool"; "simulation_step.baseband"; "simulation_step.bp_success"; "simulation_step.channel"
    ; "simulation_step.channel_llr"; "simulation_step.corrupted"; "simulation_step.d"; "simulation_step.decoded_entropy"; "simulation_step.decoded_entropy_df"
    ; "simulation_step.decoded_ldpc"; "simulation_step.decoded_ldpc_df"; "simulation_step.delta"; "simulation_step.entropy_decoder"
    ; "simulation_step.entropy_success"; "simulation_step.errors"; "simulation_step.f"; "simulation_step.info_errors"; "simulation_step.ldpc_decoder"
    ; "simulation_step.noise"; "simulation_step.noise_power"; "simulation_step.noisy"; "simulation_step.p"; "simulation_step.parity_errors"
    ; "simulation_step.rx"; "simulation_step.sigma"; "simulation_step.snr_linear"; "simulation_step.step_results"; "simulation_step.timestamp"
    ; "simulation_step.tx_bool"; "simulation_step.tx_idx"; "simulation_step.zipped"; "simulation_step.snr"; "awgn_llr.sigma"
    ; "results"; "x_label"; "ldpc_ber"; "entropy_ber"; "fig"; "figure"; "ldpc_buffer_success_rate"; "entropy_buffer_success_rate"
    ; "summary"; "step"; "e"];
  f_body :=
   [(* 1 *) Eval []; Bind [0];
   (* 2 *) Eval []; Bind [1];
   (* 3 *) Eval []; Bind [2];
   (* 4 *) Eval []; Bind [3];
   (* 5 *) Eval []; Bind [4];
   (* 6 *) Eval []; Bind [5];
   (* 7 *) Eval []; Bind [6];
   (* 8 *) Eval []; Bind [7];
   (* 9 *) Eval []; Bind [8];
   (* 10 *) Eval []; Bind [9];
   (* 11 *) Eval []; Bind [10];
   (* 12 *) Eval []; Bind [11];
   (* 13 *) Eval []; Bind [12];
   (* 14 *) Eval []; Bind [13];
   (* 15 *) Eval []; Bind [14];
   (* 16 *) Eval []; Bind [15];
   (* 17 *) Eval []; Bind [16];
   (* 18 *) Eval []; Bind [17];
   (* 19 *) Eval []; Bind [18];
   (* 20 *) Eval []; Bind [19];
   (* 23 *) Eval []; Bind [20];
   (* 35 *) Eval [10]; Bind [21];
   (* 36 *) Eval [21];
   (* 37 *) Eval [21];
   (* 38 *) Eval [21];
   (* 39 *) Eval [21];
   (* 40 *) Eval [21];
   (* 41 *) Eval [21];
   (* 42 *) Eval [21];
   (* 43 *) Eval [21];
   (* 44 *) Eval [21];
   (* 45 *) Eval [21];
   (* 46 *) Eval [21];
   (* 47 *) Eval [21];
   (* 48 *) Eval [21];
   (* 49 *) Eval [21];
   (* 50 *) Eval [21];
   (* 51 *) Eval [21];
   (* 52 *) Eval [21];
   (* 53 *) Eval [21];
   (* 54 *) Eval [21];
   (* 55 *) Eval [21];
   (* 57 *) Eval [21]; Bind [22];
   (* 59 *) Eval [22]; Bind [23];
   (* 60 *) Eval [22]; Bind [24];
   (* 61 *) Eval [22]; Bind [25];
   (* 62 *) Eval [22]; If Opaque [Eval [22]] []; Bind [26];
   (* 64 *) Eval []; Bind [27];
   (* 65 *) Eval [0;27]; Bind [28];
   (* 67 *) Eval [28;22]; If Opaque [Eval [1]] []; Bind [29];
   (* 68 *) Eval [22]; If Opaque [Eval [22]] [Eval [29]]; Bind [30];
   (* 69 *) Eval [22]; If Opaque [Eval [22]] []; Bind [31];
   (* 72 *) Eval [2]; Bind [32];
   (* 74 *) Eval [22]; If (Is "n_clusters" (VInt 1)) [(* 75 *) Eval [4]; Bind [33];
    (* 76 *) Eval [22]] [(* 77 *) Eval [22]; If (Is "n_clusters" (VInt 2)) [(* 78 *) Eval [4]; Bind [33]] [(* 79 *) Eval [22]; If (Is "n_clusters" (VInt 3)) [(* 80 *) Eval [4]; Bind [33]] [(* 82 *) Eval []; Raise]]];
   (* 84 *) Eval [3;33]; Bind [34];
   (* 85 *) Eval []; Bind [35];
   (* 86 *) Eval [29;30]; Loop [Bind [36];
    (* 87 *) Eval [22]; If (Is "n_clusters" (VInt 1)) [(* 88 *) Eval [34;36]; Bind [37];
     (* 89 *) Eval [36;1;32;37]; Bind [38];
     (* 90 *) Eval [35;34;38]] [(* 91 *) Eval [22]; If (Is "n_clusters" (VInt 2)) [(* 92 *) Eval [36;1;32;34]; Bind [38];
      (* 93 *) Eval [35;34;38;36]] [(* 94 *) Eval [22]; If (Is "n_clusters" (VInt 3)) [(* 95 *) Eval [36;1;32;34]; Bind [38];
       (* 96 *) Eval [35;34;38];
       (* 97 *) Eval [36;1;32;34]; Bind [38];
       (* 98 *) Eval [35;34;38];
       (* 99 *) Eval [36;1;32;34]; Bind [38];
       (* 100 *) Eval [35;34;38]] []]]];
   (* 102 *) Eval [22]; Loop [Bind [39];
    (* 103 *) Eval [35]];
   (* 105 *) Eval [22]; If Opaque [Eval [34]] [Eval [34]]; Bind [40];
   (* 106 *) Eval [35]; Bind [30];
   (* 114 *) Eval [17;12]; Bind [41];
   (* 117 *) Eval [8]; Bind [42];
   (* 216 *) 
   (* 218 *) Eval [11]; Bind [43];
   (* 221 *) Eval [12;43]; Bind [44];
   (* 223 *) Eval [41];
   (* 224 *) Eval [41;30];
   (* 225 *) Eval [41;22];
   (* 226 *) Eval [41;22];
   (* 227 *) Eval [41;22];
   (* 228 *) Eval [41;22];
   (* 229 *) Eval [41;22];
   (* 230 *) Eval [41;23];
   (* 231 *) Eval [41;22];
   (* 232 *) Eval [41;22];
   (* 233 *) Eval [41;22];
   (* 234 *) Eval [41;22];
   (* 235 *) Eval [41;22];
   (* 236 *) Eval [41;22];
   (* 237 *) Eval [41;22];
   (* 238 *) Eval [41;31];
   (* 239 *) Eval [41;22];
   (* 240 *) Eval [41;22];
   (* 241 *) Eval [41;24];
   (* 242 *) Eval [41;25];
   (* 243 *) Eval [41;22];
   (* 245 *) Eval [22;23;24;25]; Bind [45];
   (* 251 *) Eval [22]; If Opaque [(* 252 *) Eval [45;30]; Bind [45]] [];
   (* 253 *) Eval [31]; If Opaque [(* 254 *) Eval [45;31]; Bind [45]] [(* 256 *) Eval [45]; Bind [45]];
   (* 257 *) Eval [26]; If Opaque [(* 258 *) Eval [45;26]; Bind [45]] [];
   (* 259 *) Eval [12;44];
   (* 260 *) Eval [12;44]; Bind [27];
   (* 261 *) Eval [27;45];
   (* 262 *) Eval [41;45];
   (* 264 *) Try [(* 265 *) Eval [2;22]; Bind [46];
    (* 266 *) Eval [13;26]; Bind [47];
    (* 267 *) Eval [47;42]; Loop [Call [48;49;50;51;52;53;54;55;56;57;58;59;60;61;62;63;64;65;66;67;68;69;70;71;72;73;74;75;76;77] [78] [(* 130 *) Eval [22]; If (Is "snr_scale" (VStr "db")) [(* 131 *) Eval [78]; Bind [72]] [(* 132 *) Eval [22]; If (Is "snr_scale" (VStr "linear")) [(* 133 *) Eval [78]; Bind [72]] [(* 135 *) Eval []; Raise]];
      (* 136 *) Eval [72]; Bind [66];
      (* 137 *) Eval [2;66]; Bind [71];
      (* 138 *) Eval [20]; Loop [Call [] [79] [(* 32 *) Eval []; If Opaque [Eval [2;79]] []; Return]]; Eval [71]; Bind [50];
      (* 141 *) Eval [22]; Bind [58];
      (* 142 *) Eval [18;2;58;72]; Bind [68];
      (* 143 *) Eval [5;33;23;22]; Bind [64];
      (* 144 *) Eval [6;5;33;23;22;40;24;25;31;68]; Bind [59];
      (* 150 *) Eval [2;30;34]; Bind [70];
      (* 151 *) Eval [2;30;34]; Bind [61];
      (* 152 *) Eval []; Bind [56];
      (* 153 *) Eval []; Bind [54];
      (* 154 *) Eval [29;30]; Bind [73];
      (* 155 *) Eval [30]; Loop [Bind [76];
       (* 157 *) Eval [2;35;76]; Bind [48];
       (* 159 *) Eval [71;32;48]; Bind [65];
       (* 161 *) Eval [48;65]; Bind [67];
       (* 162 *) Eval [50;67]; Bind [51];
       (* 163 *) Eval [67]; Bind [52];
       (* 164 *) Eval [52;70;76];
       (* 165 *) Eval [2;35;76]; Bind [75];
       (* 166 *) Eval [75;52;61;76];
       (* 167 *) Eval [64;51]; Bind [53];
       (* 168 *) Eval [56;53;7;35;76];
       (* 169 *) Eval [59;51]; Bind [53];
       (* 170 *) Eval [54;53;7;35;76];
       (* 171 *) Eval [41;78;76]];
      (* 172 *) Eval [56]; Bind [49];
      (* 173 *) Eval [54]; Bind [60];
      (* 174 *) Eval [41;78;49;30];
      (* 175 *) Eval [41;78;60;30];
      (* 176 *) Eval [30;49]; If Opaque [(* 177 *) Eval [41;78;60;49;30]] [];
      (* 179 *) Eval [2;61;34]; Bind [63];
      (* 180 *) Eval [2;61;34]; Bind [69];
      (* 181 *) Eval [35;70;61;63;69]; If Opaque [Eval [2]] []; Bind [77];
      (* 183 *) Eval [16;77;73];
      (* 187 *) Eval [2;61;34;30;73];
      (* 188 *) Eval [35;73];
      (* 189 *) Eval [30;73];
      (* 190 *) Eval [23;73];
      (* 193 *) Eval [16;54]; Bind [55];
      (* 196 *) Eval [55];
      (* 197 *) Eval [55;73];
      (* 199 *) Eval [16;56]; Bind [57];
      (* 202 *) Eval [57;73];
      (* 204 *) Eval [56;30;73];
      (* 205 *) Eval [56;30;35;73];
      (* 206 *) Eval [54;30;73];
      (* 207 *) Eval [54;30;35;73];
      (* 209 *) Eval [11]; Bind [74];
      (* 211 *) Eval [12;74;78]; Bind [62];
      (* 212 *) Eval [0;73;62];
      (* 213 *) Eval [73]; Return]]; Eval [46;8]; Bind [80];
    (* 270 *) Eval [15;12;44;43;22]; Bind [27];
    (* 273 *) Eval [0;80;27];
    (* 274 *) Eval [41];
    (* 276 *) Eval [22]; Bind [81];
    (* 277 *) Eval [2;80]; Bind [82];
    (* 278 *) Eval [2;80]; Bind [83];
    (* 279 *) Eval [9]; Bind [84];
    (* 280 *) Eval [9;46;82;83];
    (* 281 *) Eval [9;81];
    (* 282 *) Eval [9];
    (* 283 *) Eval [84;12;44];
    (* 285 *) Eval [9]; Bind [85];
    (* 286 *) Eval [2;80]; Bind [86];
    (* 287 *) Eval [2;80]; Bind [87];
    (* 288 *) Eval [9;46;86;87];
    (* 289 *) Eval [9;81];
    (* 290 *) Eval [9];
    (* 291 *) Eval [85;12;44];
    (* 292 *) Eval [41];
    (* 294 *) Eval [22;46;82;83;86;87]; Bind [88];
    (* 297 *) Eval [12;44;43;22]; Bind [27];
    (* 298 *) Eval [0;88;27];
    (* 300 *) Eval [14;12;44;43;22;88];
    (* 302 *) Eval [41];
    (* 304 *) Eval [80]; Loop [Bind [89];
     (* 305 *) Eval [89];
     (* 306 *) Eval [89];
     (* 307 *) Eval [89]];
    (* 311 *) Eval [80;88];
    (* 312 *) Eval [14;12;44;43;22;88];
    (* 314 *) Eval [41];
    (* 315 *) Eval [19;12;44]] [Bind [90];
    (* 317 *) Eval [41;90];
    (* 318 *) Eval [19;12;44];
    (* 319 *) Eval [90]; Raise]] |}.

(** runs/HC_eilat_July_2018/data/msg_creator.py:1-126. *)
Definition py_runs_HC_eilat_July_2018_data_msg_creator : file := {| f_name := "runs/HC_eilat_July_2018/data/msg_creator.py";
  f_vars := ["scipy"; "dialect"; "pickle"; "np"; "savemat"; "mat"; "mav"; "global_position_int"; "global_position_int_time"
    ; "global_position_int_lat"; "global_position_int_lon"; "global_position_int_alt"; "global_position_int_relative_alt"
    ; "global_position_int_bottom_distance"; "global_position_int_depth"; "global_position_int_vx"; "global_position_int_vy"
    ; "global_position_int_vz"; "global_position_int_hdg"; "initial_time"; "final_time"; "delays"; "time_vecs"; "pinger_data"
    ; "pinger_time"; "pinger_range"; "pinger_azimuth"; "attitude"; "attitude_time"; "attitude_roll"; "attitude_pitch"; "attitude_yaw"
    ; "attitude_roll_speed"; "attitude_pitch_speed"; "attitude_yaw_speed"; "svs"; "svs_time"; "svs_speed"; "svs_depth"; "svs_reserved"
    ; "svs_temp"; "svs_status"; "chamber_status"; "chamber_status_time"; "chamber_status_temp"; "chamber_status_hum"; "chamber_status_num"
    ; "chamber_status_press"; "all_msgs"; "delay"; "time_vec"; "msgs"; "t"; "d"; "buffer"; "idx"; "pos"; "ping"; "att"; "sv"
    ; "chamber"; "file_b"; "two_sec_bin"; "five_sec_bin"; "ten_sec_bin"; "twenty_sec_bin"; "thirty_sec_bin"];
  f_body :=
   [(* 2 *) Eval []; Bind [0];
   (* 3 *) Eval []; Bind [1];
   (* 4 *) Eval []; Bind [2];
   (* 5 *) Eval []; Bind [3];
   (* 6 *) Eval []; Bind [4];
   (* 8 *) Eval [0]; Bind [5];
   (* 9 *) Eval [1]; Bind [6];
   (* 12 *) Eval [5]; Bind [7];
   (* 13 *) Eval [7]; Bind [8];
   (* 14 *) Eval [7]; Bind [9];
   (* 15 *) Eval [7]; Bind [10];
   (* 16 *) Eval [7]; Bind [11];
   (* 17 *) Eval [7]; Bind [12];
   (* 18 *) Eval [7]; Bind [13];
   (* 19 *) Eval [7]; Bind [14];
   (* 20 *) Eval [7]; Bind [15];
   (* 21 *) Eval [7]; Bind [16];
   (* 22 *) Eval [7]; Bind [17];
   (* 23 *) Eval [7]; Bind [18];
   (* 26 *) Eval [8]; Bind [19];
   (* 27 *) Eval [8]; Bind [20];
   (* 28 *) Eval []; Bind [21];
   (* 29 *) Eval [21]; If Opaque [Eval [3;19;20]] []; Bind [22];
   (* 32 *) Eval [5]; Bind [23];
   (* 33 *) Eval [23]; Bind [24];
   (* 34 *) Eval [23]; Bind [25];
   (* 35 *) Eval [23]; Bind [26];
   (* 38 *) Eval [5]; Bind [27];
   (* 39 *) Eval [27]; Bind [28];
   (* 40 *) Eval [27]; Bind [29];
   (* 41 *) Eval [27]; Bind [30];
   (* 42 *) Eval [27]; Bind [31];
   (* 43 *) Eval [27]; Bind [32];
   (* 44 *) Eval [27]; Bind [33];
   (* 45 *) Eval [27]; Bind [34];
   (* 48 *) Eval [5]; Bind [35];
   (* 49 *) Eval [35]; Bind [36];
   (* 50 *) Eval [35]; Bind [37];
   (* 51 *) Eval [35]; Bind [38];
   (* 52 *) Eval [35]; Bind [39];
   (* 53 *) Eval [35]; Bind [40];
   (* 54 *) Eval [35]; Bind [41];
   (* 57 *) Eval [5]; Bind [42];
   (* 58 *) Eval [42]; Bind [43];
   (* 59 *) Eval [42]; Bind [44];
   (* 60 *) Eval [42]; Bind [45];
   (* 61 *) Eval [42]; Bind [46];
   (* 62 *) Eval [42]; Bind [47];
   (* 64 *) Eval []; Bind [48];
   (* 65 *) Eval [22]; Loop [Bind [49;50];
    (* 66 *) Eval []; Bind [51];
    (* 68 *) Eval [50]; Loop [Bind [52];
     (* 69 *) Eval [52]; Bind [53];
     (* 70 *) Eval []; Bind [54];
     (* 71 *) Eval [3;8;52]; Bind [55];
     (* 72 *) Eval [1;8;55;9;10;11;12;13;14;15;16;17;18]; Bind [56];
     (* 79 *) Eval [56;53];
     (* 80 *) Eval [54;56;6]; Bind [54];
     (* 81 *) Eval [6];
     (* 83 *) Eval [3;24;52]; Bind [55];
     (* 84 *) Eval [1;24;55;25;26]; Bind [57];
     (* 85 *) Eval [57;53];
     (* 86 *) Eval [54;57;6]; Bind [54];
     (* 87 *) Eval [6];
     (* 89 *) Eval [3;28;52]; Bind [55];
     (* 90 *) Eval [1;28;55;29;30;31;32;33;34]; Bind [58];
     (* 93 *) Eval [58;53];
     (* 94 *) Eval [54;58;6]; Bind [54];
     (* 95 *) Eval [6];
     (* 97 *) Eval [3;36;52]; Bind [55];
     (* 98 *) Eval [1;36;55;37;38;40;41;39]; Bind [59];
     (* 100 *) Eval [59;53];
     (* 101 *) Eval [54;59;6]; Bind [54];
     (* 102 *) Eval [6];
     (* 104 *) Eval [3;43;52]; Bind [55];
     (* 105 *) Eval [1;43;55;46;47;44;45]; Bind [60];
     (* 108 *) Eval [60;53];
     (* 109 *) Eval [54;60;6]; Bind [54];
     (* 110 *) Eval [6];
     (* 112 *) Eval [54;53];
     (* 113 *) Eval [51;53]];
    (* 114 *) Eval [51;48;49]];
   (* 116 *) Eval []; Bind [61];
   (* 117 *) Eval [2;48;61];
   (* 119 *) Eval [48]; Bind [62];
   (* 120 *) Eval [48]; Bind [63];
   (* 121 *) Eval [48]; Bind [64];
   (* 122 *) Eval [48]; Bind [65];
   (* 123 *) Eval [48]; Bind [66];
   (* 124 *) Eval [4;62;63;64;65;66]] |}.

(** runs/HC_eilat_July_2018/ecncoding_data.py:1-34. *)
Definition py_runs_HC_eilat_July_2018_ecncoding_data : file := {| f_name := "runs/HC_eilat_July_2018/ecncoding_data.py";
  f_vars := ["pickle"; "Bits"; "EncoderWiFi"; "random"; "encode_data"; "WiFiSpecCode"; "enc"; "encode_data.binary_data"; "encode_data.buffers"
    ; "encode_data.encoded"; "encode_data.f"; "encode_data.hc_tx"; "encode_data.i"; "encode_data.pad_len"; "encode_data.padded"
    ; "encode_data.partial"; "encode_data.encoder"; "data"];
  f_body :=
   [(* 1 *) Eval []; Bind [0];
   (* 2 *) Eval []; Bind [1];
   (* 3 *) Eval []; Bind [2];
   (* 4 *) Eval []; Bind [3];
   (* 7 *) Eval [2;1]; Bind [4];
   (* 30 *) 
   (* 31 *) Eval []; Bind [5];
   (* 32 *) Eval [2;5]; Bind [6];
   (* 33 *) Eval [4]; Loop [Call [7;8;9;10;11;12;13;14;15] [16] [(* 8 *) Eval []; Bind [10];
     (* 9 *) Eval [0;10]; Bind [11];
     (* 11 *) Eval [11]; If Opaque [Eval [1]] []; Bind [8];
     (* 12 *) Eval []; Bind [9];
     (* 13 *) Eval [8]; Loop [Bind [7];
      (* 14 *) Eval [7;16]; If Opaque [(* 15 *) Eval [16;7]; Bind [13];
       (* 16 *) Eval [7;1;3;13]; Bind [14];
       (* 17 *) Eval [9;16;14]] [(* 19 *) Eval [7;16]; Loop [Bind [12];
        (* 20 *) Eval [7;12;16]; Bind [15];
        (* 21 *) Eval [9;16;15]];
       (* 23 *) Eval [12;16;7]; If Opaque [(* 24 *) Eval [16;7;12]; Bind [13];
        (* 25 *) Eval [7;12;16;1;3;13]; Bind [14];
        (* 26 *) Eval [9;16;14]] []]];
     (* 27 *) Eval [9]; Return]]; Eval [6]; Bind [17]] |}.

(** runs/HC_eilat_July_2018/simluated_data_entropy_bf_decoders.py:1-355. *)
Definition py_runs_HC_eilat_July_2018_simluated_data_entropy_bf_decoders : file := {| f_name := "runs/HC_eilat_July_2018/simluated_data_entropy_bf_decoders.py";
  f_vars := ["pickle"; "Bits"; "np"; "EncoderWiFi"; "WiFiSpecCode"; "DecoderWiFi"; "WbfDecoder"; "WbfVariant"; "awgn_llr"
    ; "ClassifyingEntropyDecoder"; "hamming_distance"; "Any"; "plt"; "argparse"; "datetime"; "os"; "Pool"; "savemat"; "lzma"
    ; "pd"; "setup_logger"; "shutil"; "erfc"; "parser"; "args"; "ldpc_iterations"; "thr"; "processes"; "f"; "hc_tx"; "hc_bin_data"
    ; "n"; "window_len"; "rng"; "spec"; "encoder"; "h"; "encoded"; "binary_data"; "pad_len"; "padded"; "_"; "model_length"
    ; "logger"; "simulation_step"; "timestamp"; "path"; "cmd"; "snr_db"; "snr_linear"; "pool"; "simulation_step.baseband"
    ; "simulation_step.channel"; "simulation_step.channel_llr"; "simulation_step.corrupted"; "simulation_step.d"; "simulation_step.decoded_entropy_mwbf"
    ; "simulation_step.decoded_entropy_mwbf_df"; "simulation_step.decoded_entropy_mwbf_no_loop"; "simulation_step.decoded_entropy_mwbf_no_loop_df"
    ; "simulation_step.decoded_entropy_wbf"; "simulation_step.decoded_entropy_wbf_df"; "simulation_step.decoded_ms"; "simulation_step.decoded_ms_df"
    ; "simulation_step.decoded_mwbf"; "simulation_step.decoded_mwbf_df"; "simulation_step.decoded_mwbf_no_loop"; "simulation_step.decoded_mwbf_no_loop_df"
    ; "simulation_step.decoded_wbf"; "simulation_step.decoded_wbf_df"; "simulation_step.errors"; "simulation_step.f"; "simulation_step.info_errors"
    ; "simulation_step.k"; "simulation_step.m"; "simulation_step.ms_decoder"; "simulation_step.mwbf_decoder"; "simulation_step.mwbf_decoder_no_loop"
    ; "simulation_step.mwbf_entropy_decoder"; "simulation_step.mwbf_entropy_decoder_no_loop"; "simulation_step.nn"; "simulation_step.noise"
    ; "simulation_step.noise_power"; "simulation_step.noisy"; "simulation_step.parity_errors"; "simulation_step.rx"; "simulation_step.sigma"
    ; "simulation_step.snr_linear"; "simulation_step.step_results"; "simulation_step.timestamp"; "simulation_step.tx_idx"
    ; "simulation_step.wbf_decoder"; "simulation_step.wbf_entropy_decoder"; "simulation_step.zipped"; "simulation_step.p"
    ; "results"; "raw_ber"; "ms_ber"; "wbf_decoder_ber"; "mwbf_decoder_ber"; "mwbf_no_loop_decoder_ber"; "entropy_wbf_decoder_ber"
    ; "entropy_mwbf_decoder_ber"; "entropy_mwbf_no_loop_decoder_ber"; "fig"; "figure"; "ms_buffer_success_rate"; "wbf_buffer_success_rate"
    ; "mwbf_buffer_success_rate"; "mwbf_no_loop_buffer_success_rate"; "entropy_wbf_buffer_success_rate"; "entropy_mwbf_buffer_success_rate"
    ; "entropy_mwbf_no_loop_buffer_success_rate"; "summary"; "step"; "e"];
  f_body :=
   [(* 1 *) Eval []; Bind [0];
   (* 2 *) Eval []; Bind [1];
   (* 3 *) Eval []; Bind [2];
   (* 4 *) Eval []; Bind [3];
   (* 5 *) Eval []; Bind [4];
   (* 6 *) Eval []; Bind [5;6;7;8];
   (* 7 *) Eval []; Bind [9];
   (* 8 *) Eval []; Bind [10];
   (* 9 *) Eval []; Bind [11];
   (* 10 *) Eval []; Bind [12];
   (* 11 *) Eval []; Bind [13];
   (* 12 *) Eval []; Bind [14];
   (* 13 *) Eval []; Bind [15];
   (* 14 *) Eval []; Bind [16];
   (* 15 *) Eval []; Bind [17];
   (* 16 *) Eval []; Bind [18];
   (* 17 *) Eval []; Bind [19];
   (* 18 *) Eval []; Bind [20];
   (* 19 *) Eval []; Bind [21];
   (* 20 *) Eval []; Bind [22];
   (* 22 *) Eval [13]; Bind [23];
   (* 23 *) Eval [23];
   (* 24 *) Eval [23];
   (* 25 *) Eval [23];
   (* 26 *) Eval [23];
   (* 27 *) Eval [23];
   (* 28 *) Eval [23];
   (* 29 *) Eval [23];
   (* 30 *) Eval [23];
   (* 31 *) Eval [23];
   (* 32 *) Eval [23];
   (* 33 *) Eval [23];
   (* 34 *) Eval [23];
   (* 36 *) Eval [23]; Bind [24];
   (* 38 *) Eval [24]; Bind [25];
   (* 39 *) Eval [24]; Bind [26];
   (* 40 *) Eval [24]; If Opaque [Eval [24]] []; Bind [27];
   (* 42 *) Eval []; Bind [28];
   (* 43 *) Eval [0;28]; Bind [29];
   (* 45 *) Eval [29]; If Opaque [Eval [1]] []; Bind [30];
   (* 46 *) Eval [24]; If Opaque [Eval [24]] [Eval [30]]; Bind [31];
   (* 47 *) Eval [24]; If Opaque [Eval [24]] []; Bind [32];
   (* 50 *) Eval [2]; Bind [33];
   (* 52 *) Eval [4]; Bind [34];
   (* 53 *) Eval [3;34]; Bind [35];
   (* 54 *) Eval [35]; Bind [36];
   (* 55 *) Eval []; Bind [37];
   (* 56 *) Eval [30;31]; Loop [Bind [38];
    (* 57 *) Eval [35;38]; Bind [39];
    (* 58 *) Eval [2;38;1;33;39]; Bind [40];
    (* 59 *) Eval [37;35;40]];
   (* 61 *) Eval [24]; Loop [Bind [41];
    (* 62 *) Eval [37]];
   (* 63 *) Eval [24]; If Opaque [Eval [35]] [Eval [35]]; Bind [42];
   (* 64 *) Eval [37]; Bind [31];
   (* 72 *) Eval [20;15]; Bind [43];
   (* 75 *) Eval [11]; Bind [44];
   (* 238 *) 
   (* 239 *) Eval [14]; Bind [45];
   (* 242 *) Eval [15;45]; Bind [46];
   (* 244 *) Eval [43];
   (* 245 *) Eval [43;31];
   (* 246 *) Eval [43;24];
   (* 247 *) Eval [43;24];
   (* 248 *) Eval [43;24];
   (* 249 *) Eval [43;24];
   (* 250 *) Eval [43;25];
   (* 251 *) Eval [43;26];
   (* 252 *) Eval [43;24];
   (* 253 *) Eval [43;24];
   (* 254 *) Eval [43;24];
   (* 255 *) Eval [43;24];
   (* 256 *) Eval [43;32];
   (* 258 *) Eval [24;25;26]; Bind [47];
   (* 263 *) Eval [32]; If Opaque [(* 264 *) Eval [47;32]; Bind [47]] [(* 266 *) Eval [47]; Bind [47]];
   (* 267 *) Eval [24]; If Opaque [(* 268 *) Eval [47;31]; Bind [47]] [];
   (* 269 *) Eval [27]; If Opaque [(* 270 *) Eval [47;27]; Bind [47]] [];
   (* 272 *) Eval [15;46];
   (* 273 *) Eval [15;46]; Bind [28];
   (* 274 *) Eval [28;47];
   (* 275 *) Eval [43;47];
   (* 277 *) Try [(* 278 *) Eval [2;24]; Bind [48];
    (* 279 *) Eval [2;48]; Bind [49];
    (* 281 *) Eval [16;27]; Bind [50];
    (* 282 *) Eval [50;44]; Loop [Call [51;52;53;54;55;56;57;58;59;60;61;62;63;64;65;66;67;68;69;70;71;72;73;74;75;76;77;78;79;80;81;82;83;84;85;86;87;88;89;90;91;92;93] [94] [(* 86 *) Eval [94]; Bind [87];
      (* 87 *) Eval [87]; Bind [82];
      (* 88 *) Eval [2;82]; Bind [86];
      (* 89 *) Eval [8;86]; Bind [52];
      (* 90 *) Eval [22;2;87]; Bind [94];
      (* 91 *) Eval [2;31;35]; Bind [70];
      (* 93 *) Eval [5;34]; Bind [75];
      (* 94 *) Eval [36]; Bind [74;80];
      (* 95 *) Eval [80;74]; Bind [73];
      (* 96 *) Eval [94;80;25]; Bind [25];
      (* 97 *) Eval [6;36;25;7;2;73;74]; Bind [91];
      (* 99 *) Eval [9;6;36;25;7;2;73;74;42;26;32;24;94]; Bind [92];
      (* 104 *) Eval [6;36;25;7;2;73;74]; Bind [76];
      (* 106 *) Eval [9;6;36;25;7;2;73;74;42;26;32;24;94]; Bind [78];
      (* 111 *) Eval [6;36;25;7;2;73;74]; Bind [77];
      (* 113 *) Eval [9;6;36;25;7;2;73;74;42;26;32;24;94]; Bind [79];
      (* 119 *) Eval []; Bind [62];
      (* 120 *) Eval []; Bind [68];
      (* 121 *) Eval []; Bind [60];
      (* 122 *) Eval []; Bind [64];
      (* 123 *) Eval []; Bind [56];
      (* 124 *) Eval []; Bind [66];
      (* 125 *) Eval []; Bind [58];
      (* 127 *) Eval [2;31;35]; Bind [85];
      (* 129 *) Eval [30;31]; Bind [88];
      (* 130 *) Eval [31]; Loop [Bind [90];
       (* 132 *) Eval [2;37;90]; Bind [51];
       (* 134 *) Eval [86;33;51]; Bind [81];
       (* 136 *) Eval [51;81]; Bind [83];
       (* 137 *) Eval [52;83]; Bind [53];
       (* 138 *) Eval [83]; Bind [54];
       (* 139 *) Eval [37;90;54;70];
       (* 140 *) Eval [54;85;90];
       (* 141 *) Eval [75;53]; Bind [55];
       (* 142 *) Eval [62;55;10;37;90];
       (* 143 *) Eval [91;83]; Bind [55];
       (* 144 *) Eval [68;55;10;37;90];
       (* 145 *) Eval [92;83]; Bind [55];
       (* 146 *) Eval [60;55;10;37;90];
       (* 147 *) Eval [76;83]; Bind [55];
       (* 148 *) Eval [64;55;10;37;90];
       (* 149 *) Eval [78;83]; Bind [55];
       (* 150 *) Eval [56;55;10;37;90];
       (* 151 *) Eval [77;83]; Bind [55];
       (* 152 *) Eval [66;55;10;37;90];
       (* 153 *) Eval [79;83]; Bind [55];
       (* 154 *) Eval [58;55;10;37;90];
       (* 155 *) Eval [43;94;90]];
      (* 156 *) Eval [43;94;62;31];
      (* 157 *) Eval [43;94;68;31];
      (* 158 *) Eval [43;94;60;31];
      (* 160 *) Eval [43;94;64;31];
      (* 161 *) Eval [43;94;56;31];
      (* 163 *) Eval [43;94;66;31];
      (* 165 *) Eval [43;94;58;31];
      (* 168 *) Eval [2;70;35]; Bind [72];
      (* 169 *) Eval [2;70;35]; Bind [84];
      (* 170 *) Eval [2;70;35;31;88];
      (* 171 *) Eval [37;85;70;72;84]; If Opaque [Eval [2]] []; Bind [93];
      (* 173 *) Eval [19;93;88];
      (* 176 *) Eval [37;88];
      (* 177 *) Eval [31;88];
      (* 178 *) Eval [25;88];
      (* 181 *) Eval [19;62]; Bind [63];
      (* 185 *) Eval [63;88];
      (* 188 *) Eval [19;68]; Bind [69];
      (* 190 *) Eval [69;88];
      (* 191 *) Eval [19;60]; Bind [61];
      (* 193 *) Eval [61;88];
      (* 196 *) Eval [19;64]; Bind [65];
      (* 198 *) Eval [65;88];
      (* 199 *) Eval [19;56]; Bind [57];
      (* 203 *) Eval [57;88];
      (* 205 *) Eval [19;66]; Bind [67];
      (* 207 *) Eval [67;88];
      (* 208 *) Eval [19;58]; Bind [59];
      (* 212 *) Eval [59;88];
      (* 215 *) Eval [62;31;88];
      (* 216 *) Eval [62;31;37;88];
      (* 217 *) Eval [68;31;88];
      (* 218 *) Eval [68;31;37;88];
      (* 219 *) Eval [64;31;88];
      (* 220 *) Eval [64;31;37;88];
      (* 221 *) Eval [66;31;88];
      (* 222 *) Eval [66;31;37;88];
      (* 223 *) Eval [60;31;88];
      (* 224 *) Eval [60;31;37;88];
      (* 225 *) Eval [56;31;88];
      (* 226 *) Eval [56;31;37;88];
      (* 227 *) Eval [58;31;88];
      (* 228 *) Eval [58;31;37;88];
      (* 231 *) Eval [14]; Bind [89];
      (* 233 *) Eval [15;89;94]; Bind [71];
      (* 234 *) Eval [0;88;71];
      (* 235 *) Eval [88]; Return]]; Eval [49;11]; Bind [95];
    (* 285 *) Eval [18;15;46;45]; Bind [28];
    (* 288 *) Eval [0;95;28];
    (* 289 *) Eval [43];
    (* 291 *) Eval [2;95]; Bind [96];
    (* 292 *) Eval [2;95]; Bind [97];
    (* 293 *) Eval [2;95]; Bind [98];
    (* 294 *) Eval [2;95]; Bind [99];
    (* 295 *) Eval [2;95]; Bind [100];
    (* 296 *) Eval [2;95]; Bind [101];
    (* 297 *) Eval [2;95]; Bind [102];
    (* 298 *) Eval [2;95]; Bind [103];
    (* 299 *) Eval [12]; Bind [104];
    (* 300 *) Eval [12;96;97;103];
    (* 301 *) Eval [12];
    (* 302 *) Eval [12];
    (* 303 *) Eval [104;15;46];
    (* 305 *) Eval [12]; Bind [105];
    (* 306 *) Eval [2;95]; Bind [106];
    (* 307 *) Eval [2;95]; Bind [107];
    (* 308 *) Eval [2;95]; Bind [108];
    (* 309 *) Eval [2;95]; Bind [109];
    (* 310 *) Eval [2;95]; Bind [110];
    (* 311 *) Eval [2;95]; Bind [111];
    (* 312 *) Eval [2;95]; Bind [112];
    (* 313 *) Eval [12;96;106;112];
    (* 314 *) Eval [12];
    (* 315 *) Eval [12];
    (* 316 *) Eval [105;15;46];
    (* 317 *) Eval [43];
    (* 319 *) Eval [24;96;97;98;99;100;101;102;103;106;107;108;109;110;111;112;49;48]; Bind [113];
    (* 332 *) Eval [15;46;45]; Bind [28];
    (* 333 *) Eval [0;113;28];
    (* 334 *) Eval [17;15;46;45;113];
    (* 335 *) Eval [43];
    (* 337 *) Eval [95]; Loop [Bind [114];
     (* 338 *) Eval [114];
     (* 339 *) Eval [114];
     (* 340 *) Eval [114];
     (* 341 *) Eval [114];
     (* 342 *) Eval [114];
     (* 343 *) Eval [114];
     (* 344 *) Eval [114];
     (* 345 *) Eval [114]];
    (* 347 *) Eval [95;113];
    (* 348 *) Eval [17;15;46;45;113];
    (* 350 *) Eval [43];
    (* 351 *) Eval [21;15;46]] [Bind [115];
    (* 353 *) Eval [43;115];
    (* 354 *) Eval [21;15;46];
    (* 355 *) Eval [115]; Raise]] |}.

(** runs/HC_eilat_July_2018/simulate_gallager_bf.py:1-261. *)
Definition py_runs_HC_eilat_July_2018_simulate_gallager_bf : file := {| f_name := "runs/HC_eilat_July_2018/simulate_gallager_bf.py";
  f_vars := ["pickle"; "Bits"; "np"; "EncoderWiFi"; "WiFiSpecCode"; "GalBfDecoder"; "bsc_llr"; "ClassifyingEntropyDecoder"
    ; "hamming_distance"; "Any"; "plt"; "argparse"; "datetime"; "os"; "Pool"; "savemat"; "lzma"; "pd"; "setup_logger"; "shutil"
    ; "parser"; "args"; "ldpc_iterations"; "thr"; "f"; "hc_tx"; "hc_bin_data"; "n"; "window_len"; "rng"; "spec"; "encoder"
    ; "h"; "encoded"; "binary_data"; "pad_len"; "padded"; "_"; "model_length"; "logger"; "simulation_step"; "timestamp"; "path"
    ; "cmd"; "bit_flip_p"; "simulation_step.channel"; "simulation_step.channel_llr"; "simulation_step.corrupted"; "simulation_step.d"
    ; "simulation_step.decoded_entropy_galbf"; "simulation_step.decoded_entropy_galbf_df"; "simulation_step.decoded_entropy_galbf_forcing"
    ; "simulation_step.decoded_entropy_galbf_forcing_df"; "simulation_step.decoded_galbf"; "simulation_step.decoded_galbf_df"
    ; "simulation_step.errors"; "simulation_step.f"; "simulation_step.galbf_decoder"; "simulation_step.galbf_entropy_decoder"
    ; "simulation_step.galbf_entropy_decoder_forcing"; "simulation_step.info_errors"; "simulation_step.k"; "simulation_step.m"
    ; "simulation_step.nn"; "simulation_step.no_errors"; "simulation_step.parity_errors"; "simulation_step.rx"; "simulation_step.step_results"
    ; "simulation_step.timestamp"; "simulation_step.tx_idx"; "simulation_step.zipped"; "simulation_step.p"; "results"; "raw_ber"
    ; "galbf_decoder_ber"; "galbf_entropy_decoder_ber"; "galbf_entropy_forcing_decoder_ber"; "fig"; "figure"; "galbf_buffer_success_rate"
    ; "galbf_entropy_buffer_success_rate"; "galbf_entropy_forcing_buffer_success_rate"; "summary"; "step"; "e"];
  f_body :=
   [(* 1 *) Eval []; Bind [0];
   (* 2 *) Eval []; Bind [1];
   (* 3 *) Eval []; Bind [2];
   (* 4 *) Eval []; Bind [3];
   (* 5 *) Eval []; Bind [4];
   (* 6 *) Eval []; Bind [5;6];
   (* 7 *) Eval []; Bind [7];
   (* 8 *) Eval []; Bind [8];
   (* 9 *) Eval []; Bind [9];
   (* 10 *) Eval []; Bind [10];
   (* 11 *) Eval []; Bind [11];
   (* 12 *) Eval []; Bind [12];
   (* 13 *) Eval []; Bind [13];
   (* 14 *) Eval []; Bind [14];
   (* 15 *) Eval []; Bind [15];
   (* 16 *) Eval []; Bind [16];
   (* 17 *) Eval []; Bind [17];
   (* 18 *) Eval []; Bind [18];
   (* 19 *) Eval []; Bind [19];
   (* 21 *) Eval [11]; Bind [20];
   (* 22 *) Eval [20];
   (* 23 *) Eval [20];
   (* 24 *) Eval [20];
   (* 25 *) Eval [20];
   (* 26 *) Eval [20];
   (* 27 *) Eval [20];
   (* 28 *) Eval [20];
   (* 29 *) Eval [20];
   (* 30 *) Eval [20];
   (* 31 *) Eval [20];
   (* 32 *) Eval [20];
   (* 34 *) Eval [20]; Bind [21];
   (* 36 *) Eval [21]; Bind [22];
   (* 37 *) Eval [21]; Bind [23];
   (* 40 *) Eval []; Bind [24];
   (* 41 *) Eval [0;24]; Bind [25];
   (* 43 *) Eval [25]; If Opaque [Eval [1]] []; Bind [26];
   (* 44 *) Eval [21]; If Opaque [Eval [21]] [Eval [26]]; Bind [27];
   (* 45 *) Eval [21]; If Opaque [Eval [21]] []; Bind [28];
   (* 48 *) Eval [2]; Bind [29];
   (* 50 *) Eval [4]; Bind [30];
   (* 51 *) Eval [3;30]; Bind [31];
   (* 52 *) Eval [31]; Bind [32];
   (* 53 *) Eval []; Bind [33];
   (* 54 *) Eval [26;27]; Loop [Bind [34];
    (* 55 *) Eval [31;34]; Bind [35];
    (* 56 *) Eval [2;34;1;29;35]; Bind [36];
    (* 57 *) Eval [33;31;36]];
   (* 59 *) Eval [21]; Loop [Bind [37];
    (* 60 *) Eval [33]];
   (* 61 *) Eval [21]; If Opaque [Eval [31]] [Eval [31]]; Bind [38];
   (* 62 *) Eval [33]; Bind [27];
   (* 70 *) Eval [18;13]; Bind [39];
   (* 73 *) Eval [9]; Bind [40];
   (* 166 *) 
   (* 167 *) Eval [12]; Bind [41];
   (* 170 *) Eval [13;41]; Bind [42];
   (* 172 *) Eval [39];
   (* 173 *) Eval [39;27];
   (* 174 *) Eval [39;21];
   (* 175 *) Eval [39;21];
   (* 176 *) Eval [39;21];
   (* 177 *) Eval [39;22];
   (* 178 *) Eval [39;23];
   (* 179 *) Eval [39;21];
   (* 180 *) Eval [39;21];
   (* 181 *) Eval [39;21];
   (* 182 *) Eval [39;21];
   (* 183 *) Eval [39;28];
   (* 185 *) Eval [21;22;23]; Bind [43];
   (* 190 *) Eval [28]; If Opaque [(* 191 *) Eval [43;28]; Bind [43]] [(* 193 *) Eval [43]; Bind [43]];
   (* 194 *) Eval [21]; If Opaque [(* 195 *) Eval [43;27]; Bind [43]] [];
   (* 197 *) Eval [13;42];
   (* 198 *) Eval [13;42]; Bind [24];
   (* 199 *) Eval [24;43];
   (* 200 *) Eval [39;43];
   (* 202 *) Try [(* 203 *) Eval [2;21]; Bind [44];
    (* 207 *) Eval [40]; Loop [Call [45;46;47;48;49;50;51;52;53;54;55;56;57;58;59;60;61;62;63;64;65;66;67;68;69;70] [71] [(* 84 *) Eval [6;71]; Bind [45];
      (* 85 *) Eval [31;71]; Bind [64];
      (* 86 *) Eval [2;27]; If Opaque [Eval [29;31;64]] []; Bind [55];
      (* 90 *) Eval [32]; Bind [62;63];
      (* 91 *) Eval [63;62]; Bind [61];
      (* 92 *) Eval [5;32;22;2;61;62]; Bind [57];
      (* 93 *) Eval [7;5;32;22;2;61;62;38;23;28;21;71]; Bind [58];
      (* 98 *) Eval [7;5;32;22;2;61;62;38;23;28;21;71]; Bind [59];
      (* 104 *) Eval []; Bind [53];
      (* 105 *) Eval []; Bind [49];
      (* 106 *) Eval []; Bind [51];
      (* 107 *) Eval [2;27;31]; Bind [66];
      (* 109 *) Eval [26;27]; Bind [67];
      (* 110 *) Eval [27]; Loop [Bind [69];
       (* 111 *) Eval [2;33;69]; Bind [47];
       (* 112 *) Eval [47;55;69];
       (* 113 *) Eval [45;47]; Bind [46];
       (* 114 *) Eval [47;66;69];
       (* 115 *) Eval [57;46]; Bind [48];
       (* 116 *) Eval [53;48;8;33;69];
       (* 117 *) Eval [58;46]; Bind [48];
       (* 118 *) Eval [49;48;8;33;69];
       (* 119 *) Eval [59;46]; Bind [48];
       (* 120 *) Eval [51;48;8;33;69];
       (* 121 *) Eval [39;71;69]];
      (* 122 *) Eval [39;71;53;27];
      (* 123 *) Eval [39;71;49;27];
      (* 125 *) Eval [39;71;51;27];
      (* 128 *) Eval [2;55;31]; Bind [60];
      (* 129 *) Eval [2;55;31]; Bind [65];
      (* 130 *) Eval [64;31;67];
      (* 131 *) Eval [33;66;55;60;65]; If Opaque [Eval [2]] []; Bind [70];
      (* 133 *) Eval [17;70;67];
      (* 136 *) Eval [33;67];
      (* 137 *) Eval [27;67];
      (* 138 *) Eval [22;67];
      (* 141 *) Eval [17;53]; Bind [54];
      (* 143 *) Eval [54;67];
      (* 144 *) Eval [17;49]; Bind [50];
      (* 146 *) Eval [50;67];
      (* 147 *) Eval [17;51]; Bind [52];
      (* 149 *) Eval [52;67];
      (* 152 *) Eval [53;27;67];
      (* 153 *) Eval [53;27;33;67];
      (* 154 *) Eval [49;27;67];
      (* 155 *) Eval [49;27;33;67];
      (* 156 *) Eval [51;27;67];
      (* 157 *) Eval [51;27;33;67];
      (* 159 *) Eval [12]; Bind [68];
      (* 161 *) Eval [13;68;71]; Bind [56];
      (* 162 *) Eval [0;67;56];
      (* 163 *) Eval [67]; Return]]; Eval [44;9]; Bind [72];
    (* 209 *) Eval [16;13;42;41]; Bind [24];
    (* 212 *) Eval [0;72;24];
    (* 213 *) Eval [39];
    (* 215 *) Eval [2;72]; Bind [73];
    (* 216 *) Eval [2;72]; Bind [74];
    (* 217 *) Eval [2;72]; Bind [75];
    (* 218 *) Eval [2;72]; Bind [76];
    (* 219 *) Eval [10]; Bind [77];
    (* 220 *) Eval [10;73;74;75;76];
    (* 221 *) Eval [10];
    (* 222 *) Eval [10];
    (* 223 *) Eval [77;13;42];
    (* 225 *) Eval [10]; Bind [78];
    (* 226 *) Eval [2;72]; Bind [79];
    (* 227 *) Eval [2;72]; Bind [80];
    (* 228 *) Eval [2;72]; Bind [81];
    (* 229 *) Eval [10;73;79;80;81];
    (* 230 *) Eval [10];
    (* 231 *) Eval [10];
    (* 232 *) Eval [78;13;42];
    (* 233 *) Eval [39];
    (* 235 *) Eval [21;73;74;75;76;79;80;81]; Bind [82];
    (* 242 *) Eval [13;42;41]; Bind [24];
    (* 243 *) Eval [0;82;24];
    (* 244 *) Eval [15;13;42;41;82];
    (* 245 *) Eval [39];
    (* 247 *) Eval [72]; Loop [Bind [83];
     (* 248 *) Eval [83];
     (* 249 *) Eval [83];
     (* 250 *) Eval [83];
     (* 251 *) Eval [83]];
    (* 253 *) Eval [72;82];
    (* 254 *) Eval [15;13;42;41;82];
    (* 256 *) Eval [39];
    (* 257 *) Eval [19;13;42]] [Bind [84];
    (* 259 *) Eval [39;84];
    (* 260 *) Eval [19;13;42];
    (* 261 *) Eval [84]; Raise]] |}.

(** runs/HC_eilat_July_2018/simulated_data_classifying_dude_decoder.py:1-281. *)
Definition py_runs_HC_eilat_July_2018_simulated_data_classifying_dude_decoder : file := {| f_name := "runs/HC_eilat_July_2018/simulated_data_classifying_dude_decoder.py";
  f_vars := ["pickle"; "Bits"; "BitArray"; "np"; "EncoderWiFi"; "WiFiSpecCode"; "bsc_llr"; "DecoderWiFi"; "ClassifyingDudeDecoder"
    ; "hamming_distance"; "Any"; "plt"; "argparse"; "datetime"; "os"; "Pool"; "savemat"; "lzma"; "pd"; "setup_logger"; "shutil"
    ; "parser"; "args"; "ldpc_iterations"; "thr"; "clipping_factor"; "processes"; "f"; "hc_tx"; "hc_bin_data"; "n"; "rng"
    ; "bit_flip_p"; "spec"; "encoder"; "encoded"; "binary_data"; "pad_len"; "padded"; "_"; "model_length"; "logger"; "simulation_step"
    ; "timestamp"; "path"; "cmd"; "pool"; "simulation_step.channel"; "simulation_step.channel_llr"; "simulation_step.corrupted"
    ; "simulation_step.d"; "simulation_step.decoded_dude"; "simulation_step.decoded_dude_df"; "simulation_step.decoded_ldpc"
    ; "simulation_step.decoded_ldpc_df"; "simulation_step.dude_decoder"; "simulation_step.errors"; "simulation_step.f"; "simulation_step.idx"
    ; "simulation_step.info_errors"; "simulation_step.ldpc_decoder"; "simulation_step.no_errors"; "simulation_step.parity_errors"
    ; "simulation_step.rx"; "simulation_step.step_results"; "simulation_step.timestamp"; "simulation_step.tx_idx"; "simulation_step.zipped"
    ; "simulation_step.p"; "results"; "raw_ber"; "ldpc_ber"; "dude_ber"; "fig"; "figure"; "ldpc_buffer_success_rate"; "dude_buffer_success_rate"
    ; "summary"; "step"; "e"];
  f_body :=
   [(* 1 *) Eval []; Bind [0];
   (* 2 *) Eval []; Bind [1;2];
   (* 3 *) Eval []; Bind [3];
   (* 4 *) Eval []; Bind [4];
   (* 5 *) Eval []; Bind [5];
   (* 6 *) Eval []; Bind [6;7];
   (* 7 *) Eval []; Bind [8];
   (* 8 *) Eval []; Bind [9];
   (* 9 *) Eval []; Bind [10];
   (* 10 *) Eval []; Bind [11];
   (* 11 *) Eval []; Bind [12];
   (* 12 *) Eval []; Bind [13];
   (* 13 *) Eval []; Bind [14];
   (* 14 *) Eval []; Bind [15];
   (* 15 *) Eval []; Bind [16];
   (* 16 *) Eval []; Bind [17];
   (* 17 *) Eval []; Bind [18];
   (* 18 *) Eval []; Bind [19];
   (* 19 *) Eval []; Bind [20];
   (* 21 *) Eval [12]; Bind [21];
   (* 22 *) Eval [21];
   (* 23 *) Eval [21];
   (* 24 *) Eval [21];
   (* 25 *) Eval [21];
   (* 26 *) Eval [21];
   (* 27 *) Eval [21];
   (* 28 *) Eval [21];
   (* 29 *) Eval [21];
   (* 30 *) Eval [21];
   (* 31 *) Eval [21];
   (* 32 *) Eval [21];
   (* 33 *) Eval [21];
   (* 34 *) Eval [21];
   (* 35 *) Eval [21];
   (* 36 *) Eval [21];
   (* 37 *) Eval [21];
   (* 38 *) Eval [21];
   (* 39 *) Eval [21];
   (* 41 *) Eval [21]; Bind [22];
   (* 43 *) Eval [22]; Bind [23];
   (* 44 *) Eval [22]; Bind [24];
   (* 45 *) Eval [22]; Bind [25];
   (* 46 *) Eval [22]; If Opaque [Eval [22]] []; Bind [26];
   (* 48 *) Eval []; Bind [27];
   (* 49 *) Eval [0;27]; Bind [28];
   (* 51 *) Eval [28;22]; If Opaque [Eval [1]] []; Bind [29];
   (* 52 *) Eval [22]; If Opaque [Eval [22]] [Eval [29]]; Bind [30];
   (* 55 *) Eval [3]; Bind [31];
   (* 56 *) Eval [3;22]; Bind [32];
   (* 58 *) Eval [22]; If (Is "n_clusters" (VInt 1)) [(* 59 *) Eval [5]; Bind [33];
    (* 60 *) Eval [22]] [(* 61 *) Eval [22]; If (Is "n_clusters" (VInt 2)) [(* 62 *) Eval [5]; Bind [33]] [(* 63 *) Eval [22]; If (Is "n_clusters" (VInt 3)) [(* 64 *) Eval [5]; Bind [33]] []]];
   (* 65 *) Eval [4;33]; Bind [34];
   (* 66 *) Eval []; Bind [35];
   (* 67 *) Eval [29;30]; Loop [Bind [36];
    (* 68 *) Eval [22]; If (Is "n_clusters" (VInt 1)) [(* 69 *) Eval [34;36]; Bind [37];
     (* 70 *) Eval [36;1;31;37]; Bind [38];
     (* 71 *) Eval [35;34;38]] [(* 72 *) Eval [22]; If (Is "n_clusters" (VInt 2)) [(* 73 *) Eval [36;1;31;34]; Bind [38];
      (* 74 *) Eval [35;34;38];
      (* 75 *) Eval [35;34;36]] [(* 76 *) Eval [22]; If (Is "n_clusters" (VInt 3)) [(* 77 *) Eval [36;1;31;34]; Bind [38];
       (* 78 *) Eval [35;34;38];
       (* 79 *) Eval [36;1;31;34]; Bind [38];
       (* 80 *) Eval [35;34;38];
       (* 81 *) Eval [36;1;31;34]; Bind [38];
       (* 82 *) Eval [35;34;38]] []]]];
   (* 84 *) Eval [22]; Loop [Bind [39];
    (* 85 *) Eval [35]];
   (* 87 *) Eval [22]; If (Is "model_length" (VStr "info")) [(* 88 *) Eval [34]; Bind [40]] [(* 90 *) Eval [34]; Bind [40]];
   (* 92 *) Eval [35]; Bind [30];
   (* 100 *) Eval [19;14]; Bind [41];
   (* 103 *) Eval [10]; Bind [42];
   (* 184 *) 
   (* 185 *) Eval [13]; Bind [43];
   (* 188 *) Eval [14;43]; Bind [44];
   (* 190 *) Eval [41];
   (* 191 *) Eval [41;30];
   (* 192 *) Eval [41;22];
   (* 193 *) Eval [41;22];
   (* 194 *) Eval [41;22];
   (* 195 *) Eval [41;22];
   (* 196 *) Eval [41;23];
   (* 197 *) Eval [41;24];
   (* 198 *) Eval [41;25];
   (* 199 *) Eval [41;22];
   (* 200 *) Eval [41;22];
   (* 201 *) Eval [41;22];
   (* 202 *) Eval [41;22];
   (* 203 *) Eval [41;22];
   (* 204 *) Eval [41;22];
   (* 205 *) Eval [41;22];
   (* 206 *) Eval [41;22];
   (* 207 *) Eval [41;22];
   (* 208 *) Eval [41;22];
   (* 210 *) Eval [22;23;24;25]; Bind [45];
   (* 216 *) Eval [22]; If Opaque [(* 217 *) Eval [45;30]; Bind [45]] [];
   (* 218 *) Eval [26]; If Opaque [(* 219 *) Eval [45;26]; Bind [45]] [];
   (* 221 *) Eval [13]; Bind [43];
   (* 224 *) Eval [14;44];
   (* 225 *) Eval [14;44]; Bind [27];
   (* 226 *) Eval [27;45];
   (* 227 *) Eval [41;45];
   (* 229 *) Try [(* 230 *) Eval [15;26]; Bind [46];
    (* 231 *) Eval [46;42]; Loop [Call [47;48;49;50;51;52;53;54;55;56;57;58;59;60;61;62;63;64;65;66;67] [68] [(* 111 *) Eval [6;68]; Bind [47];
      (* 112 *) Eval [7;33;23;22]; Bind [60];
      (* 113 *) Eval [8;7;33;23;22;40;25;68;24]; Bind [55];
      (* 120 *) Eval [34;68]; Bind [61];
      (* 121 *) Eval []; Bind [63];
      (* 122 *) Eval []; Bind [53];
      (* 123 *) Eval []; Bind [51];
      (* 124 *) Eval [3;30]; If Opaque [Eval [31;34;61]] []; Bind [56];
      (* 128 *) Eval [29;30]; Bind [64];
      (* 129 *) Eval [30]; Loop [Bind [66];
       (* 131 *) Eval [2;35;66]; Bind [49];
       (* 132 *) Eval [56;66]; Loop [Bind [58];
        (* 133 *) Eval [49;58]];
       (* 134 *) Eval [63;49];
       (* 135 *) Eval [47;3;49]; Bind [48];
       (* 136 *) Eval [60;48]; Bind [50];
       (* 137 *) Eval [53;50;9;35;66];
       (* 138 *) Eval [55;48]; Bind [50];
       (* 139 *) Eval [51;50;9;35;66];
       (* 140 *) Eval [51]; If Opaque [Eval [53]] []; If Opaque [(* 141 *) Eval [41;68;66]] [(* 142 *) Eval [51]; If Opaque [Eval [53]] []; If Opaque [(* 143 *) Eval [41;68;66]] [(* 145 *) Eval [41;68;66]]]];
      (* 146 *) Eval [41;68;53;30;51];
      (* 149 *) Eval [3;56;34]; Bind [59];
      (* 150 *) Eval [3;56;34]; Bind [62];
      (* 151 *) Eval [35;63;56;59;62]; If Opaque [Eval [3]] []; Bind [67];
      (* 153 *) Eval [18;67;64];
      (* 157 *) Eval [61;34;64];
      (* 158 *) Eval [35;64];
      (* 159 *) Eval [30;64];
      (* 160 *) Eval [23;64];
      (* 163 *) Eval [18;51]; Bind [52];
      (* 166 *) Eval [52;64];
      (* 167 *) Eval [18;53]; Bind [54];
      (* 170 *) Eval [54;64];
      (* 172 *) Eval [53;30;64];
      (* 173 *) Eval [53;30;35;64];
      (* 174 *) Eval [51;30;64];
      (* 175 *) Eval [51;30;35;64];
      (* 177 *) Eval [13]; Bind [65];
      (* 179 *) Eval [65;68]; Bind [57];
      (* 180 *) Eval [0;64;57];
      (* 181 *) Eval [64]; Return]]; Eval [32;10]; Bind [69];
    (* 234 *) Eval [17;14;44;43;22]; Bind [27];
    (* 237 *) Eval [0;69;27];
    (* 238 *) Eval [41];
    (* 240 *) Eval [3;69]; Bind [70];
    (* 241 *) Eval [3;69]; Bind [71];
    (* 242 *) Eval [3;69]; Bind [72];
    (* 243 *) Eval [11]; Bind [73];
    (* 244 *) Eval [11;70;71;72];
    (* 245 *) Eval [11];
    (* 246 *) Eval [11];
    (* 247 *) Eval [73;14;44];
    (* 249 *) Eval [11]; Bind [74];
    (* 250 *) Eval [3;69]; Bind [75];
    (* 251 *) Eval [3;69]; Bind [76];
    (* 252 *) Eval [11;70;75;76];
    (* 253 *) Eval [11];
    (* 254 *) Eval [11];
    (* 255 *) Eval [74;14;44];
    (* 256 *) Eval [41];
    (* 258 *) Eval [22;70;71;72;75;76]; Bind [77];
    (* 261 *) Eval [14;44;43;22]; Bind [27];
    (* 262 *) Eval [0;77;27];
    (* 264 *) Eval [16;14;44;43;22;77];
    (* 266 *) Eval [41];
    (* 268 *) Eval [69]; Loop [Bind [78];
     (* 269 *) Eval [78];
     (* 270 *) Eval [78];
     (* 271 *) Eval [78]];
    (* 273 *) Eval [77;69];
    (* 274 *) Eval [16;14;44;43;22;77];
    (* 276 *) Eval [41];
    (* 277 *) Eval [20;14;44]] [Bind [79];
    (* 279 *) Eval [41;79];
    (* 280 *) Eval [20;14;44];
    (* 281 *) Eval [79]; Raise]] |}.

(** runs/HC_eilat_July_2018/simulated_data_classifying_entropy_decoder.py:1-344. *)
Definition py_runs_HC_eilat_July_2018_simulated_data_classifying_entropy_decoder : file := {| f_name := "runs/HC_eilat_July_2018/simulated_data_classifying_entropy_decoder.py";
  f_vars := ["pickle"; "Bits"; "np"; "EncoderWiFi"; "WiFiSpecCode"; "bsc_llr"; "DecoderWiFi"; "WbfDecoder"; "WbfVariant"; "awgn_llr"
    ; "ClassifyingEntropyDecoder"; "hamming_distance"; "Any"; "plt"; "argparse"; "datetime"; "os"; "Pool"; "savemat"; "lzma"
    ; "pd"; "setup_logger"; "shutil"; "erfc"; "parser"; "args"; "ldpc_iterations"; "thr"; "clipping_factor"; "processes"; "f"
    ; "hc_tx"; "hc_bin_data"; "n"; "window_len"; "rng"; "spec"; "encoder"; "h"; "encoded"; "binary_data"; "pad_len"; "padded"
    ; "_"; "model_length"; "logger"; "simulation_step"; "timestamp"; "path"; "cmd"; "bit_flip_p"; "map_arg"; "snr_db"; "snr_linear"
    ; "pool"; "simulation_step.baseband"; "simulation_step.channel"; "simulation_step.channel_llr"; "simulation_step.corrupted"
    ; "simulation_step.d"; "simulation_step.decoded_entropy"; "simulation_step.decoded_entropy_df"; "simulation_step.decoded_ldpc"
    ; "simulation_step.decoded_ldpc_df"; "simulation_step.entropy_decoder"; "simulation_step.errors"; "simulation_step.f"
    ; "simulation_step.info_errors"; "simulation_step.k"; "simulation_step.ldpc_decoder"; "simulation_step.m"; "simulation_step.nn"
    ; "simulation_step.no_errors"; "simulation_step.noise"; "simulation_step.noise_power"; "simulation_step.noisy"; "simulation_step.parity_errors"
    ; "simulation_step.rx"; "simulation_step.sigma"; "simulation_step.snr_linear"; "simulation_step.step_results"; "simulation_step.timestamp"
    ; "simulation_step.tx_idx"; "simulation_step.zipped"; "simulation_step.p"; "results"; "raw_ber"; "ldpc_ber"; "entropy_ber"
    ; "fig"; "figure"; "ldpc_buffer_success_rate"; "entropy_buffer_success_rate"; "summary"; "step"; "e"];
  f_body :=
   [(* 1 *) Eval []; Bind [0];
   (* 2 *) Eval []; Bind [1];
   (* 3 *) Eval []; Bind [2];
   (* 4 *) Eval []; Bind [3];
   (* 5 *) Eval []; Bind [4];
   (* 6 *) Eval []; Bind [5;6;7;8;9];
   (* 7 *) Eval []; Bind [10];
   (* 8 *) Eval []; Bind [11];
   (* 9 *) Eval []; Bind [12];
   (* 10 *) Eval []; Bind [13];
   (* 11 *) Eval []; Bind [14];
   (* 12 *) Eval []; Bind [15];
   (* 13 *) Eval []; Bind [16];
   (* 14 *) Eval []; Bind [17];
   (* 15 *) Eval []; Bind [18];
   (* 16 *) Eval []; Bind [19];
   (* 17 *) Eval []; Bind [20];
   (* 18 *) Eval []; Bind [21];
   (* 19 *) Eval []; Bind [22];
   (* 20 *) Eval []; Bind [23];
   (* 22 *) Eval [14]; Bind [24];
   (* 23 *) Eval [24];
   (* 24 *) Eval [24];
   (* 25 *) Eval [24];
   (* 26 *) Eval [24];
   (* 27 *) Eval [24];
   (* 28 *) Eval [24];
   (* 29 *) Eval [24];
   (* 30 *) Eval [24];
   (* 31 *) Eval [24];
   (* 32 *) Eval [24];
   (* 33 *) Eval [24];
   (* 34 *) Eval [24];
   (* 35 *) Eval [24];
   (* 36 *) Eval [24];
   (* 37 *) Eval [24];
   (* 38 *) Eval [24];
   (* 39 *) Eval [24];
   (* 40 *) Eval [24];
   (* 41 *) Eval [24];
   (* 42 *) Eval [24];
   (* 44 *) Eval [24]; Bind [25];
   (* 46 *) Eval [25]; Bind [26];
   (* 47 *) Eval [25]; Bind [27];
   (* 48 *) Eval [25]; Bind [28];
   (* 49 *) Eval [25]; If Opaque [Eval [25]] []; Bind [29];
   (* 51 *) Eval []; Bind [30];
   (* 52 *) Eval [0;30]; Bind [31];
   (* 54 *) Eval [31;25]; If Opaque [Eval [1]] []; Bind [32];
   (* 55 *) Eval [25]; If Opaque [Eval [25]] [Eval [32]]; Bind [33];
   (* 56 *) Eval [25]; If Opaque [Eval [25]] []; Bind [34];
   (* 59 *) Eval [2]; Bind [35];
   (* 61 *) Eval [25]; If (Is "n_clusters" (VInt 1)) [(* 62 *) Eval [4]; Bind [36];
    (* 63 *) Eval [25]] [(* 64 *) Eval [25]; If (Is "n_clusters" (VInt 2)) [(* 65 *) Eval [4]; Bind [36]] [(* 66 *) Eval [25]; If (Is "n_clusters" (VInt 3)) [(* 67 *) Eval [4]; Bind [36]] []]];
   (* 68 *) Eval [3;36]; Bind [37];
   (* 69 *) Eval [37]; Bind [38];
   (* 70 *) Eval []; Bind [39];
   (* 71 *) Eval [32;33]; Loop [Bind [40];
    (* 72 *) Eval [25]; If (Is "n_clusters" (VInt 1)) [(* 73 *) Eval [37;40]; Bind [41];
     (* 74 *) Eval [2;40;1;35;41]; Bind [42];
     (* 75 *) Eval [39;37;42]] [(* 76 *) Eval [25]; If (Is "n_clusters" (VInt 2)) [(* 77 *) Eval [2;40;1;35;37]; Bind [42];
      (* 78 *) Eval [39;37;42;2;40]] [(* 84 *) Eval [25]; If (Is "n_clusters" (VInt 3)) [(* 85 *) Eval [2;40;1;35;37]; Bind [42];
       (* 86 *) Eval [39;37;42];
       (* 87 *) Eval [2;40;1;35;37]; Bind [42];
       (* 89 *) Eval [39;37;42];
       (* 90 *) Eval [2;40;1;35;37]; Bind [42];
       (* 92 *) Eval [39;37;42]] []]]];
   (* 94 *) Eval [25]; Loop [Bind [43];
    (* 95 *) Eval [39]];
   (* 97 *) Eval [25]; If Opaque [Eval [37]] [Eval [37]]; Bind [44];
   (* 98 *) Eval [39]; Bind [33];
   (* 106 *) Eval [21;16]; Bind [45];
   (* 109 *) Eval [12]; Bind [46];
   (* 233 *) 
   (* 234 *) Eval [15]; Bind [47];
   (* 237 *) Eval [16;47]; Bind [48];
   (* 239 *) Eval [45];
   (* 240 *) Eval [45;33];
   (* 241 *) Eval [45;25];
   (* 242 *) Eval [45;25];
   (* 243 *) Eval [45;25];
   (* 244 *) Eval [45;25];
   (* 245 *) Eval [45;26];
   (* 246 *) Eval [45;27];
   (* 247 *) Eval [45;28];
   (* 248 *) Eval [45;25];
   (* 249 *) Eval [45;25];
   (* 250 *) Eval [45;25];
   (* 251 *) Eval [45;25];
   (* 252 *) Eval [45;25];
   (* 253 *) Eval [45;25];
   (* 254 *) Eval [45;25];
   (* 255 *) Eval [45;25];
   (* 256 *) Eval [45;25];
   (* 257 *) Eval [45;34];
   (* 258 *) Eval [45;25];
   (* 259 *) Eval [45;25];
   (* 261 *) Eval [25;26;27;28]; Bind [49];
   (* 268 *) Eval [34]; If Opaque [(* 269 *) Eval [49;34]; Bind [49]] [(* 271 *) Eval [49]; Bind [49]];
   (* 272 *) Eval [25]; If Opaque [(* 273 *) Eval [49;33]; Bind [49]] [];
   (* 274 *) Eval [29]; If Opaque [(* 275 *) Eval [49;29]; Bind [49]] [];
   (* 277 *) Eval [16;48];
   (* 278 *) Eval [16;48]; Bind [30];
   (* 279 *) Eval [30;49];
   (* 280 *) Eval [45;49];
   (* 282 *) Try [(* 283 *) Eval [25]; If (Is "channel_type" (VStr "bsc")) [(* 284 *) Eval [2;25]; Bind [50];
     (* 285 *) Eval [50]; Bind [51]] [(* 287 *) Eval [2;25]; Bind [52];
     (* 288 *) Eval [2;52]; Bind [53];
     (* 289 *) Eval [53]; Bind [51]];
    (* 291 *) Eval [17;29]; Bind [54];
    (* 292 *) Eval [54;46]; Loop [Call [55;56;57;58;59;60;61;62;63;64;65;66;67;68;69;70;71;72;73;74;75;76;77;78;79;80;81;82;83] [84] [(* 121 *) Eval [25]; If (Is "channel_type" (VStr "bsc")) [(* 122 *) Eval [5;84]; Bind [56];
       (* 123 *) Eval [37;84]; Bind [72];
       (* 124 *) Eval [2;33]; If Opaque [Eval [35;37;72]] []; Bind [65]] [(* 129 *) Eval [84]; Bind [79];
       (* 130 *) Eval [79]; Bind [74];
       (* 131 *) Eval [2;74]; Bind [78];
       (* 132 *) Eval [9;78]; Bind [56];
       (* 133 *) Eval [23;2;79]; Bind [84];
       (* 134 *) Eval [2;33;37]; Bind [65]];
      (* 136 *) Eval [25]; If (Or (Is "dec_type" (VStr "BP")) (Is "dec_type" (VStr "MS"))) [(* 137 *) Eval [6;36;26;25]; Bind [69];
       (* 138 *) Eval [10;6;36;26;25;44;27;28;34;84]; Bind [64]] [(* 145 *) Eval [25]; If (Is "dec_type" (VStr "BF")) [(* 146 *) Eval [38]; Bind [70;71];
        (* 147 *) Eval [71;70]; Bind [68];
        (* 148 *) Eval [7;38;26;8;25;2;68;70]; Bind [69];
        (* 150 *) Eval [10;7;38;26;8;25;2;68;70;44;27;28;34;84]; Bind [64]] [(* 158 *) Eval []; Raise]];
      (* 159 *) Eval []; Bind [62];
      (* 160 *) Eval []; Bind [60];
      (* 161 *) Eval [2;33;37]; Bind [77];
      (* 163 *) Eval [32;33]; Bind [80];
      (* 164 *) Eval [33]; Loop [Bind [82];
       (* 165 *) Eval [25]; If (Is "channel_type" (VStr "bsc")) [(* 166 *) Eval [2;39;82]; Bind [58];
        (* 167 *) Eval [58;65;82];
        (* 168 *) Eval [56;58]; Bind [57]] [(* 171 *) Eval [2;39;82]; Bind [55];
        (* 173 *) Eval [78;35;55]; Bind [73];
        (* 175 *) Eval [55;73]; Bind [75];
        (* 176 *) Eval [75]; Bind [57];
        (* 177 *) Eval [75]; Bind [58];
        (* 178 *) Eval [39;82;58;65]];
       (* 179 *) Eval [58;77;82];
       (* 180 *) Eval [69;57]; Bind [59];
       (* 181 *) Eval [62;59;11;39;82];
       (* 182 *) Eval [64;57]; Bind [59];
       (* 183 *) Eval [60;59;11;39;82];
       (* 184 *) Eval [45;84;82]];
      (* 185 *) Eval [45;84;62;33];
      (* 186 *) Eval [45;84;60;33];
      (* 188 *) Eval [25]; If (Is "channel_type" (VStr "bsc")) [(* 189 *) Eval [2;65;37]; Bind [67];
       (* 190 *) Eval [2;65;37]; Bind [76];
       (* 191 *) Eval [72;37;80]] [(* 193 *) Eval [2;65;37]; Bind [67];
       (* 194 *) Eval [2;65;37]; Bind [76];
       (* 195 *) Eval [2;65;37;33;80]];
      (* 196 *) Eval [39;77;65;67;76]; If Opaque [Eval [2]] []; Bind [83];
      (* 198 *) Eval [20;83;80];
      (* 201 *) Eval [39;80];
      (* 202 *) Eval [33;80];
      (* 203 *) Eval [26;80];
      (* 206 *) Eval [20;60]; Bind [61];
      (* 209 *) Eval [61;80];
      (* 210 *) Eval [25]; If (Is "channel_type" (VStr "bsc")) [(* 211 *) Eval [20;62]; Bind [63]] [(* 215 *) Eval [20;62]; Bind [63]];
      (* 219 *) Eval [63;80];
      (* 221 *) Eval [62;33;80];
      (* 222 *) Eval [62;33;39;80];
      (* 223 *) Eval [60;33;80];
      (* 224 *) Eval [60;33;39;80];
      (* 226 *) Eval [15]; Bind [81];
      (* 228 *) Eval [16;81;84]; Bind [66];
      (* 229 *) Eval [0;80;66];
      (* 230 *) Eval [80]; Return]]; Eval [51;12]; Bind [85];
    (* 295 *) Eval [19;16;48;47;25]; Bind [30];
    (* 298 *) Eval [0;85;30];
    (* 299 *) Eval [45];
    (* 301 *) Eval [2;85]; Bind [86];
    (* 302 *) Eval [2;85]; Bind [87];
    (* 303 *) Eval [2;85]; Bind [88];
    (* 304 *) Eval [13]; Bind [89];
    (* 305 *) Eval [13;86;87;88];
    (* 306 *) Eval [13];
    (* 307 *) Eval [13];
    (* 308 *) Eval [89;16;48];
    (* 310 *) Eval [13]; Bind [90];
    (* 311 *) Eval [2;85]; Bind [91];
    (* 312 *) Eval [2;85]; Bind [92];
    (* 313 *) Eval [13;86;91;92];
    (* 314 *) Eval [13];
    (* 315 *) Eval [13];
    (* 316 *) Eval [90;16;48];
    (* 317 *) Eval [45];
    (* 319 *) Eval [25;86;87;88;91;92]; Bind [93];
    (* 322 *) Eval [25]; If (Not (Is "channel_type" (VStr "bsc"))) [(* 323 *) Eval [53;93];
     (* 324 *) Eval [52;93]] [];
    (* 325 *) Eval [16;48;47;25]; Bind [30];
    (* 326 *) Eval [0;93;30];
    (* 327 *) Eval [18;16;48;47;25;93];
    (* 329 *) Eval [45];
    (* 331 *) Eval [85]; Loop [Bind [94];
     (* 332 *) Eval [94];
     (* 333 *) Eval [94];
     (* 334 *) Eval [94]];
    (* 336 *) Eval [85;93];
    (* 337 *) Eval [18;16;48;47;25;93];
    (* 339 *) Eval [45];
    (* 340 *) Eval [22;16;48]] [Bind [95];
    (* 342 *) Eval [45;95];
    (* 343 *) Eval [22;16;48];
    (* 344 *) Eval [95]; Raise]] |}.

(** runs/HC_eilat_July_2018/simulated_data_combined_decoder.py:1-363. *)
Definition py_runs_HC_eilat_July_2018_simulated_data_combined_decoder : file := {| f_name := "runs/HC_eilat_July_2018/simulated_data_combined_decoder.py";
  f_vars := ["pickle"; "Bits"; "BitArray"; "np"; "EncoderWiFi"; "WiFiSpecCode"; "bsc_llr"; "DecoderWiFi"; "CombinedDecoder"
    ; "ClassifyingEntropyDecoder"; "MavlinkRectifyingDecoder"; "CombinedUnifiedDecoder"; "BufferSegmentation"; "BufferModel"
    ; "meta"; "hamming_distance"; "Any"; "plt"; "argparse"; "datetime"; "os"; "Pool"; "savemat"; "lzma"; "pd"; "setup_logger"
    ; "shutil"; "parser"; "args"; "ldpc_iterations"; "thr"; "clipping_factor"; "processes"; "f"; "hc_tx"; "hc_bin_data"; "n"
    ; "window_len"; "rng"; "bit_flip_p"; "spec"; "encoder"; "encoded"; "binary_data"; "pad_len"; "padded"; "_"; "data_model"
    ; "bs"; "buffer_structure"; "buffer_structures"; "model_length"; "logger"; "simulation_step"; "timestamp"; "path"; "cmd"
    ; "pool"; "simulation_step.channel"; "simulation_step.channel_llr"; "simulation_step.corrupted"; "simulation_step.d"; "simulation_step.decoded_entropy"
    ; "simulation_step.decoded_entropy_df"; "simulation_step.decoded_ldpc"; "simulation_step.decoded_ldpc_df"; "simulation_step.decoded_nr"
    ; "simulation_step.decoded_nr_df"; "simulation_step.decoded_rectify"; "simulation_step.decoded_rectify_df"; "simulation_step.entropy_decoder"
    ; "simulation_step.entropy_success"; "simulation_step.errors"; "simulation_step.f"; "simulation_step.info_errors"; "simulation_step.ldpc_decoder"
    ; "simulation_step.no_errors"; "simulation_step.nr_decoder"; "simulation_step.nr_success"; "simulation_step.parity_errors"
    ; "simulation_step.pure_success"; "simulation_step.rectify_decoder"; "simulation_step.rectify_success"; "simulation_step.rx"
    ; "simulation_step.step_results"; "simulation_step.timestamp"; "simulation_step.tx_idx"; "simulation_step.zipped"; "simulation_step.p"
    ; "results"; "raw_ber"; "ldpc_ber"; "nr_ber"; "entropy_ber"; "rectify_ber"; "fig"; "figure"; "ldpc_buffer_success_rate"
    ; "nr_buffer_success_rate"; "entropy_buffer_success_rate"; "rectify_buffer_success_rate"; "summary"; "step"; "e"];
  f_body :=
   [(* 1 *) Eval []; Bind [0];
   (* 2 *) Eval []; Bind [1;2];
   (* 3 *) Eval []; Bind [3];
   (* 4 *) Eval []; Bind [4];
   (* 5 *) Eval []; Bind [5];
   (* 6 *) Eval []; Bind [6;7];
   (* 7 *) Eval []; Bind [8;9;10;11];
   (* 8 *) Eval []; Bind [12;13];
   (* 9 *) Eval []; Bind [14];
   (* 10 *) Eval []; Bind [15];
   (* 11 *) Eval []; Bind [16];
   (* 12 *) Eval []; Bind [17];
   (* 13 *) Eval []; Bind [18];
   (* 14 *) Eval []; Bind [19];
   (* 15 *) Eval []; Bind [20];
   (* 16 *) Eval []; Bind [21];
   (* 17 *) Eval []; Bind [22];
   (* 18 *) Eval []; Bind [23];
   (* 19 *) Eval []; Bind [24];
   (* 20 *) Eval []; Bind [25];
   (* 21 *) Eval []; Bind [26];
   (* 23 *) Eval [18]; Bind [27];
   (* 24 *) Eval [27];
   (* 25 *) Eval [27];
   (* 26 *) Eval [27];
   (* 27 *) Eval [27];
   (* 28 *) Eval [27];
   (* 29 *) Eval [27];
   (* 30 *) Eval [27];
   (* 31 *) Eval [27];
   (* 32 *) Eval [27];
   (* 33 *) Eval [27];
   (* 34 *) Eval [27];
   (* 35 *) Eval [27];
   (* 36 *) Eval [27];
   (* 37 *) Eval [27];
   (* 38 *) Eval [27];
   (* 40 *) Eval [27];
   (* 42 *) Eval [27];
   (* 44 *) Eval [27];
   (* 45 *) Eval [27];
   (* 46 *) Eval [27];
   (* 47 *) Eval [27];
   (* 48 *) Eval [27];
   (* 49 *) Eval [27];
   (* 51 *) Eval [27]; Bind [28];
   (* 53 *) Eval [28]; Bind [29];
   (* 54 *) Eval [28]; Bind [30];
   (* 55 *) Eval [28]; Bind [31];
   (* 56 *) Eval [28]; If Opaque [Eval [28]] []; Bind [32];
   (* 58 *) Eval []; Bind [33];
   (* 59 *) Eval [0;33]; Bind [34];
   (* 61 *) Eval [34;28]; If Opaque [Eval [1]] []; Bind [35];
   (* 62 *) Eval [28]; If Opaque [Eval [28]] [Eval [35]]; Bind [36];
   (* 63 *) Eval [28]; If Opaque [Eval [28]] []; Bind [37];
   (* 65 *) Eval [3]; Bind [38];
   (* 66 *) Eval [3;28]; Bind [39];
   (* 68 *) Eval [28]; If (Is "n_clusters" (VInt 1)) [(* 69 *) Eval [5]; Bind [40];
    (* 70 *) Eval [28]] [(* 71 *) Eval [28]; If (Is "n_clusters" (VInt 2)) [(* 72 *) Eval [5]; Bind [40]] [(* 73 *) Eval [28]; If (Is "n_clusters" (VInt 3)) [(* 74 *) Eval [5]; Bind [40]] [(* 76 *) Eval []; Raise]]];
   (* 77 *) Eval [4;40]; Bind [41];
   (* 78 *) Eval []; Bind [42];
   (* 79 *) Eval [35;36]; Loop [Bind [43];
    (* 80 *) Eval [28]; If (Is "n_clusters" (VInt 1)) [(* 81 *) Eval [41;43]; Bind [44];
     (* 82 *) Eval [43;1;38;44]; Bind [45];
     (* 83 *) Eval [42;41;45]] [(* 84 *) Eval [28]; If (Is "n_clusters" (VInt 2)) [(* 85 *) Eval [43;1;38;41]; Bind [45];
      (* 86 *) Eval [42;41;45;43]] [(* 87 *) Eval [28]; If (Is "n_clusters" (VInt 3)) [(* 88 *) Eval [43;1;38;41]; Bind [45];
       (* 89 *) Eval [42;41;45];
       (* 90 *) Eval [43;1;38;41]; Bind [45];
       (* 91 *) Eval [42;41;45];
       (* 92 *) Eval [43;1;38;41]; Bind [45];
       (* 93 *) Eval [42;41;45]] []]]];
   (* 95 *) Eval [28]; Loop [Bind [46];
    (* 96 *) Eval [42]];
   (* 97 *) Eval [42]; Bind [36];
   (* 99 *) Eval []; Bind [47];
   (* 100 *) Eval [12;14]; Bind [48];
   (* 101 *) Eval [28]; If (Is "n_clusters" (VInt 1)) [(* 102 *) Eval [48;43]; Bind [46;46;49];
    (* 103 *) Eval [49]; Bind [50]] [(* 104 *) Eval [28]; If (Is "n_clusters" (VInt 2)) [(* 105 *) Eval [48;43]; Bind [46;46;49];
     (* 106 *) Eval [49]; Bind [50];
     (* 107 *) Eval [48;43]; Bind [46;46;49];
     (* 108 *) Eval [50;49]] [(* 109 *) Eval [28]; If (Is "n_clusters" (VInt 3)) [(* 110 *) Eval [48;43]; Bind [46;46;49];
      (* 111 *) Eval [49]; Bind [50];
      (* 112 *) Eval [48;43]; Bind [46;46;49];
      (* 113 *) Eval [50;49];
      (* 114 *) Eval [48;43]; Bind [46;46;49];
      (* 115 *) Eval [50;49]] [(* 117 *) Eval []; Raise]]];
   (* 118 *) Eval [28]; If (Not (Truthy "learn")) [(* 119 *) Eval [13]; Bind [47]] [];
   (* 121 *) Eval [41]; Bind [51];
   (* 128 *) Eval [25;20]; Bind [52];
   (* 131 *) Eval [16]; Bind [53];
   (* 252 *) 
   (* 253 *) Eval [19]; Bind [54];
   (* 256 *) Eval [20;54]; Bind [55];
   (* 258 *) Eval [52];
   (* 259 *) Eval [52;36];
   (* 260 *) Eval [52;28];
   (* 261 *) Eval [52;28];
   (* 262 *) Eval [52;28];
   (* 263 *) Eval [52;29];
   (* 264 *) Eval [52;28];
   (* 265 *) Eval [52;28];
   (* 266 *) Eval [52;28];
   (* 267 *) Eval [52;28];
   (* 268 *) Eval [52;28];
   (* 269 *) Eval [52;28];
   (* 270 *) Eval [52;28];
   (* 271 *) Eval [52;28];
   (* 272 *) Eval [52;28];
   (* 273 *) Eval [52;28];
   (* 274 *) Eval [52;28];
   (* 275 *) Eval [52;37];
   (* 276 *) Eval [52;28];
   (* 277 *) Eval [52;28];
   (* 278 *) Eval [52;28];
   (* 279 *) Eval [52;30];
   (* 280 *) Eval [52;31];
   (* 281 *) Eval [52;28];
   (* 283 *) Eval [28;29;30;31]; Bind [56];
   (* 291 *) Eval [28]; If Opaque [(* 292 *) Eval [56;36]; Bind [56]] [];
   (* 293 *) Eval [37]; If Opaque [(* 294 *) Eval [56;37]; Bind [56]] [(* 296 *) Eval [56]; Bind [56]];
   (* 297 *) Eval [32]; If Opaque [(* 298 *) Eval [56;32]; Bind [56]] [];
   (* 299 *) Eval [20;55];
   (* 300 *) Eval [20;55]; Bind [33];
   (* 301 *) Eval [33;56];
   (* 302 *) Eval [52;56];
   (* 304 *) Eval [21;32]; Bind [57];
   (* 305 *) Eval [57;53]; Loop [Call [58;59;60;61;62;63;64;65;66;67;68;69;70;71;72;73;74;75;76;77;78;79;80;81;82;83;84;85;86;87] [88] [(* 145 *) Eval [6;88]; Bind [58];
     (* 146 *) Eval [7;40;29;28]; Bind [75];
     (* 147 *) Eval [11;7;40;29;28;51;30;31;37;47;88]; Bind [77];
     (* 155 *) Eval [9;7;40;29;28;51;30;31;37;88]; Bind [70];
     (* 161 *) Eval [10;7;40;29;28;51;37;47]; Bind [81];
     (* 166 *) Eval [77;50];
     (* 167 *) Eval [81;50];
     (* 168 *) Eval [41;88]; Bind [76];
     (* 169 *) Eval []; Bind [83];
     (* 170 *) Eval []; Bind [64];
     (* 171 *) Eval []; Bind [66];
     (* 172 *) Eval []; Bind [62];
     (* 173 *) Eval []; Bind [68];
     (* 174 *) Eval [3;36]; If Opaque [Eval [38;41;76]] []; Bind [72];
     (* 178 *) Eval [35;36]; Bind [84];
     (* 179 *) Eval [36]; Loop [Bind [86];
      (* 180 *) Eval [2;42;86]; Bind [60];
      (* 181 *) Eval [60;72;86];
      (* 182 *) Eval [83;60];
      (* 183 *) Eval [58;3;60]; Bind [59];
      (* 184 *) Eval [75;59]; Bind [61];
      (* 185 *) Eval [64;61;15;42;86];
      (* 186 *) Eval [77;59;72;86]; Bind [61];
      (* 187 *) Eval [66;61;15;42;86];
      (* 188 *) Eval [70;59]; Bind [61];
      (* 189 *) Eval [62;61;15;42;86];
      (* 190 *) Eval [81;59;72;86]; Bind [61];
      (* 191 *) Eval [68;61;15;42;86];
      (* 192 *) Eval [52;88;86]];
     (* 193 *) Eval [64]; Bind [80];
     (* 194 *) Eval [66]; Bind [78];
     (* 195 *) Eval [62]; Bind [71];
     (* 196 *) Eval [68]; Bind [82];
     (* 197 *) Eval [52;88;80;36];
     (* 198 *) Eval [52;88;78;36];
     (* 199 *) Eval [52;88;71;36];
     (* 200 *) Eval [52;88;82;36];
     (* 201 *) Eval [36;80]; If Opaque [(* 202 *) Eval [52;88;78;80;36]] [];
     (* 205 *) Eval [3;72;41]; Bind [74];
     (* 206 *) Eval [3;72;41]; Bind [79];
     (* 207 *) Eval [42;83;72;74;79]; If Opaque [Eval [3]] []; Bind [87];
     (* 209 *) Eval [24;87;84];
     (* 213 *) Eval [76;41;84];
     (* 214 *) Eval [42;84];
     (* 215 *) Eval [36;84];
     (* 216 *) Eval [29;84];
     (* 219 *) Eval [24;66]; Bind [67];
     (* 221 *) Eval [67;84];
     (* 222 *) Eval [24;62]; Bind [63];
     (* 225 *) Eval [24;68]; Bind [69];
     (* 230 *) Eval [63;84];
     (* 231 *) Eval [24;64]; Bind [65];
     (* 233 *) Eval [69;84];
     (* 234 *) Eval [65;84];
     (* 236 *) Eval [64;36;84];
     (* 237 *) Eval [64;36;42;84];
     (* 238 *) Eval [66;36;84];
     (* 239 *) Eval [66;36;42;84];
     (* 240 *) Eval [62;36;84];
     (* 241 *) Eval [62;36;42;84];
     (* 242 *) Eval [68;36;84];
     (* 243 *) Eval [68;36;42;84];
     (* 245 *) Eval [19]; Bind [85];
     (* 247 *) Eval [85;88]; Bind [73];
     (* 248 *) Eval [0;84;73];
     (* 249 *) Eval [84]; Return]]; Eval [39;16]; Bind [89];
   (* 308 *) Try [(* 315 *) Eval [3;89]; Bind [90];
    (* 316 *) Eval [3;89]; Bind [91];
    (* 317 *) Eval [3;89]; Bind [92];
    (* 318 *) Eval [3;89]; Bind [93];
    (* 319 *) Eval [3;89]; Bind [94];
    (* 320 *) Eval [17]; Bind [95];
    (* 321 *) Eval [17;90;91;92;93;94];
    (* 323 *) Eval [17];
    (* 324 *) Eval [17];
    (* 325 *) Eval [95;20;55];
    (* 327 *) Eval [17]; Bind [96];
    (* 328 *) Eval [3;89]; Bind [97];
    (* 329 *) Eval [3;89]; Bind [98];
    (* 330 *) Eval [3;89]; Bind [99];
    (* 331 *) Eval [3;89]; Bind [100];
    (* 332 *) Eval [17;90;97;98;99;100];
    (* 334 *) Eval [17];
    (* 335 *) Eval [17];
    (* 336 *) Eval [96;20;55];
    (* 338 *) Eval [52];
    (* 339 *) Eval [28;90;91;92;93;94;97;98;99;100]; Bind [101];
    (* 345 *) Eval [20;55;54;28]; Bind [33];
    (* 346 *) Eval [0;101;33];
    (* 347 *) Eval [22;20;55;54;28;101];
    (* 348 *) Eval [52];
    (* 350 *) Eval [89]; Loop [Bind [102];
     (* 351 *) Eval [102];
     (* 352 *) Eval [102];
     (* 353 *) Eval [102]];
    (* 355 *) Eval [89;101];
    (* 359 *) Eval [26;20;55]] [Bind [103];
    (* 361 *) Eval [52;103];
    (* 362 *) Eval [26;20;55];
    (* 363 *) Eval [103]; Raise]] |}.

(** runs/HC_eilat_July_2018/simulated_data_entropy_bitwise_decoder_predefined_model.py:1-204. *)
Definition py_runs_HC_eilat_July_2018_simulated_data_entropy_bitwise_decoder_predefined_model : file := {| f_name := "runs/HC_eilat_July_2018/simulated_data_entropy_bitwise_decoder_predefined_model.py";
  f_vars := ["pickle"; "Bits"; "BitArray"; "np"; "EncoderWiFi"; "WiFiSpecCode"; "bsc_llr"; "DecoderWiFi"; "EntropyBitwiseDecoder"
    ; "EntropyBitwiseFlippingDecoder"; "BufferSegmentation"; "meta"; "random"; "hamming_distance"; "Any"; "plt"; "argparse"
    ; "datetime"; "os"; "Pool"; "NDArray"; "parser"; "args"; "ldpc_iterations"; "thr"; "clipping_factor"; "encoder"; "bs"
    ; "f"; "hc_tx"; "five_sec_bin"; "n"; "rng"; "bit_flip_p"; "encoded"; "binary_data"; "pad_len"; "padded"; "_"; "dist_model"
    ; "model_length"; "cmd"; "simulation_step"; "pool"; "simulation_step.b"; "simulation_step.channel"; "simulation_step.channel_llr"
    ; "simulation_step.corrupted"; "simulation_step.d"; "simulation_step.decoded_entropy"; "simulation_step.decoded_flipping"
    ; "simulation_step.decoded_ldpc"; "simulation_step.entropy_decoder"; "simulation_step.entropy_flipping_decoder"; "simulation_step.error_idx"
    ; "simulation_step.f"; "simulation_step.idx"; "simulation_step.ldpc_decoder"; "simulation_step.no_errors"; "simulation_step.parts"
    ; "simulation_step.rx"; "simulation_step.s"; "simulation_step.step_results"; "simulation_step.timestamp"; "simulation_step.tx_idx"
    ; "simulation_step.v"; "simulation_step.p"; "results"; "timestamp"; "path"; "raw_ber"; "ldpc_ber"; "entropy_ber"; "flipping_ber"
    ; "fig"; "figure"; "ldpc_buffer_success_rate"; "entropy_buffer_success_rate"; "flipping_buffer_success_rate"; "summary"
    ];
  f_body :=
   [(* 1 *) Eval []; Bind [0];
   (* 2 *) Eval []; Bind [1;2];
   (* 3 *) Eval []; Bind [3];
   (* 4 *) Eval []; Bind [4];
   (* 5 *) Eval []; Bind [5];
   (* 6 *) Eval []; Bind [6;7];
   (* 7 *) Eval []; Bind [8;9];
   (* 8 *) Eval []; Bind [10];
   (* 9 *) Eval []; Bind [11];
   (* 10 *) Eval []; Bind [12];
   (* 11 *) Eval []; Bind [13];
   (* 12 *) Eval []; Bind [14];
   (* 13 *) Eval []; Bind [15];
   (* 14 *) Eval []; Bind [16];
   (* 15 *) Eval []; Bind [17];
   (* 16 *) Eval []; Bind [18];
   (* 17 *) Eval []; Bind [19];
   (* 18 *) Eval []; Bind [20];
   (* 21 *) Eval [16]; Bind [21];
   (* 22 *) Eval [21];
   (* 23 *) Eval [21];
   (* 24 *) Eval [21];
   (* 25 *) Eval [21];
   (* 26 *) Eval [21];
   (* 27 *) Eval [21];
   (* 28 *) Eval [21];
   (* 31 *) Eval [21]; Bind [22];
   (* 33 *) Eval [22]; Bind [23];
   (* 34 *) Eval [22]; Bind [24];
   (* 35 *) Eval [22]; Bind [25];
   (* 37 *) Eval [4;5]; Bind [26];
   (* 38 *) Eval [10;11]; Bind [27];
   (* 40 *) Eval []; Bind [28];
   (* 41 *) Eval [0;28]; Bind [29];
   (* 43 *) Eval [29]; If Opaque [Eval [1]] []; Bind [30];
   (* 44 *) Eval [22]; If Opaque [Eval [22]] [Eval [30]]; Bind [31];
   (* 47 *) Eval [3]; Bind [32];
   (* 48 *) Eval [3;22]; Bind [33];
   (* 50 *) Eval []; Bind [34];
   (* 51 *) Eval [30;31]; Loop [Bind [35];
    (* 52 *) Eval [26;35]; Bind [36];
    (* 53 *) Eval [35;1;12;36]; Bind [37];
    (* 54 *) Eval [34;26;37]];
   (* 56 *) Eval []; Loop [Bind [38];
    (* 57 *) Eval [34]];
   (* 58 *) Eval [34]; Bind [31];
   (* 60 *) Eval []; Bind [28];
   (* 61 *) Eval [0;28;20;3]; Bind [39];
   (* 62 *) Eval [39]; Bind [40];
   (* 70 *) Eval [];
   (* 71 *) Eval [31];
   (* 72 *) Eval [22];
   (* 73 *) Eval [22];
   (* 74 *) Eval [22];
   (* 75 *) Eval [23];
   (* 76 *) Eval [24];
   (* 77 *) Eval [25];
   (* 79 *) Eval [22;23;24;25]; Bind [41];
   (* 82 *) Eval [22]; If Opaque [(* 83 *) Eval [41;31]; Bind [41]] [];
   (* 86 *) Eval [14]; Bind [42];
   (* 165 *) 
   (* 166 *) Eval [19]; Bind [43];
   (* 167 *) Eval [43;42]; Loop [Call [44;45;46;47;48;49;50;51;52;53;54;55;56;57;58;59;60;61;62;63;64;65] [66] [(* 93 *) Eval [6;66]; Bind [45];
     (* 94 *) Eval [7;5;23]; Bind [57];
     (* 95 *) Eval [8;7;5;23;40;24;25;39]; Bind [52];
     (* 98 *) Eval [9;7;5;23;45;40;24;39]; Bind [53];
     (* 102 *) Eval [26;66]; Bind [58];
     (* 103 *) Eval []; Bind [60];
     (* 104 *) Eval []; Bind [51];
     (* 105 *) Eval []; Bind [49];
     (* 106 *) Eval []; Bind [50];
     (* 107 *) Eval [30;31]; Bind [62];
     (* 108 *) Eval [31]; Loop [Bind [64];
      (* 110 *) Eval [2;34;64]; Bind [47];
      (* 111 *) Eval [32;47;58]; Bind [54];
      (* 112 *) Eval [54]; Loop [Bind [56];
       (* 113 *) Eval [47;56]];
      (* 114 *) Eval [60;47];
      (* 115 *) Eval [45;3;47]; Bind [46];
      (* 116 *) Eval [57;46]; Bind [48];
      (* 117 *) Eval [57;48]; Bind [44];
      (* 118 *) Eval [27;44]; Bind [59;65;61];
      (* 119 *) Eval [51;48;61;13;1;34;64];
      (* 120 *) Eval [52;46]; Bind [48];
      (* 121 *) Eval [49;48;13;1;34;64];
      (* 122 *) Eval [53;47]; Bind [48];
      (* 123 *) Eval [50;48;13;1;34;64];
      (* 124 *) Eval [66;64]];
     (* 125 *) Eval [66;51;31];
     (* 126 *) Eval [66;49;31];
     (* 128 *) Eval [66;50;31];
     (* 130 *) Eval [34;62];
     (* 131 *) Eval [60;62];
     (* 132 *) Eval [51;62];
     (* 133 *) Eval [51;31;62];
     (* 135 *) Eval [58;26;62];
     (* 136 *) Eval [34;62];
     (* 137 *) Eval [31]; If Opaque [Eval [13;34;1;51]] []; Eval [31;34;62];
     (* 142 *) Eval [49;62];
     (* 143 *) Eval [49;31;62];
     (* 144 *) Eval [31]; If Opaque [Eval [13;34;1;49]] []; Eval [31;34;62];
     (* 149 *) Eval [50;62];
     (* 150 *) Eval [50;31;62];
     (* 151 *) Eval [31]; If Opaque [Eval [13;34;1;50]] []; Eval [31;34;62];
     (* 156 *) Eval [31;62];
     (* 157 *) Eval [23;62];
     (* 158 *) Eval [17]; Bind [63];
     (* 160 *) Eval [63;66]; Bind [55];
     (* 161 *) Eval [0;62;55];
     (* 162 *) Eval [62]; Return]]; Eval [33;14]; Bind [67];
   (* 169 *) Eval [17]; Bind [68];
   (* 172 *) Eval [18;68]; Bind [69];
   (* 173 *) Eval [18;69];
   (* 174 *) Eval [18;69]; Bind [28];
   (* 175 *) Eval [28;41];
   (* 177 *) Eval [18;69;68]; Bind [28];
   (* 178 *) Eval [0;67;28];
   (* 180 *) Eval [3;67]; Bind [70];
   (* 181 *) Eval [3;67]; Bind [71];
   (* 182 *) Eval [3;67]; Bind [72];
   (* 183 *) Eval [3;67]; Bind [73];
   (* 184 *) Eval [15]; Bind [74];
   (* 185 *) Eval [15;70;71;72;73];
   (* 186 *) Eval [15];
   (* 187 *) Eval [15];
   (* 188 *) Eval [74;18;69];
   (* 190 *) Eval [15]; Bind [75];
   (* 191 *) Eval [3;67]; Bind [76];
   (* 192 *) Eval [3;67]; Bind [77];
   (* 193 *) Eval [3;67]; Bind [78];
   (* 194 *) Eval [15;70;76;77;78];
   (* 196 *) Eval [15];
   (* 197 *) Eval [15];
   (* 198 *) Eval [75;18;69];
   (* 200 *) Eval [22;70;71;72;76;77]; Bind [79];
   (* 203 *) Eval [18;69;68]; Bind [28];
   (* 204 *) Eval [0;79;28]] |}.

(** runs/HC_eilat_July_2018/simulated_data_entropy_bitwise_decoder_script.py:1-195. *)
Definition py_runs_HC_eilat_July_2018_simulated_data_entropy_bitwise_decoder_script : file := {| f_name := "runs/HC_eilat_July_2018/simulated_data_entropy_bitwise_decoder_script.py";
  f_vars := ["pickle"; "Bits"; "BitArray"; "np"; "EncoderWiFi"; "WiFiSpecCode"; "bsc_llr"; "DecoderWiFi"; "EntropyBitwiseDecoder"
    ; "EntropyBitwiseFlippingDecoder"; "BufferSegmentation"; "meta"; "random"; "hamming_distance"; "Any"; "plt"; "argparse"
    ; "datetime"; "os"; "parser"; "args"; "ldpc_iterations"; "thr"; "clipping_factor"; "encoder"; "bs"; "f"; "hc_tx"; "five_sec_bin"
    ; "n"; "window_len"; "rng"; "bit_flip_p"; "results"; "encoded"; "binary_data"; "pad_len"; "padded"; "model_length"; "cmd"
    ; "p"; "channel"; "ldpc_decoder"; "entropy_decoder"; "entropy_flipping_decoder"; "no_errors"; "rx"; "decoded_ldpc"; "decoded_entropy"
    ; "decoded_flipping"; "tx_idx"; "corrupted"; "error_idx"; "idx"; "channel_llr"; "d"; "b"; "parts"; "v"; "s"; "timestamp"
    ; "path"; "raw_ber"; "ldpc_ber"; "entropy_ber"; "flipping_ber"; "fig"; "figure"; "ldpc_buffer_success_rate"; "entropy_buffer_success_rate"
    ; "flipping_buffer_success_rate"; "summary"];
  f_body :=
   [(* 1 *) Eval []; Bind [0];
   (* 2 *) Eval []; Bind [1;2];
   (* 3 *) Eval []; Bind [3];
   (* 4 *) Eval []; Bind [4];
   (* 5 *) Eval []; Bind [5];
   (* 6 *) Eval []; Bind [6;7];
   (* 7 *) Eval []; Bind [8;9];
   (* 8 *) Eval []; Bind [10];
   (* 9 *) Eval []; Bind [11];
   (* 10 *) Eval []; Bind [12];
   (* 11 *) Eval []; Bind [13];
   (* 12 *) Eval []; Bind [14];
   (* 13 *) Eval []; Bind [15];
   (* 14 *) Eval []; Bind [16];
   (* 15 *) Eval []; Bind [17];
   (* 16 *) Eval []; Bind [18];
   (* 18 *) Eval [16]; Bind [19];
   (* 19 *) Eval [19];
   (* 20 *) Eval [19];
   (* 21 *) Eval [19];
   (* 22 *) Eval [19];
   (* 23 *) Eval [19];
   (* 24 *) Eval [19];
   (* 25 *) Eval [19];
   (* 26 *) Eval [19];
   (* 27 *) Eval [19];
   (* 30 *) Eval [19]; Bind [20];
   (* 32 *) Eval [20]; Bind [21];
   (* 33 *) Eval [20]; Bind [22];
   (* 34 *) Eval [20]; Bind [23];
   (* 36 *) Eval [4;5]; Bind [24];
   (* 37 *) Eval [10;11]; Bind [25];
   (* 39 *) Eval []; Bind [26];
   (* 40 *) Eval [0;26]; Bind [27];
   (* 42 *) Eval [27]; If Opaque [Eval [1]] []; Bind [28];
   (* 43 *) Eval [20]; If Opaque [Eval [20]] [Eval [28]]; Bind [29];
   (* 44 *) Eval [20]; If Opaque [Eval [20]] []; Bind [30];
   (* 47 *) Eval [3]; Bind [31];
   (* 48 *) Eval [3;20]; Bind [32];
   (* 49 *) Eval [14]; Bind [33];
   (* 51 *) Eval []; Bind [34];
   (* 52 *) Eval [28;29]; Loop [Bind [35];
    (* 53 *) Eval [24;35]; Bind [36];
    (* 54 *) Eval [35;1;12;36]; Bind [37];
    (* 55 *) Eval [34;24;37]];
   (* 57 *) Eval [28]; Bind [38];
   (* 58 *) Eval [34]; Bind [29];
   (* 66 *) Eval [];
   (* 67 *) Eval [29];
   (* 68 *) Eval [20];
   (* 69 *) Eval [20];
   (* 70 *) Eval [20];
   (* 71 *) Eval [21];
   (* 72 *) Eval [22];
   (* 73 *) Eval [30];
   (* 74 *) Eval [23];
   (* 75 *) Eval [20];
   (* 77 *) Eval [20;21;22;23]; Bind [39];
   (* 81 *) Eval [30]; If Opaque [(* 82 *) Eval [39;30]; Bind [39]] [];
   (* 83 *) Eval [20]; If Opaque [(* 84 *) Eval [39;29]; Bind [39]] [];
   (* 86 *) Eval [32]; Loop [Bind [40];
    (* 87 *) Eval [6;40]; Bind [41];
    (* 88 *) Eval [7;5;21]; Bind [42];
    (* 89 *) Eval [8;7;5;21;38;22;23;20;30]; Bind [43];
    (* 92 *) Eval [9;7;5;21;41;38;22;20;30]; Bind [44];
    (* 96 *) Eval [24;40]; Bind [45];
    (* 97 *) Eval []; Bind [46];
    (* 98 *) Eval []; Bind [47];
    (* 99 *) Eval []; Bind [48];
    (* 100 *) Eval []; Bind [49];
    (* 101 *) Eval [33;28;29];
    (* 102 *) Eval [29]; Loop [Bind [50];
     (* 104 *) Eval [2;34;50]; Bind [51];
     (* 105 *) Eval [31;51;45]; Bind [52];
     (* 106 *) Eval [52]; Loop [Bind [53];
      (* 107 *) Eval [51;53]];
     (* 108 *) Eval [46;51];
     (* 109 *) Eval [41;3;51]; Bind [54];
     (* 110 *) Eval [42;54]; Bind [55];
     (* 111 *) Eval [42;55]; Bind [56];
     (* 112 *) Eval [25;56]; Bind [57;58;59];
     (* 113 *) Eval [47;55;59;13;1;34;50];
     (* 114 *) Eval [55]; If Opaque [(* 115 *) Eval [47]] [];
     (* 116 *) Eval [43;54]; Bind [55];
     (* 117 *) Eval [48;55;13;1;34;50];
     (* 118 *) Eval [48]; If Opaque [(* 119 *) Eval [48]] [];
     (* 120 *) Eval [44;51]; Bind [55];
     (* 121 *) Eval [49;55;13;1;34;50];
     (* 122 *) Eval [49]; If Opaque [(* 123 *) Eval [49]] [];
     (* 124 *) Eval [50]];
    (* 125 *) Eval [40;47;29];
    (* 126 *) Eval [40;48;29];
    (* 128 *) Eval [40;49;29];
    (* 130 *) Eval [34;33];
    (* 131 *) Eval [46;33];
    (* 132 *) Eval [47;33];
    (* 133 *) Eval [47;29;33];
    (* 135 *) Eval [45;24;33];
    (* 136 *) Eval [34;33];
    (* 137 *) Eval [29]; If Opaque [Eval [13;34;1;47]] []; Eval [29;34;33];
    (* 142 *) Eval [48;33];
    (* 143 *) Eval [48;29;33];
    (* 144 *) Eval [29]; If Opaque [Eval [13;34;1;48]] []; Eval [29;34;33];
    (* 149 *) Eval [49;33];
    (* 150 *) Eval [49;29;33];
    (* 151 *) Eval [29]; If Opaque [Eval [13;34;1;49]] []; Eval [29;34;33];
    (* 156 *) Eval [29;33];
    (* 157 *) Eval [21;33]];
   (* 160 *) Eval [17]; Bind [60];
   (* 163 *) Eval [18;60]; Bind [61];
   (* 164 *) Eval [18;61];
   (* 165 *) Eval [18;61]; Bind [26];
   (* 166 *) Eval [26;39];
   (* 168 *) Eval [18;61;60]; Bind [26];
   (* 169 *) Eval [0;33;26];
   (* 171 *) Eval [3;33]; Bind [62];
   (* 172 *) Eval [3;33]; Bind [63];
   (* 173 *) Eval [3;33]; Bind [64];
   (* 174 *) Eval [3;33]; Bind [65];
   (* 175 *) Eval [15]; Bind [66];
   (* 176 *) Eval [15;62;63;64;65];
   (* 177 *) Eval [15];
   (* 178 *) Eval [15];
   (* 179 *) Eval [66;18;61];
   (* 181 *) Eval [15]; Bind [67];
   (* 182 *) Eval [3;33]; Bind [68];
   (* 183 *) Eval [3;33]; Bind [69];
   (* 184 *) Eval [3;33]; Bind [70];
   (* 185 *) Eval [15;62;68;69;70];
   (* 187 *) Eval [15];
   (* 188 *) Eval [15];
   (* 189 *) Eval [67;18;61];
   (* 191 *) Eval [20;62;63;64;68;69]; Bind [71];
   (* 194 *) Eval [18;61;60]; Bind [26];
   (* 195 *) Eval [0;71;26]] |}.

(** runs/HC_eilat_July_2018/simulated_data_entropy_bitwise_decoder_script_mp.py:1-202. *)
Definition py_runs_HC_eilat_July_2018_simulated_data_entropy_bitwise_decoder_script_mp : file := {| f_name := "runs/HC_eilat_July_2018/simulated_data_entropy_bitwise_decoder_script_mp.py";
  f_vars := ["pickle"; "Bits"; "BitArray"; "np"; "EncoderWiFi"; "WiFiSpecCode"; "bsc_llr"; "DecoderWiFi"; "EntropyBitwiseDecoder"
    ; "EntropyBitwiseFlippingDecoder"; "BufferSegmentation"; "meta"; "random"; "hamming_distance"; "Any"; "plt"; "argparse"
    ; "datetime"; "os"; "Pool"; "parser"; "args"; "ldpc_iterations"; "thr"; "clipping_factor"; "encoder"; "bs"; "f"; "hc_tx"
    ; "five_sec_bin"; "n"; "window_len"; "rng"; "bit_flip_p"; "encoded"; "binary_data"; "pad_len"; "padded"; "model_length"
    ; "cmd"; "simulation_step"; "pool"; "simulation_step.b"; "simulation_step.channel"; "simulation_step.channel_llr"; "simulation_step.corrupted"
    ; "simulation_step.d"; "simulation_step.decoded_entropy"; "simulation_step.decoded_flipping"; "simulation_step.decoded_ldpc"
    ; "simulation_step.entropy_decoder"; "simulation_step.entropy_flipping_decoder"; "simulation_step.error_idx"; "simulation_step.idx"
    ; "simulation_step.ldpc_decoder"; "simulation_step.no_errors"; "simulation_step.parts"; "simulation_step.rx"; "simulation_step.s"
    ; "simulation_step.step_results"; "simulation_step.tx_idx"; "simulation_step.v"; "simulation_step.p"; "results"; "timestamp"
    ; "path"; "raw_ber"; "ldpc_ber"; "entropy_ber"; "flipping_ber"; "fig"; "figure"; "ldpc_buffer_success_rate"; "entropy_buffer_success_rate"
    ; "flipping_buffer_success_rate"; "summary"];
  f_body :=
   [(* 1 *) Eval []; Bind [0];
   (* 2 *) Eval []; Bind [1;2];
   (* 3 *) Eval []; Bind [3];
   (* 4 *) Eval []; Bind [4];
   (* 5 *) Eval []; Bind [5];
   (* 6 *) Eval []; Bind [6;7];
   (* 7 *) Eval []; Bind [8;9];
   (* 8 *) Eval []; Bind [10];
   (* 9 *) Eval []; Bind [11];
   (* 10 *) Eval []; Bind [12];
   (* 11 *) Eval []; Bind [13];
   (* 12 *) Eval []; Bind [14];
   (* 13 *) Eval []; Bind [15];
   (* 14 *) Eval []; Bind [16];
   (* 15 *) Eval []; Bind [17];
   (* 16 *) Eval []; Bind [18];
   (* 17 *) Eval []; Bind [19];
   (* 20 *) Eval [16]; Bind [20];
   (* 21 *) Eval [20];
   (* 22 *) Eval [20];
   (* 23 *) Eval [20];
   (* 24 *) Eval [20];
   (* 25 *) Eval [20];
   (* 26 *) Eval [20];
   (* 27 *) Eval [20];
   (* 28 *) Eval [20];
   (* 29 *) Eval [20];
   (* 32 *) Eval [20]; Bind [21];
   (* 34 *) Eval [21]; Bind [22];
   (* 35 *) Eval [21]; Bind [23];
   (* 36 *) Eval [21]; Bind [24];
   (* 38 *) Eval [4;5]; Bind [25];
   (* 39 *) Eval [10;11]; Bind [26];
   (* 41 *) Eval []; Bind [27];
   (* 42 *) Eval [0;27]; Bind [28];
   (* 44 *) Eval [28]; If Opaque [Eval [1]] []; Bind [29];
   (* 45 *) Eval [21]; If Opaque [Eval [21]] [Eval [29]]; Bind [30];
   (* 46 *) Eval [21]; If Opaque [Eval [21]] []; Bind [31];
   (* 49 *) Eval [3]; Bind [32];
   (* 50 *) Eval [3;21]; Bind [33];
   (* 52 *) Eval []; Bind [34];
   (* 53 *) Eval [29;30]; Loop [Bind [35];
    (* 54 *) Eval [25;35]; Bind [36];
    (* 55 *) Eval [35;1;12;36]; Bind [37];
    (* 56 *) Eval [34;25;37]];
   (* 58 *) Eval [29]; Bind [38];
   (* 59 *) Eval [34]; Bind [30];
   (* 67 *) Eval [];
   (* 68 *) Eval [30];
   (* 69 *) Eval [21];
   (* 70 *) Eval [21];
   (* 71 *) Eval [21];
   (* 72 *) Eval [22];
   (* 73 *) Eval [23];
   (* 74 *) Eval [31];
   (* 75 *) Eval [24];
   (* 76 *) Eval [21];
   (* 78 *) Eval [21;22;23;24]; Bind [39];
   (* 82 *) Eval [31]; If Opaque [(* 83 *) Eval [39;31]; Bind [39]] [];
   (* 84 *) Eval [21]; If Opaque [(* 85 *) Eval [39;30]; Bind [39]] [];
   (* 88 *) Eval [14]; Bind [40];
   (* 163 *) 
   (* 164 *) Eval [19]; Bind [41];
   (* 165 *) Eval [41;40]; Loop [Call [42;43;44;45;46;47;48;49;50;51;52;53;54;55;56;57;58;59;60;61] [62] [(* 95 *) Eval [6;62]; Bind [43];
     (* 96 *) Eval [7;5;22]; Bind [54];
     (* 97 *) Eval [8;7;5;22;38;23;24;21;31]; Bind [50];
     (* 100 *) Eval [9;7;5;22;43;38;23;21;31]; Bind [51];
     (* 104 *) Eval [25;62]; Bind [55];
     (* 105 *) Eval []; Bind [57];
     (* 106 *) Eval []; Bind [49];
     (* 107 *) Eval []; Bind [47];
     (* 108 *) Eval []; Bind [48];
     (* 109 *) Eval [29;30]; Bind [59];
     (* 110 *) Eval [30]; Loop [Bind [60];
      (* 112 *) Eval [2;34;60]; Bind [45];
      (* 113 *) Eval [32;45;55]; Bind [52];
      (* 114 *) Eval [52]; Loop [Bind [53];
       (* 115 *) Eval [45;53]];
      (* 116 *) Eval [57;45];
      (* 117 *) Eval [43;3;45]; Bind [44];
      (* 118 *) Eval [54;44]; Bind [46];
      (* 119 *) Eval [54;46]; Bind [42];
      (* 120 *) Eval [26;42]; Bind [56;61;58];
      (* 121 *) Eval [49;46;58;13;1;34;60];
      (* 122 *) Eval [50;44]; Bind [46];
      (* 123 *) Eval [47;46;13;1;34;60];
      (* 124 *) Eval [51;45]; Bind [46];
      (* 125 *) Eval [48;46;13;1;34;60];
      (* 126 *) Eval [62;60]];
     (* 127 *) Eval [62;49;30];
     (* 128 *) Eval [62;47;30];
     (* 130 *) Eval [62;48;30];
     (* 132 *) Eval [34;59];
     (* 133 *) Eval [57;59];
     (* 134 *) Eval [49;59];
     (* 135 *) Eval [49;30;59];
     (* 137 *) Eval [55;25;59];
     (* 138 *) Eval [34;59];
     (* 139 *) Eval [30]; If Opaque [Eval [13;34;1;49]] []; Eval [30;34;59];
     (* 144 *) Eval [47;59];
     (* 145 *) Eval [47;30;59];
     (* 146 *) Eval [30]; If Opaque [Eval [13;34;1;47]] []; Eval [30;34;59];
     (* 151 *) Eval [48;59];
     (* 152 *) Eval [48;30;59];
     (* 153 *) Eval [30]; If Opaque [Eval [13;34;1;48]] []; Eval [30;34;59];
     (* 158 *) Eval [30;59];
     (* 159 *) Eval [22;59];
     (* 160 *) Eval [59]; Return]]; Eval [33;14]; Bind [63];
   (* 167 *) Eval [17]; Bind [64];
   (* 170 *) Eval [18;64]; Bind [65];
   (* 171 *) Eval [18;65];
   (* 172 *) Eval [18;65]; Bind [27];
   (* 173 *) Eval [27;39];
   (* 175 *) Eval [18;65;64]; Bind [27];
   (* 176 *) Eval [0;63;27];
   (* 178 *) Eval [3;63]; Bind [66];
   (* 179 *) Eval [3;63]; Bind [67];
   (* 180 *) Eval [3;63]; Bind [68];
   (* 181 *) Eval [3;63]; Bind [69];
   (* 182 *) Eval [15]; Bind [70];
   (* 183 *) Eval [15;66;67;68;69];
   (* 184 *) Eval [15];
   (* 185 *) Eval [15];
   (* 186 *) Eval [70;18;65];
   (* 188 *) Eval [15]; Bind [71];
   (* 189 *) Eval [3;63]; Bind [72];
   (* 190 *) Eval [3;63]; Bind [73];
   (* 191 *) Eval [3;63]; Bind [74];
   (* 192 *) Eval [15;66;72;73;74];
   (* 194 *) Eval [15];
   (* 195 *) Eval [15];
   (* 196 *) Eval [71;18;65];
   (* 198 *) Eval [21;66;67;68;72;73]; Bind [75];
   (* 201 *) Eval [18;65;64]; Bind [27];
   (* 202 *) Eval [0;75;27]] |}.

(** runs/HC_eilat_July_2018/simulated_data_entropy_bitwise_decoder_weighted_model.py:1-260. *)
Definition py_runs_HC_eilat_July_2018_simulated_data_entropy_bitwise_decoder_weighted_model : file := {| f_name := "runs/HC_eilat_July_2018/simulated_data_entropy_bitwise_decoder_weighted_model.py";
  f_vars := ["pickle"; "Bits"; "BitArray"; "np"; "EncoderWiFi"; "WiFiSpecCode"; "bsc_llr"; "DecoderWiFi"; "EntropyBitwiseWeightedDecoder"
    ; "BufferSegmentation"; "meta"; "random"; "hamming_distance"; "Any"; "plt"; "argparse"; "datetime"; "os"; "Pool"; "savemat"
    ; "lzma"; "pd"; "parser"; "args"; "ldpc_iterations"; "thr"; "clipping_factor"; "processes"; "encoder"; "bs"; "f"; "hc_tx"
    ; "five_sec_bin"; "n"; "window_len"; "rng"; "bit_flip_p"; "encoded"; "binary_data"; "pad_len"; "padded"; "_"; "model_length"
    ; "cmd"; "simulation_step"; "pool"; "simulation_step.b"; "simulation_step.channel"; "simulation_step.channel_llr"; "simulation_step.corrupted"
    ; "simulation_step.d"; "simulation_step.decoded_entropy"; "simulation_step.decoded_entropy_df"; "simulation_step.decoded_ldpc"
    ; "simulation_step.decoded_ldpc_df"; "simulation_step.entropy_decoder"; "simulation_step.errors"; "simulation_step.f"
    ; "simulation_step.idx"; "simulation_step.info_errors"; "simulation_step.ldpc_decoder"; "simulation_step.no_errors"; "simulation_step.parity_errors"
    ; "simulation_step.parts"; "simulation_step.rx"; "simulation_step.s"; "simulation_step.step_results"; "simulation_step.timestamp"
    ; "simulation_step.tx_idx"; "simulation_step.v"; "simulation_step.zipped"; "simulation_step.p"; "results"; "timestamp"
    ; "path"; "raw_ber"; "ldpc_ber"; "entropy_ber"; "fig"; "figure"; "ldpc_buffer_success_rate"; "entropy_buffer_success_rate"
    ; "summary"; "step"];
  f_body :=
   [(* 1 *) Eval []; Bind [0];
   (* 2 *) Eval []; Bind [1;2];
   (* 3 *) Eval []; Bind [3];
   (* 4 *) Eval []; Bind [4];
   (* 5 *) Eval []; Bind [5];
   (* 6 *) Eval []; Bind [6;7];
   (* 7 *) Eval []; Bind [8];
   (* 8 *) Eval []; Bind [9];
   (* 9 *) Eval []; Bind [10];
   (* 10 *) Eval []; Bind [11];
   (* 11 *) Eval []; Bind [12];
   (* 12 *) Eval []; Bind [13];
   (* 13 *) Eval []; Bind [14];
   (* 14 *) Eval []; Bind [15];
   (* 15 *) Eval []; Bind [16];
   (* 16 *) Eval []; Bind [17];
   (* 17 *) Eval []; Bind [18];
   (* 18 *) Eval []; Bind [19];
   (* 19 *) Eval []; Bind [20];
   (* 20 *) Eval []; Bind [21];
   (* 22 *) Eval [15]; Bind [22];
   (* 23 *) Eval [22];
   (* 24 *) Eval [22];
   (* 25 *) Eval [22];
   (* 26 *) Eval [22];
   (* 27 *) Eval [22];
   (* 28 *) Eval [22];
   (* 29 *) Eval [22];
   (* 30 *) Eval [22];
   (* 31 *) Eval [22];
   (* 32 *) Eval [22];
   (* 33 *) Eval [22];
   (* 34 *) Eval [22];
   (* 35 *) Eval [22];
   (* 36 *) Eval [22];
   (* 37 *) Eval [22];
   (* 38 *) Eval [22];
   (* 39 *) Eval [22];
   (* 40 *) Eval [22];
   (* 42 *) Eval [22]; Bind [23];
   (* 44 *) Eval [23]; Bind [24];
   (* 45 *) Eval [23]; Bind [25];
   (* 46 *) Eval [23]; Bind [26];
   (* 47 *) Eval [23]; If Opaque [Eval [23]] []; Bind [27];
   (* 49 *) Eval [4;5]; Bind [28];
   (* 50 *) Eval [9;10]; Bind [29];
   (* 52 *) Eval []; Bind [30];
   (* 53 *) Eval [0;30]; Bind [31];
   (* 55 *) Eval [31]; If Opaque [Eval [1]] []; Bind [32];
   (* 56 *) Eval [23]; If Opaque [Eval [23]] [Eval [32]]; Bind [33];
   (* 57 *) Eval [23]; If Opaque [Eval [23]] []; Bind [34];
   (* 60 *) Eval [3]; Bind [35];
   (* 61 *) Eval [3;23]; Bind [36];
   (* 63 *) Eval []; Bind [37];
   (* 64 *) Eval [32;33]; Loop [Bind [38];
    (* 65 *) Eval [28;38]; Bind [39];
    (* 66 *) Eval [38;1;11;39]; Bind [40];
    (* 67 *) Eval [37;28;40]];
   (* 69 *) Eval [23]; Loop [Bind [41];
    (* 70 *) Eval [37]];
   (* 72 *) Eval [32]; Bind [42];
   (* 73 *) Eval [37]; Bind [33];
   (* 86 *) Eval [];
   (* 87 *) Eval [33];
   (* 88 *) Eval [23];
   (* 89 *) Eval [23];
   (* 90 *) Eval [23];
   (* 91 *) Eval [24];
   (* 92 *) Eval [25];
   (* 93 *) Eval [34];
   (* 94 *) Eval [26];
   (* 95 *) Eval [23];
   (* 96 *) Eval [23];
   (* 97 *) Eval [23];
   (* 98 *) Eval [23];
   (* 99 *) Eval [23];
   (* 100 *) Eval [23];
   (* 101 *) Eval [23];
   (* 102 *) Eval [23];
   (* 103 *) Eval [23];
   (* 104 *) Eval [23];
   (* 106 *) Eval [23;24;25;26]; Bind [43];
   (* 112 *) Eval [34]; If Opaque [(* 113 *) Eval [43;34]; Bind [43]] [(* 115 *) Eval [43]; Bind [43]];
   (* 116 *) Eval [23]; If Opaque [(* 117 *) Eval [43;33]; Bind [43];
    (* 118 *) Eval [27]; If Opaque [(* 119 *) Eval [43;27]; Bind [43]] []] [];
   (* 122 *) Eval [13]; Bind [44];
   (* 205 *) 
   (* 206 *) Eval [18;27]; Bind [45];
   (* 207 *) Eval [45;44]; Loop [Call [46;47;48;49;50;51;52;53;54;55;56;57;58;59;60;61;62;63;64;65;66;67;68;69;70] [71] [(* 130 *) Eval [6;71]; Bind [47];
     (* 131 *) Eval [7;5;24;23]; Bind [60];
     (* 132 *) Eval [8;7;5;24;23;42;25;26;34;71]; Bind [55];
     (* 140 *) Eval [28;71]; Bind [61];
     (* 141 *) Eval []; Bind [64];
     (* 142 *) Eval []; Bind [53];
     (* 143 *) Eval []; Bind [51];
     (* 144 *) Eval [3;33]; If Opaque [Eval [35;28;61]] []; Bind [56];
     (* 149 *) Eval [32;33]; Bind [66];
     (* 150 *) Eval [33]; Loop [Bind [68];
      (* 152 *) Eval [2;37;68]; Bind [49];
      (* 154 *) Eval [56;68]; Loop [Bind [58];
       (* 155 *) Eval [49;58]];
      (* 156 *) Eval [64;49];
      (* 157 *) Eval [47;3;49]; Bind [48];
      (* 158 *) Eval [60;48]; Bind [50];
      (* 159 *) Eval [60;50]; Bind [46];
      (* 160 *) Eval [29;46]; Bind [63;69;65];
      (* 161 *) Eval [53;50;65;12;1;37;68];
      (* 162 *) Eval [55;48]; Bind [50];
      (* 163 *) Eval [51;50;12;1;37;68];
      (* 164 *) Eval [71;68]];
     (* 165 *) Eval [71;53;33];
     (* 166 *) Eval [71;51;33];
     (* 169 *) Eval [3;56;28]; Bind [59];
     (* 170 *) Eval [3;56;28]; Bind [62];
     (* 171 *) Eval [37;64;56;59;62]; If Opaque [Eval [3]] []; Bind [70];
     (* 173 *) Eval [21;70;66];
     (* 177 *) Eval [61;28;66];
     (* 178 *) Eval [37;66];
     (* 179 *) Eval [33;66];
     (* 180 *) Eval [24;66];
     (* 183 *) Eval [21;51]; Bind [52];
     (* 187 *) Eval [52;66];
     (* 188 *) Eval [21;53]; Bind [54];
     (* 191 *) Eval [54;66];
     (* 193 *) Eval [53;33;66];
     (* 194 *) Eval [53;33;37;66];
     (* 195 *) Eval [51;33;66];
     (* 196 *) Eval [51;33;37;66];
     (* 198 *) Eval [16]; Bind [67];
     (* 200 *) Eval [67;71]; Bind [57];
     (* 201 *) Eval [0;66;57];
     (* 202 *) Eval [66]; Return]]; Eval [36;13]; Bind [72];
   (* 210 *) Eval [16]; Bind [73];
   (* 213 *) Eval [17;73]; Bind [74];
   (* 214 *) Eval [17;74];
   (* 215 *) Eval [17;74]; Bind [30];
   (* 216 *) Eval [30;43];
   (* 221 *) Eval [20;17;74;73;23]; Bind [30];
   (* 224 *) Eval [0;72;30];
   (* 226 *) Eval [3;72]; Bind [75];
   (* 227 *) Eval [3;72]; Bind [76];
   (* 228 *) Eval [3;72]; Bind [77];
   (* 229 *) Eval [14]; Bind [78];
   (* 230 *) Eval [14;75;76;77];
   (* 231 *) Eval [14];
   (* 232 *) Eval [14];
   (* 233 *) Eval [78;17;74];
   (* 235 *) Eval [14]; Bind [79];
   (* 236 *) Eval [3;72]; Bind [80];
   (* 237 *) Eval [3;72]; Bind [81];
   (* 238 *) Eval [14;75;80;81];
   (* 239 *) Eval [14];
   (* 240 *) Eval [14];
   (* 241 *) Eval [79;17;74];
   (* 243 *) Eval [23;75;76;77;80;81]; Bind [82];
   (* 246 *) Eval [17;74;73;23]; Bind [30];
   (* 248 *) Eval [0;82;30];
   (* 250 *) Eval [19;17;74;73;23;82];
   (* 253 *) Eval [72]; Loop [Bind [83];
    (* 254 *) Eval [83];
    (* 255 *) Eval [83];
    (* 256 *) Eval [83]];
   (* 258 *) Eval [82;72];
   (* 259 *) Eval [19;17;74;73;23;82]] |}.

(** runs/HC_eilat_July_2018/simulated_data_entropy_bitwise_decoder_weighted_model_averaged.py:1-231. *)
Definition py_runs_HC_eilat_July_2018_simulated_data_entropy_bitwise_decoder_weighted_model_averaged : file := {| f_name := "runs/HC_eilat_July_2018/simulated_data_entropy_bitwise_decoder_weighted_model_averaged.py";
  f_vars := ["pickle"; "Bits"; "BitArray"; "np"; "EncoderWiFi"; "WiFiSpecCode"; "bsc_llr"; "DecoderWiFi"; "EntropyBitwiseWeightedDecoder"
    ; "BufferSegmentation"; "meta"; "random"; "hamming_distance"; "Any"; "plt"; "argparse"; "datetime"; "os"; "Pool"; "parser"
    ; "args"; "ldpc_iterations"; "thr"; "clipping_factor"; "processes"; "encoder"; "bs"; "f"; "hc_tx"; "five_sec_bin"; "n"
    ; "window_len"; "rng"; "bit_flip_p"; "encoded"; "binary_data"; "pad_len"; "padded"; "_"; "model_length"; "error_idx"; "cmd"
    ; "simulation_step"; "overall_stats"; "run_idx"; "pool"; "simulation_step.b"; "simulation_step.channel"; "simulation_step.channel_llr"
    ; "simulation_step.corrupted"; "simulation_step.d"; "simulation_step.decoded_entropy"; "simulation_step.decoded_ldpc"
    ; "simulation_step.entropy_decoder"; "simulation_step.errors"; "simulation_step.f"; "simulation_step.idx"; "simulation_step.ldpc_decoder"
    ; "simulation_step.no_errors"; "simulation_step.parts"; "simulation_step.rx"; "simulation_step.s"; "simulation_step.step_results"
    ; "simulation_step.timestamp"; "simulation_step.tx_idx"; "simulation_step.v"; "simulation_step.p"; "results"; "timestamp"
    ; "path"; "raw_ber"; "ldpc_ber"; "entropy_ber"; "fig"; "figure"; "ldpc_buffer_success_rate"; "entropy_buffer_success_rate"
    ; "summary"];
  f_body :=
   [(* 1 *) Eval []; Bind [0];
   (* 2 *) Eval []; Bind [1;2];
   (* 3 *) Eval []; Bind [3];
   (* 4 *) Eval []; Bind [4];
   (* 5 *) Eval []; Bind [5];
   (* 6 *) Eval []; Bind [6;7];
   (* 7 *) Eval []; Bind [8];
   (* 8 *) Eval []; Bind [9];
   (* 9 *) Eval []; Bind [10];
   (* 10 *) Eval []; Bind [11];
   (* 11 *) Eval []; Bind [12];
   (* 12 *) Eval []; Bind [13];
   (* 13 *) Eval []; Bind [14];
   (* 14 *) Eval []; Bind [15];
   (* 15 *) Eval []; Bind [16];
   (* 16 *) Eval []; Bind [17];
   (* 17 *) Eval []; Bind [18];
   (* 20 *) Eval [15]; Bind [19];
   (* 21 *) Eval [19];
   (* 22 *) Eval [19];
   (* 23 *) Eval [19];
   (* 24 *) Eval [19];
   (* 25 *) Eval [19];
   (* 26 *) Eval [19];
   (* 27 *) Eval [19];
   (* 28 *) Eval [19];
   (* 29 *) Eval [19];
   (* 30 *) Eval [19];
   (* 31 *) Eval [19];
   (* 32 *) Eval [19];
   (* 33 *) Eval [19];
   (* 34 *) Eval [19];
   (* 35 *) Eval [19];
   (* 36 *) Eval [19];
   (* 38 *) Eval [19]; Bind [20];
   (* 40 *) Eval [20]; Bind [21];
   (* 41 *) Eval [20]; Bind [22];
   (* 42 *) Eval [20]; Bind [23];
   (* 43 *) Eval [20]; If Opaque [Eval [20]] []; Bind [24];
   (* 45 *) Eval [4;5]; Bind [25];
   (* 46 *) Eval [9;10]; Bind [26];
   (* 48 *) Eval []; Bind [27];
   (* 49 *) Eval [0;27]; Bind [28];
   (* 51 *) Eval [28]; If Opaque [Eval [1]] []; Bind [29];
   (* 52 *) Eval [20]; If Opaque [Eval [20]] [Eval [29]]; Bind [30];
   (* 53 *) Eval [20]; If Opaque [Eval [20]] []; Bind [31];
   (* 56 *) Eval [3]; Bind [32];
   (* 57 *) Eval [3;20]; Bind [33];
   (* 59 *) Eval []; Bind [34];
   (* 60 *) Eval [29;30]; Loop [Bind [35];
    (* 61 *) Eval [25;35]; Bind [36];
    (* 62 *) Eval [35;1;11;36]; Bind [37];
    (* 63 *) Eval [34;25;37]];
   (* 65 *) Eval [20]; Loop [Bind [38];
    (* 66 *) Eval [34]];
   (* 68 *) Eval [29]; Bind [39];
   (* 69 *) Eval [34]; Bind [30];
   (* 77 *) Eval [3;30]; If Opaque [Eval [32;25;33]] []; Bind [40];
   (* 80 *) Eval [14;40];
   (* 81 *) Eval [14];
   (* 83 *) Eval [];
   (* 84 *) Eval [30];
   (* 85 *) Eval [20];
   (* 86 *) Eval [20];
   (* 87 *) Eval [20];
   (* 88 *) Eval [21];
   (* 89 *) Eval [22];
   (* 90 *) Eval [31];
   (* 91 *) Eval [23];
   (* 92 *) Eval [20];
   (* 93 *) Eval [20];
   (* 94 *) Eval [20];
   (* 95 *) Eval [20];
   (* 96 *) Eval [20];
   (* 97 *) Eval [20];
   (* 98 *) Eval [20];
   (* 99 *) Eval [20];
   (* 101 *) Eval [20;21;22;23]; Bind [41];
   (* 106 *) Eval [31]; If Opaque [(* 107 *) Eval [41;31]; Bind [41]] [];
   (* 108 *) Eval [20]; If Opaque [(* 109 *) Eval [41;30]; Bind [41]] [];
   (* 110 *) Eval [20]; If Opaque [(* 111 *) Eval [41;20]; Bind [41]] [];
   (* 112 *) Eval [24]; If Opaque [(* 113 *) Eval [41;24]; Bind [41]] [];
   (* 116 *) Eval [13]; Bind [42];
   (* 186 *) 
   (* 187 *) Eval []; Bind [43];
   (* 188 *) Eval [20]; Loop [Bind [44];
    (* 189 *) Eval [18;24]; Bind [45];
    (* 190 *) Eval [45;42]; Loop [Call [46;47;48;49;50;51;52;53;54;55;56;57;58;59;60;61;62;63;64;65] [66] [(* 124 *) Eval [6;66]; Bind [47];
      (* 125 *) Eval [7;5;21]; Bind [57];
      (* 126 *) Eval [8;7;5;21;39;22;23;31;20]; Bind [53];
      (* 132 *) Eval [25;66]; Bind [58];
      (* 133 *) Eval []; Bind [60];
      (* 134 *) Eval []; Bind [52];
      (* 135 *) Eval []; Bind [51];
      (* 136 *) Eval [40;58]; Bind [54];
      (* 137 *) Eval [29;30]; Bind [62];
      (* 138 *) Eval [30]; Loop [Bind [64];
       (* 140 *) Eval [2;34;64]; Bind [49];
       (* 142 *) Eval [54;64]; Loop [Bind [56];
        (* 143 *) Eval [49;56]];
       (* 144 *) Eval [60;49];
       (* 145 *) Eval [47;3;49]; Bind [48];
       (* 146 *) Eval [57;48]; Bind [50];
       (* 147 *) Eval [57;50]; Bind [46];
       (* 148 *) Eval [26;46]; Bind [59;65;61];
       (* 149 *) Eval [52;50;61;12;1;34;64];
       (* 150 *) Eval [53;48]; Bind [50];
       (* 151 *) Eval [51;50;12;1;34;64];
       (* 152 *) Eval [66;64]];
      (* 153 *) Eval [66;52;30];
      (* 154 *) Eval [66;51;30];
      (* 156 *) Eval [34;62];
      (* 157 *) Eval [60;62];
      (* 158 *) Eval [54;62];
      (* 159 *) Eval [52;62];
      (* 160 *) Eval [52;30;62];
      (* 162 *) Eval [58;25;62];
      (* 163 *) Eval [34;62];
      (* 164 *) Eval [30]; If Opaque [Eval [12;34;1;52]] []; Eval [30;34;62];
      (* 169 *) Eval [51;62];
      (* 170 *) Eval [51;30;62];
      (* 171 *) Eval [30]; If Opaque [Eval [12;34;1;51]] []; Eval [30;34;62];
      (* 176 *) Eval [30;62];
      (* 177 *) Eval [21;62];
      (* 179 *) Eval [16]; Bind [63];
      (* 181 *) Eval [63;66]; Bind [55];
      (* 182 *) Eval [0;62;55];
      (* 183 *) Eval [62]; Return]]; Eval [33;13]; Bind [67];
    (* 192 *) Eval [16]; Bind [68];
    (* 195 *) Eval [17;68]; Bind [69];
    (* 196 *) Eval [17;69];
    (* 197 *) Eval [17;69]; Bind [27];
    (* 198 *) Eval [27;41];
    (* 200 *) Eval [17;69;44;68]; Bind [27];
    (* 202 *) Eval [0;67;27];
    (* 204 *) Eval [3;67]; Bind [70];
    (* 205 *) Eval [3;67]; Bind [71];
    (* 206 *) Eval [3;67]; Bind [72];
    (* 207 *) Eval [14]; Bind [73];
    (* 208 *) Eval [14;70;71;72];
    (* 209 *) Eval [14];
    (* 210 *) Eval [14];
    (* 211 *) Eval [73;17;69];
    (* 213 *) Eval [14]; Bind [74];
    (* 214 *) Eval [3;67]; Bind [75];
    (* 215 *) Eval [3;67]; Bind [76];
    (* 216 *) Eval [14;70;75;76];
    (* 217 *) Eval [14];
    (* 218 *) Eval [14];
    (* 219 *) Eval [74;17;69];
    (* 221 *) Eval [20;70;71;72;75;76]; Bind [77];
    (* 224 *) Eval [17;69;44;68]; Bind [27];
    (* 226 *) Eval [0;77;27];
    (* 227 *) Eval [43;77]];
   (* 229 *) Eval [17;68]; Bind [27];
   (* 231 *) Eval [0;43;27]] |}.

(** runs/HC_eilat_July_2018/simulated_data_mavlink_decoding.py:1-319. *)
Definition py_runs_HC_eilat_July_2018_simulated_data_mavlink_decoding : file := {| f_name := "runs/HC_eilat_July_2018/simulated_data_mavlink_decoding.py";
  f_vars := ["pickle"; "Bits"; "BitArray"; "np"; "EncoderWiFi"; "WiFiSpecCode"; "bsc_llr"; "DecoderWiFi"; "MavlinkRectifyingDecoder"
    ; "BufferSegmentation"; "BufferModel"; "meta"; "hamming_distance"; "Any"; "plt"; "argparse"; "datetime"; "os"; "Pool"
    ; "savemat"; "lzma"; "pd"; "setup_logger"; "shutil"; "parser"; "args"; "ldpc_iterations"; "processes"; "f"; "hc_tx"; "hc_bin_data"
    ; "n"; "window_len"; "rng"; "bit_flip_p"; "spec"; "encoder"; "encoded"; "binary_data"; "pad_len"; "padded"; "_"; "data_model"
    ; "bs"; "buffer_structure"; "buffer_structures"; "model_length"; "logger"; "simulation_step"; "timestamp"; "path"; "cmd"
    ; "pool"; "simulation_step.channel"; "simulation_step.channel_llr"; "simulation_step.corrupted"; "simulation_step.d"; "simulation_step.decoded_ldpc"
    ; "simulation_step.decoded_ldpc_df"; "simulation_step.decoded_rect"; "simulation_step.decoded_rect_df"; "simulation_step.errors"
    ; "simulation_step.f"; "simulation_step.info_errors"; "simulation_step.ldpc_decoder"; "simulation_step.no_errors"; "simulation_step.parity_errors"
    ; "simulation_step.pure_success"; "simulation_step.rect_success"; "simulation_step.rectify_decoder"; "simulation_step.rx"
    ; "simulation_step.step_results"; "simulation_step.timestamp"; "simulation_step.tx_idx"; "simulation_step.zipped"; "simulation_step.p"
    ; "results"; "raw_ber"; "ldpc_ber"; "rect_ber"; "fig"; "figure"; "ldpc_buffer_success_rate"; "rect_buffer_success_rate"
    ; "summary"; "step"; "e"];
  f_body :=
   [(* 1 *) Eval []; Bind [0];
   (* 2 *) Eval []; Bind [1;2];
   (* 3 *) Eval []; Bind [3];
   (* 4 *) Eval []; Bind [4];
   (* 5 *) Eval []; Bind [5];
   (* 6 *) Eval []; Bind [6;7];
   (* 7 *) Eval []; Bind [8];
   (* 8 *) Eval []; Bind [9;10];
   (* 9 *) Eval []; Bind [11];
   (* 10 *) Eval []; Bind [12];
   (* 11 *) Eval []; Bind [13];
   (* 12 *) Eval []; Bind [14];
   (* 13 *) Eval []; Bind [15];
   (* 14 *) Eval []; Bind [16];
   (* 15 *) Eval []; Bind [17];
   (* 16 *) Eval []; Bind [18];
   (* 17 *) Eval []; Bind [19];
   (* 18 *) Eval []; Bind [20];
   (* 19 *) Eval []; Bind [21];
   (* 20 *) Eval []; Bind [22];
   (* 21 *) Eval []; Bind [23];
   (* 23 *) Eval [15]; Bind [24];
   (* 24 *) Eval [24];
   (* 25 *) Eval [24];
   (* 26 *) Eval [24];
   (* 27 *) Eval [24];
   (* 28 *) Eval [24];
   (* 29 *) Eval [24];
   (* 30 *) Eval [24];
   (* 31 *) Eval [24];
   (* 32 *) Eval [24];
   (* 33 *) Eval [24];
   (* 34 *) Eval [24];
   (* 35 *) Eval [24];
   (* 36 *) Eval [24];
   (* 37 *) Eval [24];
   (* 38 *) Eval [24];
   (* 39 *) Eval [24];
   (* 41 *) Eval [24];
   (* 43 *) Eval [24];
   (* 45 *) Eval [24];
   (* 46 *) Eval [24];
   (* 47 *) Eval [24];
   (* 49 *) Eval [24]; Bind [25];
   (* 51 *) Eval [25]; Bind [26];
   (* 52 *) Eval [25]; If Opaque [Eval [25]] []; Bind [27];
   (* 54 *) Eval []; Bind [28];
   (* 55 *) Eval [0;28]; Bind [29];
   (* 57 *) Eval [29;25]; If Opaque [Eval [1]] []; Bind [30];
   (* 58 *) Eval [25]; If Opaque [Eval [25]] [Eval [30]]; Bind [31];
   (* 59 *) Eval [25]; If Opaque [Eval [25]] []; Bind [32];
   (* 61 *) Eval [3]; Bind [33];
   (* 62 *) Eval [3;25]; Bind [34];
   (* 64 *) Eval [25]; If (Is "n_clusters" (VInt 1)) [(* 65 *) Eval [5]; Bind [35];
    (* 66 *) Eval [25]] [(* 67 *) Eval [25]; If (Is "n_clusters" (VInt 2)) [(* 68 *) Eval [5]; Bind [35]] [(* 69 *) Eval [25]; If (Is "n_clusters" (VInt 3)) [(* 70 *) Eval [5]; Bind [35]] [(* 72 *) Eval []; Raise]]];
   (* 73 *) Eval [4;35]; Bind [36];
   (* 74 *) Eval []; Bind [37];
   (* 75 *) Eval [30;31]; Loop [Bind [38];
    (* 76 *) Eval [25]; If (Is "n_clusters" (VInt 1)) [(* 77 *) Eval [36;38]; Bind [39];
     (* 78 *) Eval [38;1;33;39]; Bind [40];
     (* 79 *) Eval [37;36;40]] [(* 80 *) Eval [25]; If (Is "n_clusters" (VInt 2)) [(* 81 *) Eval [38;1;33;36]; Bind [40];
      (* 82 *) Eval [37;36;40;38]] [(* 83 *) Eval [25]; If (Is "n_clusters" (VInt 3)) [(* 84 *) Eval [38;1;33;36]; Bind [40];
       (* 85 *) Eval [37;36;40];
       (* 86 *) Eval [38;1;33;36]; Bind [40];
       (* 87 *) Eval [37;36;40];
       (* 88 *) Eval [38;1;33;36]; Bind [40];
       (* 89 *) Eval [37;36;40]] []]]];
   (* 91 *) Eval [25]; Loop [Bind [41];
    (* 92 *) Eval [37]];
   (* 93 *) Eval [37]; Bind [31];
   (* 95 *) Eval [25]; If (Not (Truthy "cluster")) [(* 96 *) Eval []; Bind [42];
    (* 97 *) Eval [9;11]; Bind [43];
    (* 98 *) Eval [25]; If (Is "n_clusters" (VInt 1)) [(* 99 *) Eval [43;38]; Bind [41;41;44];
     (* 100 *) Eval [44]; Bind [45]] [(* 101 *) Eval [25]; If (Is "n_clusters" (VInt 2)) [(* 102 *) Eval [43;38]; Bind [41;41;44];
      (* 103 *) Eval [44]; Bind [45];
      (* 104 *) Eval [43;38]; Bind [41;41;44];
      (* 105 *) Eval [45;44]] [(* 106 *) Eval [25]; If (Is "n_clusters" (VInt 3)) [(* 107 *) Eval [43;38]; Bind [41;41;44];
       (* 108 *) Eval [44]; Bind [45];
       (* 109 *) Eval [43;38]; Bind [41;41;44];
       (* 110 *) Eval [45;44];
       (* 111 *) Eval [43;38]; Bind [41;41;44];
       (* 112 *) Eval [45;44]] [(* 114 *) Eval []; Raise]]]] [];
   (* 115 *) Eval [25]; If (Not (Truthy "learn")) [(* 116 *) Eval [10]; Bind [42]] [];
   (* 118 *) Eval [36]; Bind [46];
   (* 125 *) Eval [22;17]; Bind [47];
   (* 128 *) Eval [13]; Bind [48];
   (* 219 *) 
   (* 220 *) Eval [16]; Bind [49];
   (* 223 *) Eval [17;49]; Bind [50];
   (* 224 *) Eval [17;50];
   (* 226 *) Eval [47];
   (* 227 *) Eval [47;31];
   (* 228 *) Eval [47;25];
   (* 229 *) Eval [47;25];
   (* 230 *) Eval [47;25];
   (* 231 *) Eval [47;26];
   (* 232 *) Eval [47;25];
   (* 233 *) Eval [47;25];
   (* 234 *) Eval [47;25];
   (* 235 *) Eval [47;25];
   (* 236 *) Eval [47;25];
   (* 237 *) Eval [47;25];
   (* 238 *) Eval [47;25];
   (* 239 *) Eval [47;25];
   (* 240 *) Eval [47;25];
   (* 241 *) Eval [47;25];
   (* 242 *) Eval [47;25];
   (* 243 *) Eval [47;32];
   (* 244 *) Eval [47;25];
   (* 245 *) Eval [47;25];
   (* 246 *) Eval [47;25];
   (* 247 *) Eval [47;25];
   (* 249 *) Eval [25;26]; Bind [51];
   (* 256 *) Eval [25]; If Opaque [(* 257 *) Eval [51;31]; Bind [51]] [];
   (* 258 *) Eval [32]; If Opaque [(* 259 *) Eval [51;32]; Bind [51]] [(* 261 *) Eval [51]; Bind [51]];
   (* 262 *) Eval [27]; If Opaque [(* 263 *) Eval [51;27]; Bind [51]] [];
   (* 265 *) Eval [17;50]; Bind [28];
   (* 266 *) Eval [28;51];
   (* 267 *) Eval [47;51];
   (* 269 *) Eval [18;27]; Bind [52];
   (* 270 *) Eval [52;48]; Loop [Call [53;54;55;56;57;58;59;60;61;62;63;64;65;66;67;68;69;70;71;72;73;74] [75] [(* 140 *) Eval [6;75]; Bind [53];
     (* 141 *) Eval [7;35;25;26]; Bind [64];
     (* 142 *) Eval [8;7;35;26;25;46;32;42]; Bind [69];
     (* 149 *) Eval [25]; If (Not (Truthy "cluster")) [(* 150 *) Eval [69;45]] [];
     (* 151 *) Eval [36;75]; Bind [65];
     (* 152 *) Eval []; Bind [70];
     (* 153 *) Eval []; Bind [57];
     (* 154 *) Eval []; Bind [59];
     (* 155 *) Eval [3;31]; If Opaque [Eval [33;36;65]] []; Bind [61];
     (* 159 *) Eval [30;31]; Bind [71];
     (* 162 *) Eval [31]; Loop [Bind [73];
      (* 163 *) Eval [2;37;73]; Bind [55];
      (* 164 *) Eval [55;61;73];
      (* 165 *) Eval [70;55];
      (* 166 *) Eval [53;3;55]; Bind [54];
      (* 167 *) Eval [64;54]; Bind [56];
      (* 168 *) Eval [57;56;12;37;73];
      (* 169 *) Eval [69;54;61;73]; Bind [56];
      (* 170 *) Eval [59;56;12;37;73];
      (* 171 *) Eval [47;75;73]];
     (* 172 *) Eval [57]; Bind [67];
     (* 173 *) Eval [59]; Bind [68];
     (* 174 *) Eval [47;75;67;31];
     (* 175 *) Eval [47;75;68;31];
     (* 176 *) Eval [31;67]; If Opaque [(* 177 *) Eval [47;75;68;67;31]] [(* 179 *) Eval [47;75]];
     (* 182 *) Eval [3;61;36]; Bind [63];
     (* 183 *) Eval [3;61;36]; Bind [66];
     (* 184 *) Eval [37;70;61;63;66]; If Opaque [Eval [3]] []; Bind [74];
     (* 186 *) Eval [21;74;71];
     (* 190 *) Eval [65;36;71];
     (* 191 *) Eval [37;71];
     (* 192 *) Eval [31;71];
     (* 193 *) Eval [26;71];
     (* 196 *) Eval [21;59]; Bind [60];
     (* 201 *) Eval [60;71];
     (* 202 *) Eval [21;57]; Bind [58];
     (* 205 *) Eval [58;71];
     (* 207 *) Eval [57;31;71];
     (* 208 *) Eval [57;31;37;71];
     (* 209 *) Eval [59;31;71];
     (* 210 *) Eval [59;31;37;71];
     (* 212 *) Eval [16]; Bind [72];
     (* 214 *) Eval [72;75]; Bind [62];
     (* 215 *) Eval [0;71;62];
     (* 216 *) Eval [71]; Return]]; Eval [34;13]; Bind [76];
   (* 273 *) Try [(* 274 *) Eval [20;17;50;49;25]; Bind [28];
    (* 277 *) Eval [0;76;28];
    (* 278 *) Eval [47];
    (* 280 *) Eval [3;76]; Bind [77];
    (* 281 *) Eval [3;76]; Bind [78];
    (* 282 *) Eval [3;76]; Bind [79];
    (* 283 *) Eval [14]; Bind [80];
    (* 284 *) Eval [14;77;78;79];
    (* 285 *) Eval [14];
    (* 286 *) Eval [14];
    (* 287 *) Eval [80;17;50];
    (* 289 *) Eval [14]; Bind [81];
    (* 290 *) Eval [3;76]; Bind [82];
    (* 291 *) Eval [3;76]; Bind [83];
    (* 292 *) Eval [14;77;82;83];
    (* 293 *) Eval [14];
    (* 294 *) Eval [14];
    (* 295 *) Eval [81;17;50];
    (* 297 *) Eval [47];
    (* 298 *) Eval [25;77;78;79;82;83]; Bind [84];
    (* 301 *) Eval [17;50;49;25]; Bind [28];
    (* 302 *) Eval [0;84;28];
    (* 303 *) Eval [19;17;50;49;25;84];
    (* 304 *) Eval [47];
    (* 306 *) Eval [76]; Loop [Bind [85];
     (* 307 *) Eval [85];
     (* 308 *) Eval [85];
     (* 309 *) Eval [85]];
    (* 311 *) Eval [76;84];
    (* 312 *) Eval [19;17;50;49;25;84];
    (* 314 *) Eval [47];
    (* 315 *) Eval [23;17;50]] [Bind [86];
    (* 317 *) Eval [47;86];
    (* 318 *) Eval [23;17;50];
    (* 319 *) Eval [86]; Raise]] |}.

(** runs/HC_eilat_July_2018/simulated_data_pretrained_model.py:1-283. *)
Definition py_runs_HC_eilat_July_2018_simulated_data_pretrained_model : file := {| f_name := "runs/HC_eilat_July_2018/simulated_data_pretrained_model.py";
  f_vars := ["pickle"; "Bits"; "BitArray"; "np"; "EncoderWiFi"; "WiFiSpecCode"; "bsc_llr"; "DecoderWiFi"; "ClassifyingEntropyDecoder"
    ; "hamming_distance"; "Any"; "plt"; "argparse"; "datetime"; "os"; "Pool"; "savemat"; "lzma"; "pd"; "setup_logger"; "shutil"
    ; "json"; "parser"; "args"; "ldpc_iterations"; "thr"; "clipping_factor"; "processes"; "f"; "hc_tx"; "hc_bin_data"; "n"
    ; "window_len"; "rng"; "bit_flip_p"; "spec"; "encoder"; "encoded"; "binary_data"; "pad_len"; "padded"; "_"; "model_length"
    ; "data_model"; "logger"; "simulation_step"; "timestamp"; "path"; "cmd"; "pool"; "simulation_step.channel"; "simulation_step.channel_llr"
    ; "simulation_step.corrupted"; "simulation_step.d"; "simulation_step.decoded_entropy"; "simulation_step.decoded_entropy_df"
    ; "simulation_step.decoded_ldpc"; "simulation_step.decoded_ldpc_df"; "simulation_step.decoded_pre_trained"; "simulation_step.decoded_pre_trained_df"
    ; "simulation_step.entropy_decoder"; "simulation_step.entropy_success"; "simulation_step.errors"; "simulation_step.f"
    ; "simulation_step.info_errors"; "simulation_step.ldpc_decoder"; "simulation_step.no_errors"; "simulation_step.parity_errors"
    ; "simulation_step.pre_trained_decoder"; "simulation_step.pre_trained_success"; "simulation_step.pure_success"; "simulation_step.rx"
    ; "simulation_step.step_results"; "simulation_step.timestamp"; "simulation_step.tx_idx"; "simulation_step.zipped"; "simulation_step.p"
    ; "results"; "raw_ber"; "ldpc_ber"; "entropy_ber"; "pre_trained_ber"; "fig"; "figure"; "ldpc_buffer_success_rate"; "entropy_buffer_success_rate"
    ; "pre_trained_buffer_success_rate"; "summary"; "step"; "e"];
  f_body :=
   [(* 1 *) Eval []; Bind [0];
   (* 2 *) Eval []; Bind [1;2];
   (* 3 *) Eval []; Bind [3];
   (* 4 *) Eval []; Bind [4];
   (* 5 *) Eval []; Bind [5];
   (* 6 *) Eval []; Bind [6;7];
   (* 7 *) Eval []; Bind [8];
   (* 8 *) Eval []; Bind [9];
   (* 9 *) Eval []; Bind [10];
   (* 10 *) Eval []; Bind [11];
   (* 11 *) Eval []; Bind [12];
   (* 12 *) Eval []; Bind [13];
   (* 13 *) Eval []; Bind [14];
   (* 14 *) Eval []; Bind [15];
   (* 15 *) Eval []; Bind [16];
   (* 16 *) Eval []; Bind [17];
   (* 17 *) Eval []; Bind [18];
   (* 18 *) Eval []; Bind [19];
   (* 19 *) Eval []; Bind [20];
   (* 20 *) Eval []; Bind [21];
   (* 23 *) Eval [12]; Bind [22];
   (* 24 *) Eval [22];
   (* 25 *) Eval [22];
   (* 26 *) Eval [22];
   (* 27 *) Eval [22];
   (* 28 *) Eval [22];
   (* 29 *) Eval [22];
   (* 30 *) Eval [22];
   (* 31 *) Eval [22];
   (* 32 *) Eval [22];
   (* 33 *) Eval [22];
   (* 34 *) Eval [22];
   (* 35 *) Eval [22];
   (* 36 *) Eval [22];
   (* 37 *) Eval [22];
   (* 38 *) Eval [22];
   (* 40 *) Eval [22]; Bind [23];
   (* 42 *) Eval [23]; Bind [24];
   (* 43 *) Eval [23]; Bind [25];
   (* 44 *) Eval [23]; Bind [26];
   (* 45 *) Eval [23]; If Opaque [Eval [23]] []; Bind [27];
   (* 47 *) Eval []; Bind [28];
   (* 48 *) Eval [0;28]; Bind [29];
   (* 50 *) Eval [29;23]; If Opaque [Eval [1]] []; Bind [30];
   (* 51 *) Eval [23]; If Opaque [Eval [23]] [Eval [30]]; Bind [31];
   (* 52 *) Eval [23]; If Opaque [Eval [23]] []; Bind [32];
   (* 55 *) Eval [3]; Bind [33];
   (* 56 *) Eval [3;23]; Bind [34];
   (* 58 *) Eval [5]; Bind [35];
   (* 59 *) Eval [4;35]; Bind [36];
   (* 60 *) Eval []; Bind [37];
   (* 61 *) Eval [30;31]; Loop [Bind [38];
    (* 62 *) Eval [36;38]; Bind [39];
    (* 63 *) Eval [38;1;33;39]; Bind [40];
    (* 64 *) Eval [37;36;40]];
   (* 66 *) Eval [23]; Loop [Bind [41];
    (* 67 *) Eval [37]];
   (* 69 *) Eval [23]; If Opaque [Eval [36]] [Eval [36]]; Bind [42];
   (* 70 *) Eval [37]; Bind [31];
   (* 71 *) Eval []; Bind [28];
   (* 72 *) Eval [3;21;28]; Bind [43];
   (* 80 *) Eval [19;14]; Bind [44];
   (* 83 *) Eval [10]; Bind [45];
   (* 190 *) 
   (* 191 *) Eval [13]; Bind [46];
   (* 194 *) Eval [14;46]; Bind [47];
   (* 196 *) Eval [44];
   (* 197 *) Eval [44;31];
   (* 198 *) Eval [44;23];
   (* 199 *) Eval [44;23];
   (* 200 *) Eval [44;23];
   (* 201 *) Eval [44;24];
   (* 202 *) Eval [44;23];
   (* 203 *) Eval [44;23];
   (* 204 *) Eval [44;23];
   (* 205 *) Eval [44;23];
   (* 206 *) Eval [44;32];
   (* 207 *) Eval [44;23];
   (* 208 *) Eval [44;23];
   (* 209 *) Eval [44;25];
   (* 210 *) Eval [44;26];
   (* 211 *) Eval [44;23];
   (* 213 *) Eval [23;24;25;26]; Bind [48];
   (* 217 *) Eval [23]; If Opaque [(* 218 *) Eval [48;31]; Bind [48]] [];
   (* 219 *) Eval [32]; If Opaque [(* 220 *) Eval [48;32]; Bind [48]] [(* 222 *) Eval [48]; Bind [48]];
   (* 223 *) Eval [27]; If Opaque [(* 224 *) Eval [48;27]; Bind [48]] [];
   (* 225 *) Eval [14;47];
   (* 226 *) Eval [14;47]; Bind [28];
   (* 227 *) Eval [28;48];
   (* 228 *) Eval [44;48];
   (* 230 *) Try [(* 231 *) Eval [15;27]; Bind [49];
    (* 232 *) Eval [49;45]; Loop [Call [50;51;52;53;54;55;56;57;58;59;60;61;62;63;64;65;66;67;68;69;70;71;72;73;74;75] [76] [(* 97 *) Eval [6;76]; Bind [50];
      (* 98 *) Eval [7;35;24;23]; Bind [65];
      (* 99 *) Eval [8;7;35;24;23;42;25;26;32;76]; Bind [60];
      (* 106 *) Eval [8;7;35;24;23;42;25;26;32;76;43]; Bind [68];
      (* 113 *) Eval [36;76]; Bind [66];
      (* 114 *) Eval [3;31;36]; Bind [71];
      (* 115 *) Eval []; Bind [56];
      (* 116 *) Eval []; Bind [54];
      (* 117 *) Eval []; Bind [58];
      (* 118 *) Eval [3;31]; If Opaque [Eval [33;36;66]] []; Bind [62];
      (* 122 *) Eval [30;31]; Bind [72];
      (* 123 *) Eval [31]; Loop [Bind [74];
       (* 124 *) Eval [2;37;74]; Bind [52];
       (* 125 *) Eval [52;62;74];
       (* 126 *) Eval [3;52;71;74];
       (* 127 *) Eval [50;3;52]; Bind [51];
       (* 128 *) Eval [65;51]; Bind [53];
       (* 129 *) Eval [56;53;9;37;74];
       (* 130 *) Eval [60;51]; Bind [53];
       (* 131 *) Eval [54;53;9;37;74];
       (* 132 *) Eval [68;51]; Bind [53];
       (* 133 *) Eval [58;53;9;37;74];
       (* 134 *) Eval [44;76;74]];
      (* 135 *) Eval [56]; Bind [70];
      (* 136 *) Eval [54]; Bind [61];
      (* 137 *) Eval [58]; Bind [69];
      (* 138 *) Eval [44;76;70;31];
      (* 139 *) Eval [44;76;61;31];
      (* 140 *) Eval [44;76;69;31];
      (* 141 *) Eval [31;70]; If Opaque [(* 142 *) Eval [44;76;61;70;31]] [];
      (* 143 *) Eval [31;69]; If Opaque [(* 144 *) Eval [44;76;69;70;31]] [];
      (* 147 *) Eval [3;62;36]; Bind [64];
      (* 148 *) Eval [3;62;36]; Bind [67];
      (* 149 *) Eval [37;71;62;64;67]; If Opaque [Eval [3]] []; Bind [75];
      (* 151 *) Eval [18;75;72];
      (* 155 *) Eval [66;36;72];
      (* 156 *) Eval [37;72];
      (* 157 *) Eval [31;72];
      (* 158 *) Eval [24;72];
      (* 161 *) Eval [18;54]; Bind [55];
      (* 164 *) Eval [55];
      (* 165 *) Eval [55;72];
      (* 166 *) Eval [18;56]; Bind [57];
      (* 169 *) Eval [57;72];
      (* 170 *) Eval [18;58]; Bind [59];
      (* 173 *) Eval [59];
      (* 174 *) Eval [59;72];
      (* 176 *) Eval [56;31;72];
      (* 177 *) Eval [56;31;37;72];
      (* 178 *) Eval [54;31;72];
      (* 179 *) Eval [54;31;37;72];
      (* 180 *) Eval [58;31;72];
      (* 181 *) Eval [58;31;37;72];
      (* 183 *) Eval [13]; Bind [73];
      (* 185 *) Eval [73;76]; Bind [63];
      (* 186 *) Eval [0;72;63];
      (* 187 *) Eval [72]; Return]]; Eval [34;10]; Bind [77];
    (* 234 *) Eval [17;14;47;46;23]; Bind [28];
    (* 237 *) Eval [0;77;28];
    (* 239 *) Eval [3;77]; Bind [78];
    (* 240 *) Eval [3;77]; Bind [79];
    (* 241 *) Eval [3;77]; Bind [80];
    (* 242 *) Eval [3;77]; Bind [81];
    (* 243 *) Eval [11]; Bind [82];
    (* 244 *) Eval [11;78;79;80;81];
    (* 245 *) Eval [11];
    (* 246 *) Eval [11];
    (* 247 *) Eval [82;14;47];
    (* 249 *) Eval [11]; Bind [83];
    (* 250 *) Eval [3;77]; Bind [84];
    (* 251 *) Eval [3;77]; Bind [85];
    (* 252 *) Eval [3;77]; Bind [86];
    (* 253 *) Eval [11;78;84;85;86];
    (* 255 *) Eval [11];
    (* 256 *) Eval [11];
    (* 257 *) Eval [83;14;47];
    (* 259 *) Eval [23;78;79;80;81;86;84;85]; Bind [87];
    (* 263 *) Eval [14;47;46;23]; Bind [28];
    (* 265 *) Eval [0;87;28];
    (* 267 *) Eval [16;14;47;46;23;87];
    (* 269 *) Eval [77]; Loop [Bind [88];
     (* 270 *) Eval [88];
     (* 271 *) Eval [88];
     (* 272 *) Eval [88];
     (* 273 *) Eval [88]];
    (* 275 *) Eval [77;87];
    (* 276 *) Eval [16;14;47;46;23;87];
    (* 278 *) Eval [44];
    (* 279 *) Eval [20;14;47]] [Bind [89];
    (* 281 *) Eval [44;89];
    (* 282 *) Eval [20;14;47];
    (* 283 *) Eval [89]; Raise]] |}.

(** runs/clsutering_analysis/cluster_mnist.py:1-33. *)
Definition py_runs_clsutering_analysis_cluster_mnist : file := {| f_name := "runs/clsutering_analysis/cluster_mnist.py";
  f_vars := ["datasets"; "train_test_split"; "BufferClassifier"; "BMM"; "np"; "pickle"; "relabel"; "digits"; "n_samples"; "data"
    ; "X_train"; "X_test"; "y_train"; "y_test"; "classifier"; "labels"; "buffer"; "label"; "f"; "idx"; "y_predict"];
  f_body :=
   [(* 1 *) Eval []; Bind [0];
   (* 2 *) Eval []; Bind [1];
   (* 3 *) Eval []; Bind [2;3];
   (* 4 *) Eval []; Bind [4];
   (* 5 *) Eval []; Bind [5];
   (* 6 *) Eval []; Bind [6];
   (* 8 *) Eval [0]; Bind [7];
   (* 9 *) Eval [7]; Bind [8];
   (* 10 *) Eval [7;8]; Bind [9];
   (* 12 *) Eval [1;9;7]; Bind [10;11;12;13];
   (* 15 *) Eval [10];
   (* 16 *) Eval [2;10]; Bind [14];
   (* 18 *) Eval [4;11]; Bind [15];
   (* 19 *) Eval [10]; Loop [Bind [16];
    (* 20 *) Eval [14;16]; Bind [17]];
   (* 22 *) Eval [14];
   (* 23 *) Eval []; Bind [18];
   (* 24 *) Eval [5;10;18];
   (* 25 *) Eval [5;12;18];
   (* 26 *) Eval [11]; Loop [Bind [19;16];
    (* 27 *) Eval [14;16;15;19]];
   (* 28 *) Eval [6;15;13]; Bind [20]] |}.

(** runs/clsutering_analysis/clustering_analysis.py:1-156. *)
Definition py_runs_clsutering_analysis_clustering_analysis : file := {| f_name := "runs/clsutering_analysis/clustering_analysis.py";
  f_vars := ["argparse"; "datetime"; "os"; "Any"; "shutil"; "np"; "train_test_split"; "BufferClassifier"; "BMM"; "savemat"
    ; "relabel"; "Pool"; "setup_logger"; "stats"; "parser"; "args"; "n_classes"; "p"; "n_training"; "train_with_errors"; "shuffle"
    ; "number_of_runs"; "n_jobs"; "logger"; "analyze_mine"; "analyze"; "timestamp"; "path"; "cmd"; "f"; "analyze.X_test"; "analyze.X_train"
    ; "analyze.actual_classes"; "analyze.bmm"; "analyze.bmm_predictions"; "analyze.bmm_stats"; "analyze.buffers"; "analyze.class_idx"
    ; "analyze.clustering_labels"; "analyze.clustering_stats"; "analyze.errors"; "analyze.errors_bool"; "analyze.k"; "analyze.l_map"
    ; "analyze.n"; "analyze.n_buffers"; "analyze.no_errors"; "analyze.pad_len"; "analyze.r"; "analyze.real_info_bits_per_buffer"
    ; "analyze.relabeled_bmm_predictions"; "analyze.rng"; "analyze.tx"; "analyze.tx_idx"; "analyze.y_test"; "analyze.y_train"
    ; "analyze.run_idx"; "analyze_mine.buffer"; "analyze_mine.classifier"; "analyze_mine.idx"; "analyze_mine.labels"; "analyze_mine.buffers"
    ; "analyze_mine.n_buffers"; "results"; "pool"; "clustering_results"; "clustering_cm"; "clustering_recall"; "clustering_precision"
    ; "clustering_f1"; "clustering_accuracy"; "bmm_results"; "bmm_cm"; "bmm_recall"; "bmm_precision"; "bmm_f1"; "bmm_accuracy"
    ; "e"];
  f_body :=
   [(* 1 *) Eval []; Bind [0];
   (* 2 *) Eval []; Bind [1];
   (* 3 *) Eval []; Bind [2];
   (* 4 *) Eval []; Bind [3];
   (* 5 *) Eval []; Bind [4];
   (* 6 *) Eval []; Bind [5];
   (* 7 *) Eval []; Bind [6];
   (* 8 *) Eval []; Bind [7;8];
   (* 9 *) Eval []; Bind [9];
   (* 10 *) Eval []; Bind [10];
   (* 11 *) Eval []; Bind [11];
   (* 12 *) Eval []; Bind [12];
   (* 13 *) Eval []; Bind [13];
   (* 15 *) Eval [0]; Bind [14];
   (* 16 *) Eval [14];
   (* 17 *) Eval [14];
   (* 18 *) Eval [14];
   (* 19 *) Eval [14];
   (* 20 *) Eval [14];
   (* 21 *) Eval [14];
   (* 22 *) Eval [14];
   (* 23 *) Eval [14]; Bind [15];
   (* 25 *) Eval [15]; Bind [16];
   (* 26 *) Eval [15]; Bind [17];
   (* 27 *) Eval [15]; Bind [18];
   (* 28 *) Eval [15]; Bind [19];
   (* 29 *) Eval [15]; Bind [20];
   (* 30 *) Eval [15]; Bind [21];
   (* 31 *) Eval [15]; Bind [22];
   (* 32 *) Eval [12;2]; Bind [23];
   (* 35 *) Eval []; Bind [24];
   (* 45 *) Eval []; Bind [25];
   (* 105 *) 
   (* 106 *) Try [(* 107 *) Eval [1]; Bind [26];
    (* 111 *) Eval [2;26]; Bind [27];
    (* 112 *) Eval [2;27];
    (* 113 *) Eval [23;16;17;18;19;20;21];
    (* 115 *) Eval [16;17;18;19;20;21]; Bind [28];
    (* 117 *) Eval [2;27]; Bind [29];
    (* 118 *) Eval [29;28];
    (* 119 *) Eval [23;28];
    (* 120 *) Eval [22]; If Opaque [(* 121 *) Eval [21]; If Opaque [Eval [25]; Loop [Call [30;31;32;33;34;35;36;37;38;39;40;41;42;43;44;45;46;47;48;49;50;51;52;53;54;55] [56] [(* 47 *) Eval [5]; Bind [51];
        (* 48 *) Eval [16]; If Opaque [(* 49 *) Eval []; Bind [44];
         (* 50 *) Eval []; Bind [48]] [(* 51 *) Eval [16]; If Opaque [(* 52 *) Eval []; Bind [44];
          (* 53 *) Eval []; Bind [48]] [(* 55 *) Eval []; Raise]];
        (* 57 *) Eval [44;48]; Bind [42];
        (* 58 *) Eval [5]; Bind [52];
        (* 59 *) Eval [52]; Bind [45;49];
        (* 60 *) Eval [42;17]; Bind [46];
        (* 63 *) Eval [5;45;16;42]; Bind [36];
        (* 64 *) Eval [5;45;16]; Bind [32];
        (* 65 *) Eval [42;49;16]; Bind [47];
        (* 66 *) Eval [52]; Loop [Bind [53;52];
         (* 67 *) Eval [16]; Loop [Bind [37];
          (* 68 *) Eval [5;52;37;49;16;51;47;36;53];
          (* 73 *) Eval [46]; If Opaque [Eval [19]; If Opaque [Eval [53;18]] []] []; If Opaque [(* 74 *) Eval [51;42;16;46]; Bind [40];
           (* 75 *) Eval [5;42]; Bind [41];
           (* 76 *) Eval [41;40];
           (* 77 *) Eval [5;36;53;16;37;41]] [];
          (* 78 *) Eval [37;32;53;16]]];
        (* 80 *) Eval [20]; If Opaque [(* 81 *) Eval [6;36;32;18]; Bind [31;30;55;54];
         (* 84 *) Eval [5;31;30]; Bind [36]] [(* 86 *) Eval [6;36;32;18]; Bind [31;30;55;54];
         (* 89 *) Eval [5;31;30]; Bind [36]];
        (* 90 *) Eval [24]; Loop [Call [57;58;59;60] [61;62] [(* 37 *) Eval [7;18;16]; Bind [58];
          (* 39 *) Eval [5;62;16]; Bind [60];
          (* 40 *) Eval [61]; Loop [Bind [59;57];
           (* 41 *) Eval [58;57;60;59]];
          (* 42 *) Eval [60;18]; Return]]; Eval [36;45]; Bind [38];
        (* 91 *) Eval [10;38;16;54]; Bind [38;43];
        (* 92 *) Eval [13;54;38]; Bind [39];
        (* 93 *) Eval [23;56;39];
        (* 95 *) Eval [8;16]; Bind [33];
        (* 96 *) Eval [33;31];
        (* 97 *) Eval [23;56];
        (* 98 *) Eval [33;30]; Bind [34];
        (* 99 *) Eval [10;34;16;54]; Bind [50;43];
        (* 100 *) Eval [13;54;50]; Bind [35];
        (* 101 *) Eval [23;56;35];
        (* 102 *) Eval [39;35]; Return]]] []; Eval [3]; Bind [63]] [(* 123 *) Eval [11;22]; If Opaque [Eval [22]] []; Bind [64];
     (* 124 *) Eval [64;25]; Loop [Call [30;31;32;33;34;35;36;37;38;39;40;41;42;43;44;45;46;47;48;49;50;51;52;53;54;55] [56] [(* 47 *) Eval [5]; Bind [51];
       (* 48 *) Eval [16]; If Opaque [(* 49 *) Eval []; Bind [44];
        (* 50 *) Eval []; Bind [48]] [(* 51 *) Eval [16]; If Opaque [(* 52 *) Eval []; Bind [44];
         (* 53 *) Eval []; Bind [48]] [(* 55 *) Eval []; Raise]];
       (* 57 *) Eval [44;48]; Bind [42];
       (* 58 *) Eval [5]; Bind [52];
       (* 59 *) Eval [52]; Bind [45;49];
       (* 60 *) Eval [42;17]; Bind [46];
       (* 63 *) Eval [5;45;16;42]; Bind [36];
       (* 64 *) Eval [5;45;16]; Bind [32];
       (* 65 *) Eval [42;49;16]; Bind [47];
       (* 66 *) Eval [52]; Loop [Bind [53;52];
        (* 67 *) Eval [16]; Loop [Bind [37];
         (* 68 *) Eval [5;52;37;49;16;51;47;36;53];
         (* 73 *) Eval [46]; If Opaque [Eval [19]; If Opaque [Eval [53;18]] []] []; If Opaque [(* 74 *) Eval [51;42;16;46]; Bind [40];
          (* 75 *) Eval [5;42]; Bind [41];
          (* 76 *) Eval [41;40];
          (* 77 *) Eval [5;36;53;16;37;41]] [];
         (* 78 *) Eval [37;32;53;16]]];
       (* 80 *) Eval [20]; If Opaque [(* 81 *) Eval [6;36;32;18]; Bind [31;30;55;54];
        (* 84 *) Eval [5;31;30]; Bind [36]] [(* 86 *) Eval [6;36;32;18]; Bind [31;30;55;54];
        (* 89 *) Eval [5;31;30]; Bind [36]];
       (* 90 *) Eval [24]; Loop [Call [57;58;59;60] [61;62] [(* 37 *) Eval [7;18;16]; Bind [58];
         (* 39 *) Eval [5;62;16]; Bind [60];
         (* 40 *) Eval [61]; Loop [Bind [59;57];
          (* 41 *) Eval [58;57;60;59]];
         (* 42 *) Eval [60;18]; Return]]; Eval [36;45]; Bind [38];
       (* 91 *) Eval [10;38;16;54]; Bind [38;43];
       (* 92 *) Eval [13;54;38]; Bind [39];
       (* 93 *) Eval [23;56;39];
       (* 95 *) Eval [8;16]; Bind [33];
       (* 96 *) Eval [33;31];
       (* 97 *) Eval [23;56];
       (* 98 *) Eval [33;30]; Bind [34];
       (* 99 *) Eval [10;34;16;54]; Bind [50;43];
       (* 100 *) Eval [13;54;50]; Bind [35];
       (* 101 *) Eval [23;56;35];
       (* 102 *) Eval [39;35]; Return]]; Eval [21]; Bind [63]];
    (* 125 *) Eval [63]; Bind [65];
    (* 126 *) Eval [5;65]; Bind [66];
    (* 127 *) Eval [13;66]; Bind [66;67;68;69;70];
    (* 129 *) Eval [63]; Bind [71];
    (* 130 *) Eval [5;71]; Bind [72];
    (* 131 *) Eval [13;72]; Bind [72;73;74;75;76];
    (* 133 *) Eval [9;2;27;26;16;17;18;19;20;5;66;67;68;69;70;72;73;74;75;76];
    (* 151 *) Eval [23];
    (* 152 *) Eval [4;2;27]] [Bind [77];
    (* 154 *) Eval [23;77];
    (* 155 *) Eval [4;2;27];
    (* 156 *) Eval [77]; Raise]] |}.

(** runs/clsutering_analysis/functions.py:1-43. *)
Definition py_runs_clsutering_analysis_functions : file := {| f_name := "runs/clsutering_analysis/functions.py";
  f_vars := ["np"; "relabel"; "relabel._"; "relabel.labels_map"; "relabel.p"; "relabel.predicted_label"; "relabel.prediction_counts"
    ; "relabel.predictions"; "relabel.real_label"; "relabel.reduced_prediction_counts"; "relabel.relabeled"; "relabel.remaining_predicted_label"
    ; "relabel.remaining_true_label"; "relabel.tmp"; "relabel.true_label"; "relabel.predicted_labels"; "relabel.n_classes"
    ; "relabel.real_labels"];
  f_body :=
   [(* 1 *) Eval []; Bind [0];
   (* 4 *) Eval []; Bind [1]; Loop [If Opaque [Call [2;3;4;5;6;7;8;9;10;11;12;13;14] [15;16;17] [(* 12 *) Eval [17]; If Opaque [(* 13 *) Eval [0;16;15]; Bind [7]] [(* 15 *) Eval [0;16;15]; Bind [7]];
      (* 16 *) Eval [16]; Loop [Bind [8];
       (* 17 *) Eval [17]; If Opaque [(* 18 *) Eval [15;8;16;7]] [(* 20 *) Eval [15;17;8]; Bind [4];
        (* 21 *) Eval [4;7;8]]];
      (* 24 *) Eval [0;16]; Bind [6];
      (* 25 *) Eval [16]; Loop [Bind [8];
       (* 26 *) Eval [16]; Loop [Bind [5];
        (* 27 *) Eval [0;7;8;5;6]]];
      (* 30 *) Eval [6]; Bind [9];
      (* 31 *) Eval []; Bind [3];
      (* 32 *) Eval [16]; Loop [Bind [2];
       (* 33 *) Eval [0;9]; Bind [14;5];
       (* 34 *) Eval [14;3;5];
       (* 35 *) Eval [9;5]];
      (* 36 *) Eval [0;9]; Bind [13;11];
      (* 37 *) Eval [0;16;3]; Bind [12];
      (* 38 *) Eval [12;3;11];
      (* 40 *) Eval [0;15]; Bind [10];
      (* 41 *) Eval [3]; Loop [Bind [5;8];
       (* 42 *) Eval [8;10;15;5]];
      (* 43 *) Eval [10;3]; Return]] []]] |}.

(** scripts/buffer_segmentation_example.py:1-78. *)
Definition py_scripts_buffer_segmentation_example : file := {| f_name := "scripts/buffer_segmentation_example.py";
  f_vars := ["BufferSegmentation"; "BufferModel"; "meta"; "np"; "pickle"; "Bits"; "BitArray"; "good_buffer"; "bad_buffer"
    ; "bs"; "msg_parts"; "bit_validity"; "buffer_structure"; "msg_fields"; "buffer_description"; "buffer_model"; "fieldname"
    ; "vals"; "buffer_model2"; "bit_arr"; "field_prediction"; "bitwise_prediction"; "window_size"; "f"; "hc_tx"; "hc_bin_data"
    ; "parts"; "validity"; "structure"; "tx"; "p_good_field"; "p_good_bits"; "corrupt_tx"; "no_errors"; "rng"; "error_indices"
    ; "p_bad_field"; "p_bad_bits"; "damaged_fields"; "idx"];
  f_body :=
   [(* 1 *) Eval []; Bind [0;1];
   (* 2 *) Eval []; Bind [2];
   (* 3 *) Eval []; Bind [3];
   (* 4 *) Eval []; Bind [4];
   (* 5 *) Eval []; Bind [5;6];
   (* 9 *) Eval []; Bind [7];
   (* 13 *) Eval [7]; Bind [8];
   (* 15 *) Eval [0;2]; Bind [9];
   (* 16 *) Eval [9;8]; Bind [10;11;12];
   (* 17 *) Eval [9;7]; Bind [10;11;12];
   (* 18 *) Eval [9;7]; Bind [13;14];
   (* 19 *) Eval [1]; Bind [15];
   (* 20 *) Eval [13]; Loop [Bind [16;17];
    (* 21 *) Eval [15;16;17]];
   (* 22 *) Eval [15;14];
   (* 23 *) Eval [15];
   (* 26 *) Eval [1]; Bind [18];
   (* 29 *) Eval [3;7]; Bind [19];
   (* 30 *) Eval [18;19;12]; Bind [20;21];
   (* 32 *) Eval [18;8;12]; Bind [20;21];
   (* 35 *) Eval []; Bind [22];
   (* 36 *) Eval []; Bind [23];
   (* 37 *) Eval [4;23]; Bind [24];
   (* 38 *) Eval [24]; If Opaque [Eval [5]] []; Bind [25];
   (* 39 *) Eval [0;2]; Bind [9];
   (* 40 *) Eval [1;22]; Bind [15];
   (* 43 *) Eval [9;25]; Bind [26;27;28];
   (* 44 *) Eval [25]; Loop [Bind [29];
    (* 45 *) Eval [15;29;28]];
   (* 55 *) Eval [15;3;25;28]; Bind [30;31];
   (* 58 *) Eval [6;25]; Bind [32];
   (* 59 *) Eval []; Bind [33];
   (* 61 *) Eval [3]; Bind [34];
   (* 62 *) Eval [3;34;33]; Bind [35];
   (* 63 *) Eval [32;35];
   (* 64 *) Eval [3;32]; Bind [19];
   (* 66 *) Eval [15;19;28]; Bind [36;37];
   (* 68 *) Eval [22]; If Opaque [(* 69 *) Eval [15]] [(* 71 *) Eval [15;22]];
   (* 73 *) Eval [15;35;28;25]; Bind [38];
   (* 74 *) Eval [35];
   (* 75 *) Eval [36]; Loop [Bind [39];
    (* 76 *) Eval [36;39;30]; If Opaque [(* 77 *) Eval [36;39;30]] []];
   (* 78 *) Eval [38]] |}.

(** scripts/classifier_analysis.py:1-435. *)
Definition py_scripts_classifier_analysis : file := {| f_name := "scripts/classifier_analysis.py";
  f_vars := ["pickle"; "Any"; "Bits"; "BitArray"; "np"; "EncoderWiFi"; "WiFiSpecCode"; "NDArray"; "BufferSegmentation"; "BufferModel"
    ; "meta"; "argparse"; "datetime"; "os"; "Pool"; "savemat"; "pd"; "setup_logger"; "shutil"; "parser"; "args"; "processes"
    ; "f"; "hc_tx"; "hc_bin_data"; "n"; "window_len"; "rng"; "bit_flip_p"; "spec"; "encoder"; "encoded"; "binary_data"; "pad_len"
    ; "padded"; "_"; "bs"; "buffer_structure"; "buffer_structures"; "model_length"; "logger"; "classifier_characterization"
    ; "forcing_characterization"; "simulation_step"; "timestamp"; "path"; "cmd"; "pool"; "simulation_step.bad_bits"; "simulation_step.bad_fields"
    ; "simulation_step.bad_fields_performance"; "simulation_step.bits_field_std"; "simulation_step.classifier_df"; "simulation_step.classifier_res"
    ; "simulation_step.correctly_forced_bits"; "simulation_step.correctly_forced_fields"; "simulation_step.corrupted"; "simulation_step.damaged"
    ; "simulation_step.damaged_fields"; "simulation_step.data_model"; "simulation_step.errors"; "simulation_step.flipped_bits_performance"
    ; "simulation_step.forced_bits"; "simulation_step.forced_bits_performance"; "simulation_step.forced_fields"; "simulation_step.forced_fields_performance"
    ; "simulation_step.forcing_df"; "simulation_step.forcing_quality"; "simulation_step.forcing_res"; "simulation_step.good_bits"
    ; "simulation_step.good_fields"; "simulation_step.good_fields_performance"; "simulation_step.incorrectly_forced_bits"
    ; "simulation_step.incorrectly_forced_fields"; "simulation_step.info_errors"; "simulation_step.missed_forced_bits"; "simulation_step.missed_forced_fields"
    ; "simulation_step.n_damaged_fields_in_buffer"; "simulation_step.n_fields_in_buffer"; "simulation_step.no_errors"; "simulation_step.parity_errors"
    ; "simulation_step.running_idx"; "simulation_step.rx"; "simulation_step.step_results"; "simulation_step.tx_idx"; "simulation_step.valid_bits_p"
    ; "simulation_step.valid_field_p"; "simulation_step.zipped"; "simulation_step.p"; "classifier_characterization.bad_bits"
    ; "classifier_characterization.bad_fields"; "classifier_characterization.bad_fields_false"; "classifier_characterization.bad_fields_performance"
    ; "classifier_characterization.bad_fields_true"; "classifier_characterization.false_positive"; "classifier_characterization.good_bits"
    ; "classifier_characterization.good_fields"; "classifier_characterization.good_fields_false"; "classifier_characterization.good_fields_performance"
    ; "classifier_characterization.good_fields_true"; "classifier_characterization.idx"; "classifier_characterization.n_damaged_fields_in_buffer"
    ; "classifier_characterization.n_fields_in_buffer"; "classifier_characterization.negative"; "classifier_characterization.positive"
    ; "classifier_characterization.true_positive"; "classifier_characterization.valid_field_p"; "classifier_characterization.valid_bits_p"
    ; "classifier_characterization.thr"; "classifier_characterization.damaged_fields_idx"; "forcing_characterization.bits_flipped_from_forced"
    ; "forcing_characterization.buffer_len_bits"; "forcing_characterization.correctly_flipped_bits"; "forcing_characterization.correctly_forced_bits"
    ; "forcing_characterization.correctly_forced_fields"; "forcing_characterization.false_positive"; "forcing_characterization.flipped_bits_performance"
    ; "forcing_characterization.forced_bits"; "forcing_characterization.forced_bits_performance"; "forcing_characterization.forced_fields"
    ; "forcing_characterization.forced_fields_performance"; "forcing_characterization.forcing_quality"; "forcing_characterization.incorrectly_flipped_bits"
    ; "forcing_characterization.incorrectly_forced_bits"; "forcing_characterization.incorrectly_forced_fields"; "forcing_characterization.missed_forced_bits"
    ; "forcing_characterization.missed_forced_fields"; "forcing_characterization.model_bits"; "forcing_characterization.n_bits_flipped"
    ; "forcing_characterization.n_damaged_fields_in_buffer"; "forcing_characterization.n_fields_in_buffer"; "forcing_characterization.negative"
    ; "forcing_characterization.positive"; "forcing_characterization.true_positive"; "forcing_characterization.valid_field_p"
    ; "forcing_characterization.valid_bits_p"; "forcing_characterization.bitwise_std"; "forcing_characterization.label"; "forcing_characterization.damaged_fields_idx"
    ; "forcing_characterization.errors"; "forcing_characterization.data_model"; "forcing_characterization.rx"; "forcing_characterization.tx"
    ; "results"; "good_fields_performance"; "bad_fields_performance"; "forced_fields_performance"; "forced_bits_performance"
    ; "forcing_quality"; "flipped_bits_performance"; "summary"; "step"; "e"];
  f_body :=
   [(* 1 *) Eval []; Bind [0];
   (* 2 *) Eval []; Bind [1];
   (* 3 *) Eval []; Bind [2;3];
   (* 4 *) Eval []; Bind [4];
   (* 5 *) Eval []; Bind [5];
   (* 6 *) Eval []; Bind [6];
   (* 7 *) Eval []; Bind [7];
   (* 8 *) Eval []; Bind [8;9];
   (* 9 *) Eval []; Bind [10];
   (* 10 *) Eval []; Bind [11];
   (* 11 *) Eval []; Bind [12];
   (* 12 *) Eval []; Bind [13];
   (* 13 *) Eval []; Bind [14];
   (* 14 *) Eval []; Bind [15];
   (* 15 *) Eval []; Bind [16];
   (* 16 *) Eval []; Bind [17];
   (* 17 *) Eval []; Bind [18];
   (* 19 *) Eval [11]; Bind [19];
   (* 20 *) Eval [19];
   (* 21 *) Eval [19];
   (* 22 *) Eval [19];
   (* 23 *) Eval [19];
   (* 24 *) Eval [19];
   (* 25 *) Eval [19];
   (* 26 *) Eval [19];
   (* 28 *) Eval [19];
   (* 30 *) Eval [19];
   (* 31 *) Eval [19];
   (* 32 *) Eval [19];
   (* 33 *) Eval [19];
   (* 35 *) Eval [19]; Bind [20];
   (* 37 *) Eval [20]; If Opaque [Eval [20]] []; Bind [21];
   (* 39 *) Eval []; Bind [22];
   (* 40 *) Eval [0;22]; Bind [23];
   (* 42 *) Eval [23;20]; If Opaque [Eval [2]] []; Bind [24];
   (* 43 *) Eval [24]; Bind [25];
   (* 44 *) Eval [20]; If Opaque [Eval [20]] []; Bind [26];
   (* 46 *) Eval [4]; Bind [27];
   (* 47 *) Eval [4;20]; Bind [28];
   (* 49 *) Eval [20]; If (Is "n_clusters" (VInt 1)) [(* 50 *) Eval [6]; Bind [29];
    (* 51 *) Eval [20]] [(* 52 *) Eval [20]; If (Is "n_clusters" (VInt 2)) [(* 53 *) Eval [6]; Bind [29]] [(* 54 *) Eval [20]; If (Is "n_clusters" (VInt 3)) [(* 55 *) Eval [6]; Bind [29]] []]];
   (* 56 *) Eval [5;29]; Bind [30];
   (* 57 *) Eval []; Bind [31];
   (* 58 *) Eval [24;25]; Loop [Bind [32];
    (* 59 *) Eval [20]; If (Is "n_clusters" (VInt 1)) [(* 60 *) Eval [30;32]; Bind [33];
     (* 61 *) Eval [32;2;27;33]; Bind [34];
     (* 62 *) Eval [31;30;34]] [(* 63 *) Eval [20]; If (Is "n_clusters" (VInt 2)) [(* 64 *) Eval [32;2;27;30]; Bind [34];
      (* 65 *) Eval [31;30;34;32]] [(* 66 *) Eval [20]; If (Is "n_clusters" (VInt 3)) [(* 67 *) Eval [32;2;27;30]; Bind [34];
       (* 68 *) Eval [31;30;34];
       (* 69 *) Eval [32;2;27;30]; Bind [34];
       (* 70 *) Eval [31;30;34];
       (* 71 *) Eval [32;2;27;30]; Bind [34];
       (* 72 *) Eval [31;30;34]] []]]];
   (* 74 *) Eval [20]; Loop [Bind [35];
    (* 75 *) Eval [31]];
   (* 76 *) Eval [31]; Bind [25];
   (* 78 *) Eval [8;10]; Bind [36];
   (* 79 *) Eval [20]; If (Is "n_clusters" (VInt 1)) [(* 80 *) Eval [36;32]; Bind [35;35;37];
    (* 81 *) Eval [37]; Bind [38]] [(* 82 *) Eval [20]; If (Is "n_clusters" (VInt 2)) [(* 83 *) Eval [36;32]; Bind [35;35;37];
     (* 84 *) Eval [37]; Bind [38];
     (* 85 *) Eval [36;32]; Bind [35;35;37];
     (* 86 *) Eval [38;37]] [(* 87 *) Eval [20]; If (Is "n_clusters" (VInt 3)) [(* 88 *) Eval [36;32]; Bind [35;35;37];
      (* 89 *) Eval [37]; Bind [38];
      (* 90 *) Eval [36;32]; Bind [35;35;37];
      (* 91 *) Eval [38;37];
      (* 92 *) Eval [36;32]; Bind [35;35;37];
      (* 93 *) Eval [38;37]] [(* 95 *) Eval []; Raise]]];
   (* 97 *) Eval [30]; Bind [39];
   (* 104 *) Eval [17;13]; Bind [40];
   (* 107 *) Eval [7;4;1]; Bind [41];
   (* 153 *) Eval [7;4;9;1]; Bind [42];
   (* 214 *) Eval [1]; Bind [43];
   (* 346 *) 
   (* 347 *) Eval [12]; Bind [44];
   (* 350 *) Eval [13;44]; Bind [45];
   (* 351 *) Eval [13;45];
   (* 353 *) Eval [40];
   (* 354 *) Eval [40;25];
   (* 355 *) Eval [40;20];
   (* 356 *) Eval [40;20];
   (* 357 *) Eval [40;20];
   (* 358 *) Eval [40;20];
   (* 359 *) Eval [40;20];
   (* 360 *) Eval [40;20];
   (* 361 *) Eval [40;20];
   (* 362 *) Eval [40;20];
   (* 363 *) Eval [40;26];
   (* 364 *) Eval [40;20];
   (* 365 *) Eval [40;20];
   (* 366 *) Eval [40;20];
   (* 368 *) Eval [20]; Bind [46];
   (* 371 *) Eval [26]; If Opaque [(* 372 *) Eval [46;26]; Bind [46]] [(* 374 *) Eval [46]; Bind [46]];
   (* 375 *) Eval [21]; If Opaque [(* 376 *) Eval [46;21]; Bind [46]] [];
   (* 378 *) Eval [13;45]; Bind [22];
   (* 379 *) Eval [22;46];
   (* 380 *) Eval [40;46];
   (* 382 *) Eval [14;21]; Bind [47];
   (* 383 *) Eval [47;43]; Loop [Call [48;49;50;51;52;53;54;55;56;57;58;59;60;61;62;63;64;65;66;67;68;69;70;71;72;73;74;75;76;77;78;79;80;81;82;83;84;85;86;87] [88] [(* 224 *) Eval [20]; If (Truthy "learn") [(* 225 *) Eval [9]; Bind [59]] [(* 227 *) Eval [9]; Bind [59]];
     (* 229 *) Eval [30;88]; Bind [79];
     (* 230 *) Eval []; Bind [82];
     (* 231 *) Eval [4;25]; If Opaque [Eval [27;30;79]] []; Bind [60];
     (* 235 *) Eval [88;25;79;60;30;26;20;39]; Bind [83];
     (* 239 *) Eval []; Bind [81];
     (* 240 *) Eval [25]; Bind [62];
     (* 241 *) Eval [25]; Bind [70];
     (* 242 *) Eval [25]; Bind [49];
     (* 243 *) Eval [25]; Bind [69];
     (* 244 *) Eval [25]; Bind [48];
     (* 248 *) Eval [4;25]; Bind [71];
     (* 249 *) Eval [4;25]; Bind [50];
     (* 250 *) Eval [4;25]; Bind [78];
     (* 251 *) Eval [4;25]; Bind [77];
     (* 253 *) Eval [25]; Bind [64];
     (* 254 *) Eval [25]; Bind [58];
     (* 258 *) Eval [25]; Bind [55];
     (* 259 *) Eval [25]; Bind [73];
     (* 260 *) Eval [25]; Bind [76];
     (* 261 *) Eval [25]; Bind [54];
     (* 262 *) Eval [25]; Bind [72];
     (* 263 *) Eval [25]; Bind [75];
     (* 264 *) Eval [4;25]; Bind [65];
     (* 265 *) Eval [4;25]; Bind [63];
     (* 270 *) Eval [4;25]; Bind [67];
     (* 271 *) Eval [4;25]; Bind [61];
     (* 273 *) Eval [25]; Loop [Bind [84];
      (* 274 *) Eval [3;31;84]; Bind [56];
      (* 275 *) Eval [56;60;84];
      (* 276 *) Eval [4;56]; Bind [56];
      (* 277 *) Eval [82;56];
      (* 280 *) Eval [59;56;38;81]; Bind [86;85;51];
      (* 281 *) Eval [59;60;84;38;81;56]; Bind [57];
      (* 282 *) Eval [4;57;58;84];
      (* 285 *) Eval [41]; Loop [Call [89;90;91;92;93;94;95;96;97;98;99;100;101;102;103;104;105] [106;107;108;109] [(* 110 *) Eval [107;108]; Bind [95];
        (* 111 *) Eval [107;108]; Bind [89];
        (* 112 *) Eval [106]; If Opaque [Eval [108]] []; Bind [96];
        (* 113 *) Eval [106]; If Opaque [Eval [108]] []; Bind [90];
        (* 115 *) Eval []; Bind [99];
        (* 116 *) Eval []; Bind [97];
        (* 117 *) Eval []; Bind [93];
        (* 118 *) Eval []; Bind [91];
        (* 119 *) Eval [96]; Loop [Bind [100];
         (* 120 *) Eval [100;109]; If Opaque [(* 121 *) Eval [97]; Bind [97]] [(* 123 *) Eval [99]; Bind [99]]];
        (* 124 *) Eval [90]; Loop [Bind [100];
         (* 125 *) Eval [100;109]; If Opaque [(* 126 *) Eval [93]; Bind [93]] [(* 128 *) Eval [91]; Bind [91]]];
        (* 130 *) Eval [106]; Bind [102];
        (* 131 *) Eval [109]; Bind [101];
        (* 133 *) Eval [99]; Bind [105];
        (* 134 *) Eval [97]; Bind [94];
        (* 135 *) Eval [102;101]; Bind [104];
        (* 136 *) Eval [101]; Bind [103];
        (* 138 *) Eval [4;105;94;103;104]; Bind [98];
        (* 141 *) Eval [93]; Bind [105];
        (* 142 *) Eval [91]; Bind [94];
        (* 143 *) Eval [101]; Bind [104];
        (* 144 *) Eval [102;101]; Bind [103];
        (* 145 *) Eval [4;105;94;103;104]; Bind [92];
        (* 148 *) Eval [95;89;96;90;102;101;98;92]; Return]]; Eval [86;85;20;58;84]; Bind [53];
      (* 286 *) Eval [53;69;84];
      (* 287 *) Eval [53;48;84];
      (* 288 *) Eval [53;70;84];
      (* 289 *) Eval [53;49;84];
      (* 290 *) Eval [53;78;84];
      (* 291 *) Eval [53;77;84];
      (* 292 *) Eval [53;71;84];
      (* 293 *) Eval [53;50;84];
      (* 296 *) Eval [42]; Loop [Call [110;111;112;113;114;115;116;117;118;119;120;121;122;123;124;125;126;127;128;129;130;131;132;133] [134;135;136;137;138;139;140;141;142] [(* 157 *) Eval [141]; Bind [111];
        (* 159 *) Eval [4;135;136]; Bind [117];
        (* 160 *) Eval [4;117;139]; Bind [113];
        (* 161 *) Eval [4;117;139]; Bind [123];
        (* 162 *) Eval [4;139;117]; Bind [125];
        (* 163 *) Eval [4;134]; Bind [119];
        (* 164 *) Eval [4;119;138]; Bind [114];
        (* 165 *) Eval [4;119;138]; Bind [124];
        (* 166 *) Eval [4;138;119]; Bind [126];
        (* 168 *) Eval [113]; Bind [133];
        (* 169 *) Eval [123]; Bind [115];
        (* 170 *) Eval [139]; Bind [132];
        (* 171 *) Eval [111;132]; Bind [131];
        (* 172 *) Eval [4;133;115;131;132]; Bind [118];
        (* 175 *) Eval [134]; Bind [130];
        (* 176 *) Eval [138]; Bind [129];
        (* 177 *) Eval [114]; Bind [133];
        (* 178 *) Eval [124]; Bind [115];
        (* 179 *) Eval [129]; Bind [132];
        (* 180 *) Eval [130;132]; Bind [131];
        (* 181 *) Eval [4;133;115;131;132]; Bind [120];
        (* 184 *) Eval [140;117;111;38;137]; Bind [127];
        (* 185 *) Eval [117;127;141;4]; Bind [110];
        (* 186 *) Eval [110]; Bind [128];
        (* 187 *) Eval [4;110;139]; Bind [112];
        (* 188 *) Eval [4;110;139]; Bind [122];
        (* 190 *) Eval [117]; If Opaque [(* 191 *) Eval [4;139;117;128;112;122;142;127]; Bind [121]] [(* 195 *) Eval [4;139;117;128;112;122]; Bind [121]];
        (* 198 *) Eval [112]; Bind [133];
        (* 199 *) Eval [122]; Bind [115];
        (* 200 *) Eval [139]; Bind [132];
        (* 201 *) Eval [111;132]; Bind [131];
        (* 202 *) Eval [4;133;115;131;132]; Bind [116];
        (* 205 *) Eval [119;117;113;123;125;114;124;126;118;120;121;116]; Return]]; Eval [86;85;51;81;58;84;60;59;56;4;31]; Bind [68];
      (* 299 *) Eval [68;64;84];
      (* 300 *) Eval [68;62;84];
      (* 301 *) Eval [68;54;84];
      (* 302 *) Eval [68;72;84];
      (* 303 *) Eval [68;75;84];
      (* 304 *) Eval [68;55;84];
      (* 305 *) Eval [68;73;84];
      (* 306 *) Eval [68;76;84];
      (* 307 *) Eval [68;65;84];
      (* 308 *) Eval [68;63;84];
      (* 309 *) Eval [68;67;84];
      (* 310 *) Eval [68;61;84];
      (* 312 *) Eval [81;20]; Bind [81];
      (* 313 *) Eval [40;88;84]];
     (* 316 *) Eval [4;60;30]; Bind [74];
     (* 317 *) Eval [4;60;30]; Bind [80];
     (* 318 *) Eval [31;82;60;74;80]; If Opaque [Eval [4]] []; Bind [87];
     (* 320 *) Eval [16;87;83];
     (* 323 *) Eval [16;70;49;69;48;58;81]; Bind [52];
     (* 326 *) Eval [52;83];
     (* 327 *) Eval [16;64;62;54;72;75;55;73;76]; Bind [66];
     (* 334 *) Eval [66;83];
     (* 336 *) Eval [71;83];
     (* 337 *) Eval [50;83];
     (* 338 *) Eval [65;83];
     (* 339 *) Eval [63;83];
     (* 340 *) Eval [67;83];
     (* 341 *) Eval [61;83];
     (* 343 *) Eval [83]; Return]]; Eval [28;1]; Bind [143];
   (* 386 *) Try [(* 391 *) Eval [4;143]; Bind [144];
    (* 392 *) Eval [4;143]; Bind [145];
    (* 393 *) Eval [4;143]; Bind [146];
    (* 394 *) Eval [4;143]; Bind [147];
    (* 395 *) Eval [4;143]; Bind [148];
    (* 396 *) Eval [148;25];
    (* 397 *) Eval [4;143]; Bind [149];
    (* 413 *) Eval [20;144;145;146;147;28;148;149]; Bind [150];
    (* 419 *) Eval [15;13;45;44;150];
    (* 420 *) Eval [40];
    (* 422 *) Eval [143]; Loop [Bind [151];
     (* 423 *) Eval [151];
     (* 424 *) Eval [151];
     (* 425 *) Eval [151]];
    (* 427 *) Eval [143]; Bind [150];
    (* 428 *) Eval [15;13;45;44;150];
    (* 430 *) Eval [40];
    (* 431 *) Eval [18;13;45]] [Bind [152];
    (* 433 *) Eval [40;152];
    (* 434 *) Eval [18;13;45];
    (* 435 *) Eval [152]; Raise]] |}.

(** scripts/clustering_trials.py:1-97. *)
Definition py_scripts_clustering_trials : file := {| f_name := "scripts/clustering_trials.py";
  f_vars := ["pickle"; "Bits"; "BitArray"; "np"; "BufferClassifier"; "savemat"; "f"; "hc_tx"; "rng"; "two_sec_bin"; "weight_scheme"
    ; "buffers"; "n"; "r"; "p"; "k"; "pad_len"; "no_errors"; "n_classes"; "n_training"; "b"; "errors"; "corrupted"; "idx"
    ; "classifier"; "actual_classes"; "labels"; "result_1"; "result_2"];
  f_body :=
   [(* 1 *) Eval []; Bind [0];
   (* 2 *) Eval []; Bind [1;2];
   (* 3 *) Eval []; Bind [3];
   (* 4 *) Eval []; Bind [4];
   (* 5 *) Eval []; Bind [5];
   (* 7 *) Eval []; Bind [6];
   (* 8 *) Eval [0;6]; Bind [7];
   (* 9 *) Eval [3]; Bind [8];
   (* 10 *) Eval [7]; If Opaque [Eval [1]] []; Bind [9];
   (* 11 *) Eval []; Bind [10];
   (* 12 *) Eval [10];
   (* 15 *) Eval []; Bind [11];
   (* 16 *) Eval []; Bind [12];
   (* 17 *) Eval []; Bind [13];
   (* 18 *) Eval []; Bind [14];
   (* 19 *) Eval [12;13]; Bind [15];
   (* 20 *) Eval [15;9]; Bind [16];
   (* 21 *) Eval [15;14]; Bind [17];
   (* 22 *) Eval []; Bind [18];
   (* 23 *) Eval []; Bind [19];
   (* 24 *) Eval [9]; Loop [Bind [20];
    (* 25 *) Eval [8;15;17]; Bind [21];
    (* 26 *) Eval [2;20;1;8;15]; Bind [22];
    (* 27 *) Eval [21]; Loop [Bind [23];
     (* 28 *) Eval [22;23]];
    (* 29 *) Eval [11;1;22];
    (* 31 *) Eval [8;15;17]; Bind [21];
    (* 32 *) Eval [2;20]; Bind [22];
    (* 33 *) Eval [21]; Loop [Bind [23];
     (* 34 *) Eval [22;23]];
    (* 35 *) Eval [11;1;22]];
   (* 44 *) Eval [4;19;18;10]; Bind [24];
   (* 45 *) Eval [3;11]; Bind [25];
   (* 46 *) Eval [3;11]; Bind [26];
   (* 47 *) Eval [5;18;11];
   (* 49 *) Eval [11]; Loop [Bind [23;20];
    (* 50 *) Eval [20;25;23];
    (* 51 *) Eval [24;20;26;23]];
   (* 52 *) Eval [18]; If Opaque [Eval [3;26;19;18]] []; Bind [27];
   (* 55 *) Eval []; Bind [11];
   (* 56 *) Eval []; Bind [12];
   (* 57 *) Eval []; Bind [13];
   (* 58 *) Eval []; Bind [14];
   (* 59 *) Eval [12;13]; Bind [15];
   (* 60 *) Eval [15;9]; Bind [16];
   (* 61 *) Eval [15;14]; Bind [17];
   (* 62 *) Eval []; Bind [18];
   (* 63 *) Eval []; Bind [19];
   (* 64 *) Eval [9]; Loop [Bind [20];
    (* 65 *) Eval [8;15;17]; Bind [21];
    (* 66 *) Eval [2;20;1;8;15]; Bind [22];
    (* 67 *) Eval [21]; Loop [Bind [23];
     (* 68 *) Eval [22;23]];
    (* 69 *) Eval [11;1;22];
    (* 71 *) Eval [8;15;17]; Bind [21];
    (* 72 *) Eval [2;20;1;8;15]; Bind [22];
    (* 73 *) Eval [21]; Loop [Bind [23];
     (* 74 *) Eval [22;23]];
    (* 75 *) Eval [11;1;22];
    (* 77 *) Eval [8;15;17]; Bind [21];
    (* 78 *) Eval [2;20;1;8;15]; Bind [22];
    (* 79 *) Eval [21]; Loop [Bind [23];
     (* 80 *) Eval [22;23]];
    (* 81 *) Eval [11;1;22]];
   (* 87 *) Eval [4;19;18;10]; Bind [24];
   (* 88 *) Eval [3;11]; Bind [25];
   (* 89 *) Eval [3;11]; Bind [26];
   (* 90 *) Eval [5;18;11];
   (* 92 *) Eval [11]; Loop [Bind [23;20];
    (* 93 *) Eval [20;25;23];
    (* 94 *) Eval [24;20;26;23]];
   (* 95 *) Eval [18]; If Opaque [Eval [3;26;19;18]] []; Bind [28]] |}.

(** scripts/estimators_comparison/compare_denoisers.py:1-98. *)
Definition py_scripts_estimators_comparison_compare_denoisers : file := {| f_name := "scripts/estimators_comparison/compare_denoisers.py";
  f_vars := ["np"; "OnlineDude"; "EMLE"; "stats"; "ber"; "default_rng"; "generate_markov_samples"; "compare_denoisers"; "rng"
    ; "n"; "f"; "model_length"; "window_length"; "k"; "source"; "compare_denoisers._"; "compare_denoisers.channel_transition_matrix"
    ; "compare_denoisers.emle"; "compare_denoisers.emle_ber"; "compare_denoisers.emle_costs"; "compare_denoisers.emle_estimates"
    ; "compare_denoisers.emle_stats"; "compare_denoisers.i"; "compare_denoisers.loss_matrix"; "compare_denoisers.online_dude"
    ; "compare_denoisers.online_dude_ber"; "compare_denoisers.online_dude_estimates"; "compare_denoisers.online_dude_stats"
    ; "compare_denoisers.source"; "compare_denoisers.f"; "compare_denoisers.k"; "compare_denoisers.threshold"; "compare_denoisers.comparison_name"
    ; "compare_denoisers.window_length"; "compare_denoisers.conf_center"; "compare_denoisers.conf_slope"; "noise"; "noisy_source"
    ; "p"; "transition_matrix"; "i"; "initial_state"];
  f_body :=
   [(* 2 *) Eval []; Bind [0];
   (* 3 *) Eval []; Bind [1;2];
   (* 4 *) Eval []; Bind [3;4];
   (* 5 *) Eval []; Bind [5];
   (* 6 *) Eval []; Bind [6];
   (* 9 *) Eval [0]; Bind [7];
   (* 50 *) Eval [5]; Bind [8];
   (* 51 *) Eval []; Bind [9];
   (* 52 *) Eval []; Bind [10];
   (* 53 *) Eval []; Bind [11];
   (* 54 *) Eval []; Bind [12];
   (* 56 *) Eval []; Bind [13];
   (* 57 *) Eval [8;9;11]; Bind [14];
   (* 58 *) Eval [7]; Loop [Call [15;16;17;18;19;20;21;22;23;24;25;26;27] [28;29;30;31;32;33;34;35] [(* 24 *) Eval [0;29]; Bind [16];
     (* 25 *) Eval [0]; Bind [23];
     (* 27 *) Eval [0;28]; Bind [26];
     (* 28 *) Eval [28]; Loop [Bind [22];
      (* 29 *) Eval [1;16;23;30]; Bind [24];
      (* 30 *) Eval [24;28;22;26]; Bind [15]];
     (* 32 *) Eval [2;29;31;33;34;35]; Bind [17];
     (* 33 *) Eval [17;28]; Bind [20;19];
     (* 35 *) Eval [3;28;26]; Bind [27];
     (* 36 *) Eval [3;28;20]; Bind [21];
     (* 38 *) Eval [4;28;26]; Bind [25];
     (* 39 *) Eval [4;28;20]; Bind [18];
     (* 41 *) Eval [32];
     (* 42 *) Eval [25];
     (* 43 *) Eval [0;26;28];
     (* 44 *) Eval [18];
     (* 45 *) Eval [0;20;28];
     (* 47 *) Eval [27;21;25;18]; Return]]; Eval [14;10;13;12];
   (* 61 *) Eval [8;10;9;11]; Bind [36];
   (* 62 *) Eval [14;36]; Bind [37];
   (* 63 *) Eval [7]; Loop [Call [15;16;17;18;19;20;21;22;23;24;25;26;27] [28;29;30;31;32;33;34;35] [(* 24 *) Eval [0;29]; Bind [16];
     (* 25 *) Eval [0]; Bind [23];
     (* 27 *) Eval [0;28]; Bind [26];
     (* 28 *) Eval [28]; Loop [Bind [22];
      (* 29 *) Eval [1;16;23;30]; Bind [24];
      (* 30 *) Eval [24;28;22;26]; Bind [15]];
     (* 32 *) Eval [2;29;31;33;34;35]; Bind [17];
     (* 33 *) Eval [17;28]; Bind [20;19];
     (* 35 *) Eval [3;28;26]; Bind [27];
     (* 36 *) Eval [3;28;20]; Bind [21];
     (* 38 *) Eval [4;28;26]; Bind [25];
     (* 39 *) Eval [4;28;20]; Bind [18];
     (* 41 *) Eval [32];
     (* 42 *) Eval [25];
     (* 43 *) Eval [0;26;28];
     (* 44 *) Eval [18];
     (* 45 *) Eval [0;20;28];
     (* 47 *) Eval [27;21;25;18]; Return]]; Eval [37;10;13;12];
   (* 66 *) Eval []; Bind [13];
   (* 67 *) Eval [0;9;11]; Bind [14];
   (* 68 *) Eval [8;10;9;11]; Bind [36];
   (* 69 *) Eval [14;36]; Bind [37];
   (* 70 *) Eval [7]; Loop [Call [15;16;17;18;19;20;21;22;23;24;25;26;27] [28;29;30;31;32;33;34;35] [(* 24 *) Eval [0;29]; Bind [16];
     (* 25 *) Eval [0]; Bind [23];
     (* 27 *) Eval [0;28]; Bind [26];
     (* 28 *) Eval [28]; Loop [Bind [22];
      (* 29 *) Eval [1;16;23;30]; Bind [24];
      (* 30 *) Eval [24;28;22;26]; Bind [15]];
     (* 32 *) Eval [2;29;31;33;34;35]; Bind [17];
     (* 33 *) Eval [17;28]; Bind [20;19];
     (* 35 *) Eval [3;28;26]; Bind [27];
     (* 36 *) Eval [3;28;20]; Bind [21];
     (* 38 *) Eval [4;28;26]; Bind [25];
     (* 39 *) Eval [4;28;20]; Bind [18];
     (* 41 *) Eval [32];
     (* 42 *) Eval [25];
     (* 43 *) Eval [0;26;28];
     (* 44 *) Eval [18];
     (* 45 *) Eval [0;20;28];
     (* 47 *) Eval [27;21;25;18]; Return]]; Eval [37;10;13;12];
   (* 73 *) Eval []; Bind [13];
   (* 74 *) Eval []; Bind [38];
   (* 75 *) Eval [8;38;9;11]; Bind [14];
   (* 76 *) Eval [8;10;9;11]; Bind [36];
   (* 77 *) Eval [14;36]; Bind [37];
   (* 78 *) Eval [7]; Loop [Call [15;16;17;18;19;20;21;22;23;24;25;26;27] [28;29;30;31;32;33;34;35] [(* 24 *) Eval [0;29]; Bind [16];
     (* 25 *) Eval [0]; Bind [23];
     (* 27 *) Eval [0;28]; Bind [26];
     (* 28 *) Eval [28]; Loop [Bind [22];
      (* 29 *) Eval [1;16;23;30]; Bind [24];
      (* 30 *) Eval [24;28;22;26]; Bind [15]];
     (* 32 *) Eval [2;29;31;33;34;35]; Bind [17];
     (* 33 *) Eval [17;28]; Bind [20;19];
     (* 35 *) Eval [3;28;26]; Bind [27];
     (* 36 *) Eval [3;28;20]; Bind [21];
     (* 38 *) Eval [4;28;26]; Bind [25];
     (* 39 *) Eval [4;28;20]; Bind [18];
     (* 41 *) Eval [32];
     (* 42 *) Eval [25];
     (* 43 *) Eval [0;26;28];
     (* 44 *) Eval [18];
     (* 45 *) Eval [0;20;28];
     (* 47 *) Eval [27;21;25;18]; Return]]; Eval [37;10;13;12];
   (* 81 *) Eval []; Bind [13];
   (* 82 *) Eval []; Bind [38];
   (* 83 *) Eval [0;38]; Bind [39];
   (* 84 *) Eval [0;9]; Bind [14];
   (* 85 *) Eval [9]; Loop [Bind [40];
    (* 86 *) Eval [8;39;14;40]];
   (* 87 *) Eval [8;10;9]; Bind [36];
   (* 88 *) Eval [14;36]; Bind [37];
   (* 89 *) Eval [7]; Loop [Call [15;16;17;18;19;20;21;22;23;24;25;26;27] [28;29;30;31;32;33;34;35] [(* 24 *) Eval [0;29]; Bind [16];
     (* 25 *) Eval [0]; Bind [23];
     (* 27 *) Eval [0;28]; Bind [26];
     (* 28 *) Eval [28]; Loop [Bind [22];
      (* 29 *) Eval [1;16;23;30]; Bind [24];
      (* 30 *) Eval [24;28;22;26]; Bind [15]];
     (* 32 *) Eval [2;29;31;33;34;35]; Bind [17];
     (* 33 *) Eval [17;28]; Bind [20;19];
     (* 35 *) Eval [3;28;26]; Bind [27];
     (* 36 *) Eval [3;28;20]; Bind [21];
     (* 38 *) Eval [4;28;26]; Bind [25];
     (* 39 *) Eval [4;28;20]; Bind [18];
     (* 41 *) Eval [32];
     (* 42 *) Eval [25];
     (* 43 *) Eval [0;26;28];
     (* 44 *) Eval [18];
     (* 45 *) Eval [0;20;28];
     (* 47 *) Eval [27;21;25;18]; Return]]; Eval [37;10;13;12];
   (* 92 *) Eval []; Bind [13];
   (* 93 *) Eval [0]; Bind [39];
   (* 94 *) Eval [0]; Bind [41];
   (* 95 *) Eval [6;39;41;9]; Bind [14];
   (* 96 *) Eval [8;10;9]; Bind [36];
   (* 97 *) Eval [14;36]; Bind [37];
   (* 98 *) Eval [7]; Loop [Call [15;16;17;18;19;20;21;22;23;24;25;26;27] [28;29;30;31;32;33;34;35] [(* 24 *) Eval [0;29]; Bind [16];
     (* 25 *) Eval [0]; Bind [23];
     (* 27 *) Eval [0;28]; Bind [26];
     (* 28 *) Eval [28]; Loop [Bind [22];
      (* 29 *) Eval [1;16;23;30]; Bind [24];
      (* 30 *) Eval [24;28;22;26]; Bind [15]];
     (* 32 *) Eval [2;29;31;33;34;35]; Bind [17];
     (* 33 *) Eval [17;28]; Bind [20;19];
     (* 35 *) Eval [3;28;26]; Bind [27];
     (* 36 *) Eval [3;28;20]; Bind [21];
     (* 38 *) Eval [4;28;26]; Bind [25];
     (* 39 *) Eval [4;28;20]; Bind [18];
     (* 41 *) Eval [32];
     (* 42 *) Eval [25];
     (* 43 *) Eval [0;26;28];
     (* 44 *) Eval [18];
     (* 45 *) Eval [0;20;28];
     (* 47 *) Eval [27;21;25;18]; Return]]; Eval [37;10;13;12]] |}.

(** scripts/estimators_comparison/dude_example.py:1-156. *)
Definition py_scripts_estimators_comparison_dude_example : file := {| f_name := "scripts/estimators_comparison/dude_example.py";
  f_vars := ["OnlineDude"; "DUDE"; "EMLE"; "np"; "generate_markov_samples"; "bit_flip_p"; "n"; "channel_transition_matrix"
    ; "loss_matrix"; "window_length"; "thr"; "k"; "online_dude"; "dude"; "emle"; "sequence"; "estimate"; "cost"; "estimates"
    ; "costs"; "noise"; "noisy_sequence"; "p"; "transition_matrix"; "i"; "initial_states"; "soft_estimates"; "erroneous_flips"
    ; "good_flips"];
  f_body :=
   [(* 1 *) Eval []; Bind [0;1;2];
   (* 2 *) Eval []; Bind [3];
   (* 3 *) Eval []; Bind [4];
   (* 5 *) Eval []; Bind [5];
   (* 6 *) Eval []; Bind [6];
   (* 7 *) Eval [3;5]; Bind [7];
   (* 8 *) Eval [3]; Bind [8];
   (* 9 *) Eval []; Bind [9];
   (* 10 *) Eval []; Bind [10];
   (* 12 *) Eval [3;6]; Bind [11];
   (* 13 *) Eval [0;7;8;11]; Bind [12];
   (* 14 *) Eval [1;7;8;11]; Bind [13];
   (* 15 *) Eval [2;5;10;9]; Bind [14];
   (* 17 *) Eval [3;6]; Bind [15];
   (* 19 *) Eval [12;15;11];
   (* 21 *) Eval [12;15;11]; Bind [16;17];
   (* 23 *) Eval [12];
   (* 25 *) Eval [12;15]; Bind [18;19];
   (* 26 *) Eval [12];
   (* 27 *) Eval [];
   (* 28 *) Eval [3;18;15];
   (* 29 *) Eval [13;15]; Bind [18;19];
   (* 30 *) Eval [3;18;15];
   (* 31 *) Eval [14;3;15;6]; Bind [18;19];
   (* 32 *) Eval [14];
   (* 33 *) Eval [3;18;15];
   (* 36 *) Eval [3;5;6]; Bind [20];
   (* 37 *) Eval [15;20]; Bind [21];
   (* 38 *) Eval [];
   (* 39 *) Eval [3;21;15];
   (* 41 *) Eval [12;21]; Bind [18;19];
   (* 42 *) Eval [12];
   (* 43 *) Eval [3;18;15];
   (* 44 *) Eval [3;18;21];
   (* 45 *) Eval [13;21]; Bind [18;19];
   (* 46 *) Eval [3;18;15];
   (* 47 *) Eval [3;18;21];
   (* 48 *) Eval [14;3;15;6]; Bind [18;19];
   (* 49 *) Eval [14];
   (* 50 *) Eval [3;18;15];
   (* 51 *) Eval [3;18;21];
   (* 54 *) Eval []; Bind [11];
   (* 55 *) Eval [0;7;8;11]; Bind [12];
   (* 56 *) Eval [1;7;8;11]; Bind [13];
   (* 57 *) Eval [3;6]; Bind [15];
   (* 58 *) Eval [3;5;6]; Bind [20];
   (* 59 *) Eval [15;20]; Bind [21];
   (* 60 *) Eval [];
   (* 61 *) Eval [3;21;15];
   (* 62 *) Eval [12;21]; Bind [18;19];
   (* 63 *) Eval [12];
   (* 64 *) Eval [3;18;15];
   (* 65 *) Eval [3;18;21];
   (* 66 *) Eval [13;3]; Bind [18;19];
   (* 67 *) Eval [13;21]; Bind [18;19];
   (* 68 *) Eval [3;18;15];
   (* 69 *) Eval [3;18;21];
   (* 70 *) Eval [14;3;15;6]; Bind [18;19];
   (* 71 *) Eval [14];
   (* 72 *) Eval [3;18;15];
   (* 73 *) Eval [3;18;21];
   (* 76 *) Eval []; Bind [11];
   (* 79 *) Eval [0;7;8;11]; Bind [12];
   (* 80 *) Eval [1;7;8;11]; Bind [13];
   (* 81 *) Eval []; Bind [22];
   (* 82 *) Eval [3;22;6]; Bind [15];
   (* 83 *) Eval [3;5;6]; Bind [20];
   (* 84 *) Eval [15;20]; Bind [21];
   (* 85 *) Eval [];
   (* 86 *) Eval [3;21;15];
   (* 87 *) Eval [12;21]; Bind [18;19];
   (* 88 *) Eval [12];
   (* 89 *) Eval [3;18;15];
   (* 90 *) Eval [3;18;21];
   (* 91 *) Eval [13;21]; Bind [18;19];
   (* 92 *) Eval [3;18;15];
   (* 93 *) Eval [3;18;21];
   (* 94 *) Eval [14;3;15;6]; Bind [18;19];
   (* 95 *) Eval [14];
   (* 96 *) Eval [3;18;15];
   (* 97 *) Eval [3;18;21];
   (* 100 *) Eval []; Bind [11];
   (* 101 *) Eval [0;7;8;11]; Bind [12];
   (* 102 *) Eval [1;7;8;11]; Bind [13];
   (* 103 *) Eval []; Bind [22];
   (* 104 *) Eval [3;22]; Bind [23];
   (* 105 *) Eval [3;6]; Bind [15];
   (* 106 *) Eval [6]; Loop [Bind [24];
    (* 107 *) Eval [3;23;15;24]];
   (* 108 *) Eval [3;5;6]; Bind [20];
   (* 109 *) Eval [15;20]; Bind [21];
   (* 110 *) Eval [];
   (* 111 *) Eval [3;21;15];
   (* 112 *) Eval [12;21]; Bind [18;19];
   (* 113 *) Eval [12];
   (* 114 *) Eval [3;18;15];
   (* 115 *) Eval [3;18;21];
   (* 116 *) Eval [13;21]; Bind [18;19];
   (* 117 *) Eval [3;18;15];
   (* 118 *) Eval [3;18;21];
   (* 119 *) Eval [14;3;15;6]; Bind [18;19];
   (* 120 *) Eval [14];
   (* 121 *) Eval [3;18;15];
   (* 122 *) Eval [3;18;21];
   (* 125 *) Eval []; Bind [11];
   (* 126 *) Eval [0;7;8;11]; Bind [12];
   (* 127 *) Eval [1;7;8;11]; Bind [13];
   (* 128 *) Eval [3]; Bind [23];
   (* 129 *) Eval []; Bind [25];
   (* 130 *) Eval [4;23;25;6]; Bind [15];
   (* 131 *) Eval [3;5;6]; Bind [20];
   (* 132 *) Eval [15;20]; Bind [21];
   (* 133 *) Eval [];
   (* 134 *) Eval [3;21;15];
   (* 135 *) Eval [12;21]; Bind [26;19];
   (* 136 *) Eval [12];
   (* 137 *) Eval [26]; Bind [18];
   (* 138 *) Eval [18;21;15]; Bind [27];
   (* 139 *) Eval [18;21;15]; Bind [28];
   (* 140 *) Eval [3;18;15];
   (* 141 *) Eval [3;18;21];
   (* 142 *) Eval [3;27];
   (* 143 *) Eval [3;28];
   (* 145 *) Eval [13;21]; Bind [18;19];
   (* 146 *) Eval [18;21;15]; Bind [27];
   (* 147 *) Eval [18;21;15]; Bind [28];
   (* 148 *) Eval [3;18;15];
   (* 149 *) Eval [3;18;21];
   (* 150 *) Eval [3;27];
   (* 151 *) Eval [3;28];
   (* 153 *) Eval [14;3;15;6]; Bind [18;19];
   (* 154 *) Eval [14];
   (* 155 *) Eval [3;18;15];
   (* 156 *) Eval [3;18;21]] |}.

(** scripts/fix_results.py:1-43. *)
Definition py_scripts_fix_results : file := {| f_name := "scripts/fix_results.py";
  f_vars := ["pickle"; "lzma"; "savemat"; "os"; "path"; "timestamp"; "dec_type"; "f"; "summary"; "results"; "step"; "decoded_entropy"
    ; "decoded_ldpc"];
  f_body :=
   [(* 2 *) Eval []; Bind [0];
   (* 3 *) Eval []; Bind [1];
   (* 4 *) Eval []; Bind [2];
   (* 5 *) Eval []; Bind [3];
   (* 7 *) Eval []; Bind [4];
   (* 9 *) Eval [4]; Bind [5];
   (* 10 *) Eval []; Bind [6];
   (* 14 *) Eval [3;4;5;6]; Bind [7];
   (* 16 *) Eval [0;7]; Bind [8];
   (* 17 *) Eval [];
   (* 20 *) Eval [1;3;4;5;6]; Bind [7];
   (* 21 *) Eval [0;7]; Bind [9];
   (* 22 *) Eval [];
   (* 23 *) Eval [9]; Loop [Bind [10];
    (* 24 *) Eval [10]];
   (* 25 *) Eval [9]; Bind [11];
   (* 26 *) Eval [9]; Bind [12];
   (* 28 *) Eval [8;9];
   (* 30 *) Eval [2;3;4;5;6;8];
   (* 32 *) Eval [];
   (* 33 *) Eval [2;3;4;5;6;12];
   (* 35 *) Eval [];
   (* 36 *) Eval [2;3;4;5;6;11];
   (* 43 *) Eval []] |}.

(** scripts/train_estimator.py:1-64. *)
Definition py_scripts_train_estimator : file := {| f_name := "scripts/train_estimator.py";
  f_vars := ["np"; "pickle"; "Bits"; "argparse"; "WiFiSpecCode"; "EncoderWiFi"; "json"; "plt"; "parser"; "args"; "rng"; "f"
    ; "hc_tx"; "hc_bin_data"; "spec"; "n"; "encoder"; "encoded"; "binary_data"; "pad_len"; "padded"; "data"; "i"; "encoded_bits"
    ; "p"; "dist"];
  f_body :=
   [(* 1 *) Eval []; Bind [0];
   (* 2 *) Eval []; Bind [1];
   (* 3 *) Eval []; Bind [2];
   (* 4 *) Eval []; Bind [3];
   (* 5 *) Eval []; Bind [4];
   (* 6 *) Eval []; Bind [5];
   (* 7 *) Eval []; Bind [6];
   (* 8 *) Eval []; Bind [7];
   (* 11 *) Eval [3]; Bind [8];
   (* 12 *) Eval [8];
   (* 13 *) Eval [8]; Bind [9];
   (* 15 *) Eval [0]; Bind [10];
   (* 17 *) Eval []; Bind [11];
   (* 18 *) Eval [1;11]; Bind [12];
   (* 19 *) Eval [12]; If Opaque [Eval [2]] []; Bind [13];
   (* 21 *) Eval [9]; If (Is "n_clusters" (VInt 1)) [(* 22 *) Eval [4]; Bind [14]] [(* 23 *) Eval [9]; If (Is "n_clusters" (VInt 2)) [(* 24 *) Eval [4]; Bind [14]] [(* 25 *) Eval [9]; If (Is "n_clusters" (VInt 3)) [(* 26 *) Eval [4]; Bind [14]] [(* 28 *) Eval []; Raise]]];
   (* 30 *) Eval [13]; Bind [15];
   (* 31 *) Eval [5;14]; Bind [16];
   (* 32 *) Eval []; Bind [17];
   (* 33 *) Eval [13;15]; Loop [Bind [18];
    (* 34 *) Eval [9]; If (Is "n_clusters" (VInt 1)) [(* 35 *) Eval [16;18]; Bind [19];
     (* 36 *) Eval [18;2;10;19]; Bind [20];
     (* 37 *) Eval [17;16;20]] [(* 38 *) Eval [9]; If (Is "n_clusters" (VInt 2)) [(* 39 *) Eval [18;2;10;16]; Bind [20];
      (* 40 *) Eval [17;16;20;18]] [(* 41 *) Eval [9]; If (Is "n_clusters" (VInt 3)) [(* 42 *) Eval [18;2;10;16]; Bind [20];
       (* 43 *) Eval [17;16;20];
       (* 44 *) Eval [18;2;10;16]; Bind [20];
       (* 45 *) Eval [17;16;20];
       (* 46 *) Eval [18;2;10;16]; Bind [20];
       (* 47 *) Eval [17;16;20]] []]]];
   (* 49 *) Eval [0;17;16]; Bind [21];
   (* 50 *) Eval [17]; Loop [Bind [22;23];
    (* 51 *) Eval [0;23;21;22]];
   (* 52 *) Eval [21;17]; Bind [24];
   (* 53 *) Eval [0;16]; Bind [25];
   (* 54 *) Eval [24;25];
   (* 55 *) Eval [24;25];
   (* 57 *) Eval [7;24];
   (* 58 *) Eval [7];
   (* 59 *) Eval [7];
   (* 60 *) Eval [7];
   (* 61 *) Eval [7];
   (* 63 *) Eval [9]; Bind [11];
   (* 64 *) Eval [6;25;11]] |}.

(** scripts/unify_results.py:1-58. *)
Definition py_scripts_unify_results : file := {| f_name := "scripts/unify_results.py";
  f_vars := ["os"; "pickle"; "datetime"; "plt"; "np"; "search_dir"; "results_file_name"; "last_results_file"; "resuls_dir"
    ; "timestamp"; "path"; "files"; "f"; "last_summary"; "args"; "results"; "file"; "step_res"; "raw_ber"; "ldpc_ber"; "entropy_ber"
    ; "fig"; "figure"; "ldpc_buffer_success_rate"; "entropy_buffer_success_rate"; "summary"];
  f_body :=
   [(* 2 *) Eval []; Bind [0];
   (* 3 *) Eval []; Bind [1];
   (* 4 *) Eval []; Bind [2];
   (* 5 *) Eval []; Bind [3];
   (* 6 *) Eval []; Bind [4];
   (* 8 *) Eval []; Bind [5];
   (* 9 *) Eval []; Bind [6];
   (* 10 *) Eval []; Bind [7];
   (* 11 *) Eval []; Bind [8];
   (* 13 *) Eval [2]; Bind [9];
   (* 16 *) Eval [0;8;9]; Bind [10];
   (* 17 *) Eval [0;10];
   (* 18 *) Eval [0;5]; Bind [11];
   (* 19 *) Eval [11]; Bind [11];
   (* 20 *) Eval [11]; If Opaque [Eval [0;5]] []; Bind [11];
   (* 21 *) Eval [11]; If Opaque [Eval [0]] [];
   (* 23 *) Eval [7]; Bind [12];
   (* 24 *) Eval [1;12]; Bind [13];
   (* 25 *) Eval [13]; Bind [14];
   (* 27 *) Eval []; Bind [15];
   (* 28 *) Eval [11]; Loop [Bind [16];
    (* 29 *) Eval [16]; Bind [12];
    (* 30 *) Eval [1;12]; Bind [17];
    (* 31 *) Eval [15;17]];
   (* 33 *) Eval [0;10;9;6]; Bind [12];
   (* 34 *) Eval [1;15;12];
   (* 36 *) Eval [4;15]; Bind [18];
   (* 37 *) Eval [4;15]; Bind [19];
   (* 38 *) Eval [4;15]; Bind [20];
   (* 39 *) Eval [3]; Bind [21];
   (* 40 *) Eval [3;18;19;20];
   (* 41 *) Eval [3];
   (* 42 *) Eval [3];
   (* 43 *) Eval [21;0;10];
   (* 45 *) Eval [3]; Bind [22];
   (* 46 *) Eval [4;15]; Bind [23];
   (* 47 *) Eval [4;15]; Bind [24];
   (* 48 *) Eval [3;18;23;24];
   (* 49 *) Eval [3];
   (* 50 *) Eval [3];
   (* 51 *) Eval [22;0;10];
   (* 53 *) Eval [18;14];
   (* 54 *) Eval [14;18;19;20;23;24]; Bind [25];
   (* 57 *) Eval [0;10;9;6]; Bind [12];
   (* 58 *) Eval [1;25;12]] |}.

(** utils/__init__.py:1-2. *)
Definition py_utils_init : file := {| f_name := "utils/__init__.py";
  f_vars := ["setup_logger"];
  f_body :=
   [(* 2 *) Eval []; Bind [0]] |}.

(** utils/bit_operations.py:1-36. *)
Definition py_utils_bit_operations : file := {| f_name := "utils/bit_operations.py";
  f_vars := ["bitstring"; "Union"; "NDArray"; "np"; "hamming_distance"; "__all__"; "hamming_distance.a"; "hamming_distance.b"
    ; "hamming_distance.uint_len"];
  f_body :=
   [(* 2 *) Eval []; Bind [0];
   (* 3 *) Eval []; Bind [1];
   (* 4 *) Eval []; Bind [2];
   (* 5 *) Eval []; Bind [3];
   (* 8 *) Eval [1;0;2;3]; Bind [4];
   (* 36 *) Eval []; Bind [5]; Loop [If Opaque [Call [] [6;7;8] [(* 19 *) Eval [6]; If Opaque [(* 20 *) Eval [0;6]; Bind [6]] [];
      (* 21 *) Eval [7]; If Opaque [(* 22 *) Eval [0;7]; Bind [7]] [];
      (* 23 *) Eval [6]; If Opaque [(* 24 *) Eval [0;6;8]; Bind [6]] [];
      (* 25 *) Eval [7]; If Opaque [(* 26 *) Eval [0;7;8]; Bind [7]] [];
      (* 27 *) Eval [6;3]; If Opaque [(* 28 *) Eval [0;6]; Bind [6]] [];
      (* 29 *) Eval [7;3]; If Opaque [(* 30 *) Eval [0;7]; Bind [7]] [];
      (* 31 *) Eval [6;0]; If Opaque [Eval [7;0]] []; If Opaque [(* 32 *) Eval []; Raise] [];
      (* 33 *) Eval [6;7]; Return]] []]] |}.

(** utils/common_logging.py:1-27. *)
Definition py_utils_common_logging : file := {| f_name := "utils/common_logging.py";
  f_vars := ["logging"; "sys"; "setup_logger"; "__all__"; "setup_logger.c_format"; "setup_logger.c_handler"; "setup_logger.f_format"
    ; "setup_logger.f_handler"; "setup_logger.logger"; "setup_logger.name"; "setup_logger.log_file"; "setup_logger.level"
    ];
  f_body :=
   [(* 1 *) Eval []; Bind [0];
   (* 2 *) Eval []; Bind [1];
   (* 5 *) Eval [0]; Bind [2];
   (* 27 *) Eval []; Bind [3]; Loop [If Opaque [Call [4;5;6;7;8] [9;10;11] [(* 7 *) Eval [0;9]; Bind [8];
      (* 8 *) Eval [8;11];
      (* 11 *) Eval [0;1]; Bind [5];
      (* 12 *) Eval [0;10]; Bind [7];
      (* 15 *) Eval [0]; Bind [4];
      (* 16 *) Eval [0]; Bind [6];
      (* 17 *) Eval [5;4];
      (* 18 *) Eval [7;6];
      (* 21 *) Eval [8;5];
      (* 22 *) Eval [8;7];
      (* 24 *) Eval [8]; Return]] []]] |}.

(** utils/custom_exceptions.py:1-24. *)
Definition py_utils_custom_exceptions : file := {| f_name := "utils/custom_exceptions.py";
  f_vars := ["Any"; "NonUint8.__init__"; "NonUint8"; "IncorrectBufferLength"; "UnsupportedDtype"; "__all__"; "NonUint8.__init__.self"
    ; "NonUint8.__init__.args"];
  f_body :=
   [(* 2 *) Eval []; Bind [0];
   (* 5 *) Eval [];
   (* 7 *) Eval []; Bind [1]; Bind [2];
   (* 14 *) Eval []; Bind [3];
   (* 19 *) Eval []; Bind [4];
   (* 24 *) Eval []; Bind [5]; Loop [If Opaque [Call [] [6;7] [(* 9 *) Eval [7]; If Opaque [Eval [7]] []; Eval [6];
      (* 10 *) Eval [7]; If Opaque [Eval [7]] []; Eval [6];
      (* 11 *) Eval [6]]] []]] |}.

(** utils/information_theory.py:1-108. *)
Definition py_utils_information_theory : file := {| f_name := "utils/information_theory.py";
  f_vars := ["np"; "scipy_ent"; "Any"; "Optional"; "UnsupportedDtype"; "npt"; "prob_with_alphabet"; "prob"; "entropy"; "typical_set_cardinality"
    ; "hellinger"; "__all__"; "hellinger.pk"; "hellinger.qk"; "typical_set_cardinality.ent_f"; "typical_set_cardinality.lb"
    ; "typical_set_cardinality.ub"; "typical_set_cardinality.n"; "typical_set_cardinality.pk"; "typical_set_cardinality.ent"
    ; "typical_set_cardinality.eps"; "entropy.ent"; "entropy.pk"; "entropy.base"; "prob.alphabet"; "prob.pr"; "prob.data"
    ; "prob_with_alphabet.alphabet"; "prob_with_alphabet.alphabet_arr"; "prob_with_alphabet.alphabet_size"; "prob_with_alphabet.count"
    ; "prob_with_alphabet.counts"; "prob_with_alphabet.num_samples"; "prob_with_alphabet.pr"; "prob_with_alphabet.row"; "prob_with_alphabet.row_idx"
    ; "prob_with_alphabet.val"; "prob_with_alphabet.values"; "prob_with_alphabet.data"];
  f_body :=
   [(* 2 *) Eval []; Bind [0];
   (* 3 *) Eval []; Bind [1];
   (* 4 *) Eval []; Bind [2;3];
   (* 5 *) Eval []; Bind [4];
   (* 6 *) Eval []; Bind [5];
   (* 9 *) Eval [5;2;0]; Bind [6];
   (* 42 *) Eval [5;2;0]; Bind [7];
   (* 52 *) Eval [5;2]; Bind [8];
   (* 68 *) Eval [3;5;2]; Bind [9];
   (* 96 *) Eval [5;2;0]; Bind [10];
   (* 108 *) Eval []; Bind [11]; Loop [If Opaque [Call [] [12;13] [(* 101 *) Eval [12]; If Opaque [Eval [13]] []; If Opaque [(* 102 *) Eval [0;12;13]; Return] [];
      (* 103 *) Eval [12]; If Opaque [Eval [13]] []; If Opaque [(* 104 *) Eval [0;12;13]; Return] [];
      (* 105 *) Eval []; Raise]] [If Opaque [Call [14;15;16] [17;18;19;20] [(* 82 *) Eval [17]; If Opaque [Eval [20]] []; If Opaque [(* 83 *) Eval []; Raise] [];
       (* 84 *) Eval [19]; If Opaque [(* 85 *) Eval [18]; If Opaque [(* 86 *) Eval []; Raise] [(* 88 *) Eval [8]; Loop [Call [21] [22;23] [(* 59 *) Eval [22]; If Opaque [(* 60 *) Eval []; Raise] [];
           (* 61 *) Eval [22]; If Opaque [(* 62 *) Eval [1;22;23]; Bind [21]] [(* 64 *) Eval [1;22;23]; Bind [21]];
           (* 65 *) Eval [21;0]; If Opaque [Eval [21]] [Eval [0;21]]; Return]]; Eval [18]; Bind [14]]] [(* 90 *) Eval [19]; Bind [14]];
       (* 91 *) Eval [17;14;20]; Bind [16];
       (* 92 *) Eval [20;17;14]; Bind [15];
       (* 93 *) Eval [15;16]; Return]] [If Opaque [Call [21] [22;23] [(* 59 *) Eval [22]; If Opaque [(* 60 *) Eval []; Raise] [];
        (* 61 *) Eval [22]; If Opaque [(* 62 *) Eval [1;22;23]; Bind [21]] [(* 64 *) Eval [1;22;23]; Bind [21]];
        (* 65 *) Eval [21;0]; If Opaque [Eval [21]] [Eval [0;21]]; Return]] [If Opaque [Call [24;25] [26] [(* 48 *) Eval [6]; Loop [Call [27;28;29;30;31;32;33;34;35;36;37] [38] [(* 16 *) Eval [38;0]; If Opaque [(* 17 *) Eval [4]; Raise] [];
           (* 20 *) Eval [38]; If Opaque [(* 21 *) Eval [0;38]; Bind [27];
            (* 22 *) Eval [27]; Bind [29];
            (* 23 *) Eval [0;38;29]; Bind [33];
            (* 24 *) Eval [38]; Bind [32];
            (* 25 *) Eval [38]; Loop [Bind [35;34];
             (* 26 *) Eval [];
             (* 27 *) Eval [0;34]; Bind [37;31];
             (* 28 *) Eval [37;31]; Loop [Bind [36;30];
              (* 29 *) Eval [30;33;35;27;36]]];
            (* 30 *) Eval [0;33;32]; Bind [33];
            (* 31 *) Eval [33;27]; Return] [(* 32 *) Eval [38]; If Opaque [(* 33 *) Eval [38]; Bind [32];
             (* 34 *) Eval [];
             (* 35 *) Eval [0;38]; Bind [28;33];
             (* 36 *) Eval [0;33;32]; Bind [33];
             (* 37 *) Eval [33;28]; Return] [(* 39 *) Eval []; Raise]]]]; Eval [26]; Bind [25;24];
         (* 49 *) Eval [25]; Return]] [If Opaque [Call [27;28;29;30;31;32;33;34;35;36;37] [38] [(* 16 *) Eval [38;0]; If Opaque [(* 17 *) Eval [4]; Raise] [];
          (* 20 *) Eval [38]; If Opaque [(* 21 *) Eval [0;38]; Bind [27];
           (* 22 *) Eval [27]; Bind [29];
           (* 23 *) Eval [0;38;29]; Bind [33];
           (* 24 *) Eval [38]; Bind [32];
           (* 25 *) Eval [38]; Loop [Bind [35;34];
            (* 26 *) Eval [];
            (* 27 *) Eval [0;34]; Bind [37;31];
            (* 28 *) Eval [37;31]; Loop [Bind [36;30];
             (* 29 *) Eval [30;33;35;27;36]]];
           (* 30 *) Eval [0;33;32]; Bind [33];
           (* 31 *) Eval [33;27]; Return] [(* 32 *) Eval [38]; If Opaque [(* 33 *) Eval [38]; Bind [32];
            (* 34 *) Eval [];
            (* 35 *) Eval [0;38]; Bind [28;33];
            (* 36 *) Eval [0;33;32]; Bind [33];
            (* 37 *) Eval [33;28]; Return] [(* 39 *) Eval []; Raise]]]] []]]]]]] |}.

(** utils/performance_analysis.py:1-45. *)
Definition py_utils_performance_analysis : file := {| f_name := "utils/performance_analysis.py";
  f_vars := ["np"; "confusion_matrix"; "stats"; "ber"; "__all__"; "ber.ground_truth"; "ber.predicted"; "stats._accuracy"; "stats._f1"
    ; "stats._precision"; "stats._recall"; "stats.denominator"; "stats.label"; "stats.n_classes"; "stats.no_true_positives"
    ; "stats.actual_labels"; "stats.predicted_labels"; "stats.cm"];
  f_body :=
   [(* 1 *) Eval []; Bind [0];
   (* 2 *) Eval []; Bind [1];
   (* 5 *) Eval []; Bind [2];
   (* 35 *) Eval [0]; Bind [3];
   (* 45 *) Eval []; Bind [4]; Loop [If Opaque [Call [] [5;6] [(* 42 *) Eval [0;5;6]; Return]] [If Opaque [Call [7;8;9;10;11;12;13;14] [15;16;17] [(* 6 *) Eval [17]; If Opaque [(* 7 *) Eval [1;15;16]; Bind [17]] [];
       (* 8 *) Eval [0;17]; Bind [14];
       (* 9 *) Eval [17]; Bind [13];
       (* 10 *) Eval [0;17]; Bind [10];
       (* 11 *) Eval [0;17]; If Opaque [(* 12 *) Eval [0;17]; Bind [9]] [(* 14 *) Eval [0;13]; Bind [9];
        (* 15 *) Eval [13]; Loop [Bind [12];
         (* 16 *) Eval [0;17;12]; If Opaque [(* 17 *) Eval [14;12;9]] [(* 20 *) Eval [17;12;0;9]]]];
       (* 21 *) Eval [9;10]; Bind [11];
       (* 22 *) Eval [11]; If Opaque [(* 23 *) Eval [9;10;11]; Bind [8]] [(* 25 *) Eval [0;17]; Bind [8];
        (* 26 *) Eval [13]; Loop [Bind [12];
         (* 27 *) Eval [11;12]; If Opaque [(* 28 *) Eval [9;12;10;11;8]] [(* 30 *) Eval [14;12;8]]]];
       (* 31 *) Eval [0;17]; Bind [7];
       (* 32 *) Eval [17;10;9;8;7]; Return]] []]]] |}.

(** utils/random_sources.py:1-56. *)
Definition py_utils_random_sources : file := {| f_name := "utils/random_sources.py";
  f_vars := ["np"; "generate_markov_samples"; "__all__"; "transition_matrix"; "initial_state"; "num_samples"; "generate_markov_samples.current_states"
    ; "generate_markov_samples.i"; "generate_markov_samples.num_states"; "generate_markov_samples.order"; "generate_markov_samples.probabilities"
    ; "generate_markov_samples.states"; "generate_markov_samples.transition_matrix"; "generate_markov_samples.initial_state"
    ; "generate_markov_samples.num_samples"; "samples"; "initial_states"];
  f_body :=
   [(* 1 *) Eval []; Bind [0];
   (* 4 *) Eval []; Bind [1];
   (* 25 *) Eval []; Bind [2];
   (* 27 *) 
   (* 30 *) Eval [0]; Bind [3];
   (* 32 *) Eval []; Bind [4];
   (* 34 *) Eval []; Bind [5];
   (* 37 *) Eval [1]; Loop [Call [6;7;8;9;10;11] [12;13;14] [(* 5 *) Eval [12]; Bind [8];
     (* 6 *) Eval [12]; Bind [9];
     (* 7 *) Eval [9]; If Opaque [Eval [13]] []; If Opaque [] [(* 9 *) Eval [9;13]; If Opaque [(* 10 *) Eval []; Raise] []];
     (* 11 *) Eval [8;12]; If Opaque [(* 12 *) Eval []; Raise] [];
     (* 14 *) Eval [0;14]; Bind [11];
     (* 15 *) Eval [13;11;9];
     (* 18 *) Eval [9;14]; Loop [Bind [7];
      (* 19 *) Eval [11;9]; Bind [6];
      (* 20 *) Eval [12;6]; Bind [10];
      (* 21 *) Eval [0;8;10;11;7]];
     (* 22 *) Eval [11]; Return]]; Eval [3;4;5]; Bind [15];
   (* 40 *) Eval [];
   (* 41 *) Eval [15];
   (* 45 *) Eval [0]; Bind [3];
   (* 47 *) Eval []; Bind [16];
   (* 49 *) Eval []; Bind [5];
   (* 52 *) Eval [1]; Loop [Call [6;7;8;9;10;11] [12;13;14] [(* 5 *) Eval [12]; Bind [8];
     (* 6 *) Eval [12]; Bind [9];
     (* 7 *) Eval [9]; If Opaque [Eval [13]] []; If Opaque [] [(* 9 *) Eval [9;13]; If Opaque [(* 10 *) Eval []; Raise] []];
     (* 11 *) Eval [8;12]; If Opaque [(* 12 *) Eval []; Raise] [];
     (* 14 *) Eval [0;14]; Bind [11];
     (* 15 *) Eval [13;11;9];
     (* 18 *) Eval [9;14]; Loop [Bind [7];
      (* 19 *) Eval [11;9]; Bind [6];
      (* 20 *) Eval [12;6]; Bind [10];
      (* 21 *) Eval [0;8;10;11;7]];
     (* 22 *) Eval [11]; Return]]; Eval [3;16;5]; Bind [15];
   (* 55 *) Eval [];
   (* 56 *) Eval [15]] |}.

(** All of them. See the files themselves, from line 1 of each. *)
Definition files : list file := [py_analysis_MLE_noisy_Bernoulli;
  py_data_generation_mission_profile;
  py_decoders_init;
  py_decoders_classifiying_decoder;
  py_decoders_classifying_DUDE_decoder;
  py_decoders_combined_decoder;
  py_decoders_combined_unified_decoder;
  py_decoders_decoder;
  py_decoders_entropy_bitwise_decoder;
  py_decoders_mavlink_decoder;
  py_decoders_turbo;
  py_inference_init;
  py_inference_bmm;
  py_inference_buffer_segmentation;
  py_inference_clustering;
  py_inference_dude;
  py_inference_entropy_mle;
  py_inference_statistical_models;
  py_mavlink_utils_utils;
  py_protocol_meta_init;
  py_protocol_meta_msg_header;
  py_protocol_meta_protocol_meta;
  py_runs_Feb_2022_data_ship_log_reader;
  py_runs_Feb_2022_experimental_data_run;
  py_runs_Feb_2022_experimental_data_unified_decoder;
  py_runs_Feb_2022_experimental_mavlink_based;
  py_runs_Feb_2022_simulation_rafael_code;
  py_runs_Feb_2022_train_buffer_model;
  py_runs_Feb_2023_experimental_data_run_feb_23;
  py_runs_Feb_2023_experimental_data_unified_decoder;
  py_runs_Feb_2023_experimental_mavlink_based;
  py_runs_Feb_2023_train_buffer_model;
  py_runs_HC_eilat_July_2018_analysis_analysis;
  py_runs_HC_eilat_July_2018_analysis_analyze_resutls;
  py_runs_HC_eilat_July_2018_analysis_bit_flips_distribution;
  py_runs_HC_eilat_July_2018_analysis_bsc_capacity;
  py_runs_HC_eilat_July_2018_analysis_entropy_with_flips;
  py_runs_HC_eilat_July_2018_classifying_entropy_decoder_over_awgn_channel;
  py_runs_HC_eilat_July_2018_data_msg_creator;
  py_runs_HC_eilat_July_2018_ecncoding_data;
  py_runs_HC_eilat_July_2018_simluated_data_entropy_bf_decoders;
  py_runs_HC_eilat_July_2018_simulate_gallager_bf;
  py_runs_HC_eilat_July_2018_simulated_data_classifying_dude_decoder;
  py_runs_HC_eilat_July_2018_simulated_data_classifying_entropy_decoder;
  py_runs_HC_eilat_July_2018_simulated_data_combined_decoder;
  py_runs_HC_eilat_July_2018_simulated_data_entropy_bitwise_decoder_predefined_model;
  py_runs_HC_eilat_July_2018_simulated_data_entropy_bitwise_decoder_script;
  py_runs_HC_eilat_July_2018_simulated_data_entropy_bitwise_decoder_script_mp;
  py_runs_HC_eilat_July_2018_simulated_data_entropy_bitwise_decoder_weighted_model;
  py_runs_HC_eilat_July_2018_simulated_data_entropy_bitwise_decoder_weighted_model_averaged;
  py_runs_HC_eilat_July_2018_simulated_data_mavlink_decoding;
  py_runs_HC_eilat_July_2018_simulated_data_pretrained_model;
  py_runs_clsutering_analysis_cluster_mnist;
  py_runs_clsutering_analysis_clustering_analysis;
  py_runs_clsutering_analysis_functions;
  py_scripts_buffer_segmentation_example;
  py_scripts_classifier_analysis;
  py_scripts_clustering_trials;
  py_scripts_estimators_comparison_compare_denoisers;
  py_scripts_estimators_comparison_dude_example;
  py_scripts_fix_results;
  py_scripts_train_estimator;
  py_scripts_unify_results;
  py_utils_init;
  py_utils_bit_operations;
  py_utils_common_logging;
  py_utils_custom_exceptions;
  py_utils_information_theory;
  py_utils_performance_analysis;
  py_utils_random_sources].
