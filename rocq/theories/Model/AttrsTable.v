(** Where the methods of the classes set attributes of their object and where they read them: the constructor, then any methods in any order.
    Generated by tools/gen_attrs.py from the text of the files: every class but enumerations and exceptions.  The number before a statement is
    its line.  Attributes are numbered, in a list for every class. *)
From Coq Require Import String ZArith NArith List.
From Verif Require Import Model.Names.
Import ListNotations.
Local Open Scope string_scope.
Local Open Scope list_scope.
Local Open Scope Z_scope.
Local Open Scope N_scope.

(** decoders/classifiying_decoder.py:11-233. *)
Definition at_ClassifyingEntropyDecoder : file := {| f_name := "ClassifyingEntropyDecoder";
  f_vars := ["ldpc_decoder"; "model_length"; "entropy_threshold"; "model_bits_idx"; "clipping_factor"; "distributions"; "models_entropy"
    ; "train_models"; "conf_center"; "conf_slope"; "bit_flip"; "window_length"; "models_data"; "classifier"; "n_clusters"
    ; "cluster"; "running_idx"; "reliability_method"; "decoder_type"];
  f_body :=
   [Call [] [] [(* 27 *) Eval []; Bind [0];
    (* 28 *) Eval []; Bind [1];
    (* 29 *) Eval []; Bind [2];
    (* 30 *) Eval [0]; Bind [3];
    (* 31 *) Eval [3]; If Opaque [(* 32 *) Eval []; Bind [3]] [(* 34 *) Eval [3];
     (* 35 *) Eval [3]; Bind [3]];
    (* 36 *) Eval []; Bind [4];
    (* 38 *) Eval []; If Opaque [(* 39 *) Eval []; Bind [5];
     (* 40 *) Eval []; Bind [6];
     (* 41 *) Eval []; Bind [7]] [(* 43 *) Eval []; Bind [5];
     (* 44 *) Eval []; If Opaque [Eval [5]] []; Bind [6];
     (* 45 *) Eval []; Bind [7]];
    (* 46 *) Eval []; Bind [8];
    (* 47 *) Eval []; Bind [9];
    (* 48 *) Eval []; Bind [10];
    (* 49 *) Eval []; Bind [11];
    (* 50 *) Eval []; Bind [12];
    (* 52 *) Eval []; Bind [13];
    (* 53 *) Eval []; Bind [14];
    (* 54 *) Eval []; Bind [15];
    (* 55 *) Eval []; Bind [16];
    (* 56 *) Eval []; Bind [17];
    (* 57 *) Eval []; Call [] [] [(* 22 *) Eval []; Bind [18]]]; Loop [Try [If Opaque [Call [] [] [(* 77 *) Eval [3];
       (* 78 *) Eval [14]; If Opaque [(* 79 *) Eval [15]; If Opaque [(* 80 *) Eval [13];
         (* 81 *) Eval []; If Opaque [(* 82 *) Eval [0]; If Opaque [(* 83 *) Eval [0];
           (* 85 *) Eval []; Return] [(* 87 *) Eval [0]; If Opaque [(* 88 *) Eval [0];
            (* 89 *) Eval []; Return] [(* 91 *) Eval [0]; If Opaque [(* 92 *) Eval [];
             (* 93 *) Eval [0];
             (* 95 *) Eval []; Return] []]]] []] [(* 98 *) Eval [16;14]; Bind [16];
         (* 99 *) Eval [16]]] [(* 101 *) Eval []];
       (* 108 *) Eval []; Call [] [] [(* 168 *) Eval [];
        (* 171 *) Eval [];
        (* 174 *) Eval [3;6;2];
        (* 177 *) Eval []; If Opaque [(* 178 *) Eval []; Return] [];
        (* 179 *) Eval [7]; If Opaque [(* 180 *) Eval [12]; If Opaque [Eval [12]] [];
         (* 181 *) Eval [8;9]] [(* 183 *) Eval []];
        (* 187 *) Eval []; If Opaque [(* 188 *) Eval [5;6;2]] [];
        (* 193 *) Eval []; Return];
       (* 109 *) Eval [0]; If Opaque [(* 110 *) Eval [4];
        (* 111 *) Eval [];
        (* 112 *) Eval [0]] [(* 113 *) Eval [0]; If Opaque [(* 116 *) Eval []; Call [] [] [(* 197 *) Eval [];
          (* 198 *) Eval [];
          (* 199 *) Eval [];
          (* 200 *) Eval []; If Opaque [(* 201 *) Eval [17]; If (Is "reliability_method" (VInt 0)) [(* 203 *) Eval []; If Opaque [(* 204 *) Eval []] [(* 206 *) Eval []];
            (* 207 *) Eval [];
            (* 208 *) Eval []; Return] [];
           (* 211 *) Eval [];
           (* 214 *) Eval [17]; If (Is "reliability_method" (VInt 2)) [(* 215 *) Eval [];
            (* 216 *) Eval [0];
            (* 217 *) Eval []] [];
           (* 218 *) Eval [17]; If Opaque [(* 219 *) Eval [];
            (* 220 *) Eval []; If Opaque [(* 221 *) Eval []] [];
            (* 222 *) Eval []; If Opaque [(* 223 *) Eval []] []] [];
           (* 224 *) Eval [17]; If (Is "reliability_method" (VInt 3)) [(* 225 *) Eval [];
            (* 226 *) Eval [];
            (* 227 *) Eval [12]; If Opaque [Eval [12]] [];
            (* 228 *) Eval [11]; If Opaque [(* 229 *) Eval [3;6;2];
             (* 231 *) Eval []; If Opaque [(* 232 *) Eval []] []] []] []] [];
          (* 233 *) Eval []; Return];
         (* 117 *) Eval [0];
         (* 119 *) Eval []] [(* 120 *) Eval [0]; If Opaque [(* 121 *) Eval []; Call [] [] [(* 197 *) Eval [];
           (* 198 *) Eval [];
           (* 199 *) Eval [];
           (* 200 *) Eval []; If Opaque [(* 201 *) Eval [17]; If (Is "reliability_method" (VInt 0)) [(* 203 *) Eval []; If Opaque [(* 204 *) Eval []] [(* 206 *) Eval []];
             (* 207 *) Eval [];
             (* 208 *) Eval []; Return] [];
            (* 211 *) Eval [];
            (* 214 *) Eval [17]; If (Is "reliability_method" (VInt 2)) [(* 215 *) Eval [];
             (* 216 *) Eval [0];
             (* 217 *) Eval []] [];
            (* 218 *) Eval [17]; If Opaque [(* 219 *) Eval [];
             (* 220 *) Eval []; If Opaque [(* 221 *) Eval []] [];
             (* 222 *) Eval []; If Opaque [(* 223 *) Eval []] []] [];
            (* 224 *) Eval [17]; If (Is "reliability_method" (VInt 3)) [(* 225 *) Eval [];
             (* 226 *) Eval [];
             (* 227 *) Eval [12]; If Opaque [Eval [12]] [];
             (* 228 *) Eval [11]; If Opaque [(* 229 *) Eval [3;6;2];
              (* 231 *) Eval []; If Opaque [(* 232 *) Eval []] []] []] []] [];
           (* 233 *) Eval []; Return];
          (* 122 *) Eval []; If Opaque [(* 123 *) Eval []] [(* 125 *) Eval []];
          (* 126 *) Eval [0];
          (* 128 *) Eval []] []]];
       (* 130 *) Eval [3];
       (* 131 *) Eval []; If Opaque [(* 132 *) Eval []; Call [] [] [(* 143 *) Eval [7]; If Opaque [(* 144 *) Eval []; Return] [];
         (* 145 *) Eval [1]; If Opaque [(* 146 *) Eval [1];
          (* 147 *) Eval [];
          (* 148 *) Eval []; Raise] [];
         (* 149 *) Eval [];
         (* 151 *) Eval [12]; If Opaque [] [Eval [12]]; Eval [12];
         (* 153 *) Eval [11]; If Opaque [Eval [12;11]] []; If Opaque [(* 155 *) Eval [12;11]] [];
         (* 157 *) Eval [12];
         (* 158 *) Eval [];
         (* 159 *) Eval [10];
         (* 160 *) Eval [5];
         (* 162 *) Eval []; If Opaque [(* 163 *) Eval [];
          (* 164 *) Eval []; Raise] [];
         (* 165 *) Eval [5;6]]] [(* 134 *) Eval []; Call [] [] [(* 143 *) Eval [7]; If Opaque [(* 144 *) Eval []; Return] [];
         (* 145 *) Eval [1]; If Opaque [(* 146 *) Eval [1];
          (* 147 *) Eval [];
          (* 148 *) Eval []; Raise] [];
         (* 149 *) Eval [];
         (* 151 *) Eval [12]; If Opaque [] [Eval [12]]; Eval [12];
         (* 153 *) Eval [11]; If Opaque [Eval [12;11]] []; If Opaque [(* 155 *) Eval [12;11]] [];
         (* 157 *) Eval [12];
         (* 158 *) Eval [];
         (* 159 *) Eval [10];
         (* 160 *) Eval [5];
         (* 162 *) Eval []; If Opaque [(* 163 *) Eval [];
          (* 164 *) Eval []; Raise] [];
         (* 165 *) Eval [5;6]]];
       (* 135 *) Eval [5;3;6;2]; Return]] [If Opaque [Call [] [] [(* 143 *) Eval [7]; If Opaque [(* 144 *) Eval []; Return] [];
        (* 145 *) Eval [1]; If Opaque [(* 146 *) Eval [1];
         (* 147 *) Eval [];
         (* 148 *) Eval []; Raise] [];
        (* 149 *) Eval [];
        (* 151 *) Eval [12]; If Opaque [] [Eval [12]]; Eval [12];
        (* 153 *) Eval [11]; If Opaque [Eval [12;11]] []; If Opaque [(* 155 *) Eval [12;11]] [];
        (* 157 *) Eval [12];
        (* 158 *) Eval [];
        (* 159 *) Eval [10];
        (* 160 *) Eval [5];
        (* 162 *) Eval []; If Opaque [(* 163 *) Eval [];
         (* 164 *) Eval []; Raise] [];
        (* 165 *) Eval [5;6]]] [If Opaque [Call [] [] [(* 168 *) Eval [];
         (* 171 *) Eval [];
         (* 174 *) Eval [3;6;2];
         (* 177 *) Eval []; If Opaque [(* 178 *) Eval []; Return] [];
         (* 179 *) Eval [7]; If Opaque [(* 180 *) Eval [12]; If Opaque [Eval [12]] [];
          (* 181 *) Eval [8;9]] [(* 183 *) Eval []];
         (* 187 *) Eval []; If Opaque [(* 188 *) Eval [5;6;2]] [];
         (* 193 *) Eval []; Return]] [If Opaque [Call [] [] [(* 197 *) Eval [];
          (* 198 *) Eval [];
          (* 199 *) Eval [];
          (* 200 *) Eval []; If Opaque [(* 201 *) Eval [17]; If (Is "reliability_method" (VInt 0)) [(* 203 *) Eval []; If Opaque [(* 204 *) Eval []] [(* 206 *) Eval []];
            (* 207 *) Eval [];
            (* 208 *) Eval []; Return] [];
           (* 211 *) Eval [];
           (* 214 *) Eval [17]; If (Is "reliability_method" (VInt 2)) [(* 215 *) Eval [];
            (* 216 *) Eval [0];
            (* 217 *) Eval []] [];
           (* 218 *) Eval [17]; If Opaque [(* 219 *) Eval [];
            (* 220 *) Eval []; If Opaque [(* 221 *) Eval []] [];
            (* 222 *) Eval []; If Opaque [(* 223 *) Eval []] []] [];
           (* 224 *) Eval [17]; If (Is "reliability_method" (VInt 3)) [(* 225 *) Eval [];
            (* 226 *) Eval [];
            (* 227 *) Eval [12]; If Opaque [Eval [12]] [];
            (* 228 *) Eval [11]; If Opaque [(* 229 *) Eval [3;6;2];
             (* 231 *) Eval []; If Opaque [(* 232 *) Eval []] []] []] []] [];
          (* 233 *) Eval []; Return]] []]]]] []]] |}.

(** decoders/classifying_DUDE_decoder.py:9-128. *)
Definition at_ClassifyingDudeDecoder : file := {| f_name := "ClassifyingDudeDecoder";
  f_vars := ["ldpc_decoder"; "model_length"; "model_bits_idx"; "clipping_factor"; "bit_flip"; "dudes"; "data_size"; "conf_center"
    ; "conf_slope"; "cluster"; "classifier"; "n_clusters"; "decoder_type"];
  f_body :=
   [Call [] [] [(* 29 *) Eval []; Bind [0];
    (* 30 *) Eval []; Bind [1];
    (* 31 *) Eval [0]; Bind [2];
    (* 32 *) Eval [2]; If Opaque [(* 33 *) Eval []; Bind [2]] [(* 35 *) Eval [2];
     (* 36 *) Eval [2]; Bind [2]];
    (* 38 *) Eval []; Bind [3];
    (* 40 *) Eval []; Bind [4];
    (* 41 *) Eval [];
    (* 42 *) Eval [];
    (* 43 *) Eval []; Bind [5];
    (* 46 *) Eval []; Bind [6];
    (* 51 *) Eval []; Bind [7];
    (* 52 *) Eval []; Bind [8];
    (* 54 *) Eval []; Bind [9];
    (* 55 *) Eval [9]; If Opaque [(* 56 *) Eval []; Bind [10]] [(* 58 *) Eval []; Bind [10]];
    (* 59 *) Eval []; Bind [11];
    (* 60 *) Eval []; Call [] [] [(* 22 *) Eval []; Bind [12]]]; Loop [Try [If Opaque [Call [] [] [(* 80 *) Eval [2];
       (* 81 *) Eval [11]; If Opaque [(* 82 *) Eval [9]; If Opaque [(* 83 *) Eval [10];
         (* 84 *) Eval []; If Opaque [(* 85 *) Eval [0];
          (* 86 *) Eval []; Return] []] [(* 88 *) Eval [10;11]; Bind [10];
         (* 89 *) Eval [10]]] [(* 91 *) Eval []];
       (* 92 *) Eval [6];
       (* 99 *) Eval [3];
       (* 100 *) Eval []; Call [] [] [(* 113 *) Eval [];
        (* 117 *) Eval [6;7;8];
        (* 121 *) Eval [5];
        (* 126 *) Eval [];
        (* 128 *) Eval []; Return];
       (* 101 *) Eval [2];
       (* 102 *) Eval [];
       (* 103 *) Eval [];
       (* 104 *) Eval [0];
       (* 110 *) Eval []; Return]] [If Opaque [Call [] [] [(* 113 *) Eval [];
        (* 117 *) Eval [6;7;8];
        (* 121 *) Eval [5];
        (* 126 *) Eval [];
        (* 128 *) Eval []; Return]] []]] []]] |}.

(** decoders/combined_decoder.py:23-301. *)
Definition at_CombinedDecoder : file := {| f_name := "CombinedDecoder";
  f_vars := ["invalid_thr"; "buffer_structures"; "ldpc_decoder"; "model_length"; "valid_threshold"; "window_length"; "bs"
    ; "model"; "mavlink_learning"; "model_bits_idx"; "running_idx"; "classifier_training_size"; "n_clusters"; "cluster"; "classifier"
    ; "valid_factor"; "invalid_factor"; "conf_center"; "conf_slope"; "debug"; "entropy_models_data"; "entropy_threshold"; "clipping_factor"
    ; "bit_flip"; "distributions"; "models_entropy"; "decoder_type"];
  f_body :=
   [Call [] [] [(* 36 *) Eval []; Bind [0];
    (* 37 *) Eval []; Bind [1];
    (* 38 *) Eval []; Bind [2];
    (* 39 *) Eval []; Bind [3];
    (* 40 *) Eval []; Bind [4];
    (* 41 *) Eval []; Bind [5];
    (* 42 *) Eval []; Bind [6];
    (* 43 *) Eval []; Bind [7];
    (* 44 *) Eval []; Bind [8];
    (* 45 *) Eval [2]; Bind [9];
    (* 46 *) Eval [9]; If Opaque [(* 47 *) Eval []; Bind [9]] [(* 49 *) Eval [9];
     (* 50 *) Eval [9]; Bind [9]];
    (* 52 *) Eval []; Bind [10];
    (* 53 *) Eval []; Bind [11];
    (* 54 *) Eval []; Bind [12];
    (* 55 *) Eval []; Bind [13];
    (* 56 *) Eval []; Bind [14];
    (* 58 *) Eval []; Bind [15];
    (* 59 *) Eval []; Bind [16];
    (* 61 *) Eval []; Bind [17];
    (* 62 *) Eval []; Bind [18];
    (* 63 *) Eval []; Bind [19];
    (* 65 *) Eval []; Bind [20];
    (* 66 *) Eval []; Bind [21];
    (* 67 *) Eval []; Bind [22];
    (* 68 *) Eval []; Bind [23];
    (* 69 *) Eval []; Bind [24];
    (* 70 *) Eval []; Bind [25];
    (* 72 *) Eval []; Call [] [] [(* 22 *) Eval []; Bind [26]]]; Loop [Try [If Opaque [Call [] [] [(* 249 *) Eval [];
       (* 250 *) Eval [];
       (* 251 *) Eval [12]; If Opaque [(* 252 *) Eval [13]; If Opaque [(* 253 *) Eval [14;9];
         (* 254 *) Eval []; If Opaque [(* 255 *) Eval []; Call [] [] [(* 286 *) Eval [2];
           (* 287 *) Eval []; If Opaque [(* 288 *) Eval [8]; If Opaque [(* 289 *) Eval []; If Opaque [(* 290 *) Eval [1]; If Opaque [(* 291 *) Eval [2];
               (* 292 *) Eval [6];
               (* 293 *) Eval [1]] [];
              (* 294 *) Eval [7;1]] [(* 295 *) Eval [1]; If Opaque [(* 296 *) Eval [7;1]] []]] [];
            (* 297 *) Eval []; If Opaque [(* 298 *) Eval []; Call [] [] [(* 102 *) Eval [3]; If Opaque [(* 103 *) Eval [3];
               (* 104 *) Eval [];
               (* 105 *) Eval []; Raise] [];
              (* 106 *) Eval [];
              (* 108 *) Eval [20]; If Opaque [] [Eval [20]]; Eval [20];
              (* 110 *) Eval [5]; If Opaque [Eval [20;5]] []; If Opaque [(* 112 *) Eval [20;5]] [];
              (* 114 *) Eval [20];
              (* 115 *) Eval [];
              (* 116 *) Eval [23];
              (* 117 *) Eval [24];
              (* 119 *) Eval []; If Opaque [(* 120 *) Eval [];
               (* 121 *) Eval []; Raise] [];
              (* 122 *) Eval [24;25]]] [(* 300 *) Eval []; Call [] [] [(* 102 *) Eval [3]; If Opaque [(* 103 *) Eval [3];
               (* 104 *) Eval [];
               (* 105 *) Eval []; Raise] [];
              (* 106 *) Eval [];
              (* 108 *) Eval [20]; If Opaque [] [Eval [20]]; Eval [20];
              (* 110 *) Eval [5]; If Opaque [Eval [20;5]] []; If Opaque [(* 112 *) Eval [20;5]] [];
              (* 114 *) Eval [20];
              (* 115 *) Eval [];
              (* 116 *) Eval [23];
              (* 117 *) Eval [24];
              (* 119 *) Eval []; If Opaque [(* 120 *) Eval [];
               (* 121 *) Eval []; Raise] [];
              (* 122 *) Eval [24;25]]]] [];
           (* 301 *) Eval []; Return]; Return] []] [(* 257 *) Eval [10;12]; Bind [10];
         (* 258 *) Eval [10]]] [(* 260 *) Eval []];
       (* 263 *) Eval [];
       (* 264 *) Eval [];
       (* 265 *) Eval [];
       (* 266 *) Eval [];
       (* 267 *) Eval [];
       (* 268 *) Eval [];
       (* 269 *) Eval [];
       (* 270 *) Eval []; Call [] [] [(* 144 *) Eval [1]; If Opaque [(* 145 *) Eval []; Return] [];
        (* 147 *) Eval [7;1];
        (* 149 *) Eval [4];
        (* 150 *) Eval [0];
        (* 151 *) Eval []; If Opaque [Eval [4]] [];
        (* 152 *) Eval []; If Opaque [Eval [0]] [];
        (* 154 *) Eval [8]; If Opaque [(* 155 *) Eval [];
         (* 158 *) Eval [7;17;18];
         (* 159 *) Eval [15];
         (* 160 *) Eval [16]] [(* 162 *) Eval [15];
         (* 163 *) Eval [16]];
        (* 165 *) Eval [];
        (* 166 *) Eval [];
        (* 167 *) Eval []; If Opaque [(* 168 *) Eval [];
         (* 169 *) Eval [];
         (* 171 *) Eval [];
         (* 172 *) Eval []] [(* 174 *) Eval [];
         (* 175 *) Eval []];
        (* 179 *) Eval [];
        (* 180 *) Eval []; If Opaque [(* 181 *) Eval [7;1];
         (* 182 *) Eval [];
         (* 183 *) Eval [];
         (* 184 *) Eval []] [];
        (* 188 *) Eval [2];
        (* 189 *) Eval [6];
        (* 190 *) Eval []; If Opaque [(* 191 *) Eval [];
         (* 192 *) Eval []] [(* 195 *) Eval [2];
         (* 196 *) Eval [6];
         (* 197 *) Eval []; If Opaque [(* 198 *) Eval [];
          (* 199 *) Eval []] []];
        (* 202 *) Eval []; Return];
       (* 272 *) Eval [19]; If Opaque [(* 273 *) Eval []; Call [] [] [(* 207 *) Eval [1]; If Opaque [(* 208 *) Eval []; Return] [];
         (* 209 *) Eval [7;1;2];
         (* 210 *) Eval []; If Opaque [(* 211 *) Eval []; Return] [];
         (* 212 *) Eval [];
         (* 213 *) Eval [];
         (* 214 *) Eval [];
         (* 215 *) Eval [];
         (* 216 *) Eval []; Return];
        (* 275 *) Eval []; Call [] [] [(* 225 *) Eval [];
         (* 226 *) Eval [];
         (* 230 *) Eval [7;1];
         (* 231 *) Eval [];
         (* 232 *) Eval [];
         (* 233 *) Eval [];
         (* 234 *) Eval [];
         (* 235 *) Eval [];
         (* 236 *) Eval [];
         (* 237 *) Eval []; If Opaque [(* 238 *) Eval []] [(* 242 *) Eval []];
         (* 245 *) Eval []; Return]] [];
       (* 278 *) Eval []; Call [] [] [(* 75 *) Eval [];
        (* 80 *) Eval [9;25;21];
        (* 83 *) Eval []; If Opaque [(* 84 *) Eval []; Return] [];
        (* 86 *) Eval [20]; If Opaque [Eval [20]] [];
        (* 87 *) Eval [17;18];
        (* 91 *) Eval []; If Opaque [(* 92 *) Eval [24;25;21];
         (* 96 *) Eval []; Return] []];
       (* 279 *) Eval []; If Opaque [(* 280 *) Eval [22];
        (* 281 *) Eval []] [];
       (* 283 *) Eval []; Call [] [] [(* 286 *) Eval [2];
        (* 287 *) Eval []; If Opaque [(* 288 *) Eval [8]; If Opaque [(* 289 *) Eval []; If Opaque [(* 290 *) Eval [1]; If Opaque [(* 291 *) Eval [2];
            (* 292 *) Eval [6];
            (* 293 *) Eval [1]] [];
           (* 294 *) Eval [7;1]] [(* 295 *) Eval [1]; If Opaque [(* 296 *) Eval [7;1]] []]] [];
         (* 297 *) Eval []; If Opaque [(* 298 *) Eval []; Call [] [] [(* 102 *) Eval [3]; If Opaque [(* 103 *) Eval [3];
            (* 104 *) Eval [];
            (* 105 *) Eval []; Raise] [];
           (* 106 *) Eval [];
           (* 108 *) Eval [20]; If Opaque [] [Eval [20]]; Eval [20];
           (* 110 *) Eval [5]; If Opaque [Eval [20;5]] []; If Opaque [(* 112 *) Eval [20;5]] [];
           (* 114 *) Eval [20];
           (* 115 *) Eval [];
           (* 116 *) Eval [23];
           (* 117 *) Eval [24];
           (* 119 *) Eval []; If Opaque [(* 120 *) Eval [];
            (* 121 *) Eval []; Raise] [];
           (* 122 *) Eval [24;25]]] [(* 300 *) Eval []; Call [] [] [(* 102 *) Eval [3]; If Opaque [(* 103 *) Eval [3];
            (* 104 *) Eval [];
            (* 105 *) Eval []; Raise] [];
           (* 106 *) Eval [];
           (* 108 *) Eval [20]; If Opaque [] [Eval [20]]; Eval [20];
           (* 110 *) Eval [5]; If Opaque [Eval [20;5]] []; If Opaque [(* 112 *) Eval [20;5]] [];
           (* 114 *) Eval [20];
           (* 115 *) Eval [];
           (* 116 *) Eval [23];
           (* 117 *) Eval [24];
           (* 119 *) Eval []; If Opaque [(* 120 *) Eval [];
            (* 121 *) Eval []; Raise] [];
           (* 122 *) Eval [24;25]]]] [];
        (* 301 *) Eval []; Return]; Return]] [If Opaque [Call [] [] [(* 75 *) Eval [];
        (* 80 *) Eval [9;25;21];
        (* 83 *) Eval []; If Opaque [(* 84 *) Eval []; Return] [];
        (* 86 *) Eval [20]; If Opaque [Eval [20]] [];
        (* 87 *) Eval [17;18];
        (* 91 *) Eval []; If Opaque [(* 92 *) Eval [24;25;21];
         (* 96 *) Eval []; Return] []]] [If Opaque [Call [] [] [(* 102 *) Eval [3]; If Opaque [(* 103 *) Eval [3];
          (* 104 *) Eval [];
          (* 105 *) Eval []; Raise] [];
         (* 106 *) Eval [];
         (* 108 *) Eval [20]; If Opaque [] [Eval [20]]; Eval [20];
         (* 110 *) Eval [5]; If Opaque [Eval [20;5]] []; If Opaque [(* 112 *) Eval [20;5]] [];
         (* 114 *) Eval [20];
         (* 115 *) Eval [];
         (* 116 *) Eval [23];
         (* 117 *) Eval [24];
         (* 119 *) Eval []; If Opaque [(* 120 *) Eval [];
          (* 121 *) Eval []; Raise] [];
         (* 122 *) Eval [24;25]]] [If Opaque [Call [] [] [(* 129 *) Eval [12]; If Opaque [(* 130 *) Eval [12]; Raise] [];
          (* 132 *) Eval []; Bind [1]]] [If Opaque [Call [] [] [(* 144 *) Eval [1]; If Opaque [(* 145 *) Eval []; Return] [];
           (* 147 *) Eval [7;1];
           (* 149 *) Eval [4];
           (* 150 *) Eval [0];
           (* 151 *) Eval []; If Opaque [Eval [4]] [];
           (* 152 *) Eval []; If Opaque [Eval [0]] [];
           (* 154 *) Eval [8]; If Opaque [(* 155 *) Eval [];
            (* 158 *) Eval [7;17;18];
            (* 159 *) Eval [15];
            (* 160 *) Eval [16]] [(* 162 *) Eval [15];
            (* 163 *) Eval [16]];
           (* 165 *) Eval [];
           (* 166 *) Eval [];
           (* 167 *) Eval []; If Opaque [(* 168 *) Eval [];
            (* 169 *) Eval [];
            (* 171 *) Eval [];
            (* 172 *) Eval []] [(* 174 *) Eval [];
            (* 175 *) Eval []];
           (* 179 *) Eval [];
           (* 180 *) Eval []; If Opaque [(* 181 *) Eval [7;1];
            (* 182 *) Eval [];
            (* 183 *) Eval [];
            (* 184 *) Eval []] [];
           (* 188 *) Eval [2];
           (* 189 *) Eval [6];
           (* 190 *) Eval []; If Opaque [(* 191 *) Eval [];
            (* 192 *) Eval []] [(* 195 *) Eval [2];
            (* 196 *) Eval [6];
            (* 197 *) Eval []; If Opaque [(* 198 *) Eval [];
             (* 199 *) Eval []] []];
           (* 202 *) Eval []; Return]] [If Opaque [Call [] [] [(* 207 *) Eval [1]; If Opaque [(* 208 *) Eval []; Return] [];
            (* 209 *) Eval [7;1;2];
            (* 210 *) Eval []; If Opaque [(* 211 *) Eval []; Return] [];
            (* 212 *) Eval [];
            (* 213 *) Eval [];
            (* 214 *) Eval [];
            (* 215 *) Eval [];
            (* 216 *) Eval []; Return]] [If Opaque [Call [] [] [(* 225 *) Eval [];
             (* 226 *) Eval [];
             (* 230 *) Eval [7;1];
             (* 231 *) Eval [];
             (* 232 *) Eval [];
             (* 233 *) Eval [];
             (* 234 *) Eval [];
             (* 235 *) Eval [];
             (* 236 *) Eval [];
             (* 237 *) Eval []; If Opaque [(* 238 *) Eval []] [(* 242 *) Eval []];
             (* 245 *) Eval []; Return]] [If Opaque [Call [] [] [(* 286 *) Eval [2];
              (* 287 *) Eval []; If Opaque [(* 288 *) Eval [8]; If Opaque [(* 289 *) Eval []; If Opaque [(* 290 *) Eval [1]; If Opaque [(* 291 *) Eval [2];
                  (* 292 *) Eval [6];
                  (* 293 *) Eval [1]] [];
                 (* 294 *) Eval [7;1]] [(* 295 *) Eval [1]; If Opaque [(* 296 *) Eval [7;1]] []]] [];
               (* 297 *) Eval []; If Opaque [(* 298 *) Eval []; Call [] [] [(* 102 *) Eval [3]; If Opaque [(* 103 *) Eval [3];
                  (* 104 *) Eval [];
                  (* 105 *) Eval []; Raise] [];
                 (* 106 *) Eval [];
                 (* 108 *) Eval [20]; If Opaque [] [Eval [20]]; Eval [20];
                 (* 110 *) Eval [5]; If Opaque [Eval [20;5]] []; If Opaque [(* 112 *) Eval [20;5]] [];
                 (* 114 *) Eval [20];
                 (* 115 *) Eval [];
                 (* 116 *) Eval [23];
                 (* 117 *) Eval [24];
                 (* 119 *) Eval []; If Opaque [(* 120 *) Eval [];
                  (* 121 *) Eval []; Raise] [];
                 (* 122 *) Eval [24;25]]] [(* 300 *) Eval []; Call [] [] [(* 102 *) Eval [3]; If Opaque [(* 103 *) Eval [3];
                  (* 104 *) Eval [];
                  (* 105 *) Eval []; Raise] [];
                 (* 106 *) Eval [];
                 (* 108 *) Eval [20]; If Opaque [] [Eval [20]]; Eval [20];
                 (* 110 *) Eval [5]; If Opaque [Eval [20;5]] []; If Opaque [(* 112 *) Eval [20;5]] [];
                 (* 114 *) Eval [20];
                 (* 115 *) Eval [];
                 (* 116 *) Eval [23];
                 (* 117 *) Eval [24];
                 (* 119 *) Eval []; If Opaque [(* 120 *) Eval [];
                  (* 121 *) Eval []; Raise] [];
                 (* 122 *) Eval [24;25]]]] [];
              (* 301 *) Eval []; Return]] []]]]]]]]] []]] |}.

(** decoders/combined_unified_decoder.py:32-331. *)
Definition at_CombinedUnifiedDecoder : file := {| f_name := "CombinedUnifiedDecoder";
  f_vars := ["invalid_thr"; "buffer_structures"; "ldpc_decoder"; "model_length"; "valid_threshold"; "window_length"; "bs"
    ; "model"; "mavlink_learning"; "model_bits_idx"; "running_idx"; "classifier_training_size"; "n_clusters"; "cluster"; "classifier"
    ; "valid_factor"; "invalid_factor"; "conf_center"; "conf_slope"; "debug"; "entropy_models_data"; "entropy_threshold"; "clipping_factor"
    ; "bit_flip"; "distributions"; "models_entropy"; "flip"; "decoder_type"];
  f_body :=
   [Call [] [] [(* 45 *) Eval []; Bind [0];
    (* 46 *) Eval []; Bind [1];
    (* 47 *) Eval []; Bind [2];
    (* 48 *) Eval []; Bind [3];
    (* 49 *) Eval []; Bind [4];
    (* 50 *) Eval []; Bind [5];
    (* 51 *) Eval []; Bind [6];
    (* 52 *) Eval []; Bind [7];
    (* 53 *) Eval []; Bind [8];
    (* 54 *) Eval [2]; Bind [9];
    (* 55 *) Eval [9]; If Opaque [(* 56 *) Eval []; Bind [9]] [(* 58 *) Eval [9];
     (* 59 *) Eval [9]; Bind [9]];
    (* 61 *) Eval []; Bind [10];
    (* 62 *) Eval []; Bind [11];
    (* 63 *) Eval []; Bind [12];
    (* 64 *) Eval []; Bind [13];
    (* 65 *) Eval []; Bind [14];
    (* 67 *) Eval []; Bind [15];
    (* 68 *) Eval []; Bind [16];
    (* 70 *) Eval []; Bind [17];
    (* 71 *) Eval []; Bind [18];
    (* 72 *) Eval []; Bind [19];
    (* 74 *) Eval []; Bind [20];
    (* 75 *) Eval []; Bind [21];
    (* 76 *) Eval []; Bind [22];
    (* 77 *) Eval []; Bind [23];
    (* 78 *) Eval []; Bind [24];
    (* 79 *) Eval []; Bind [25];
    (* 81 *) Eval []; Bind [26];
    (* 82 *) Eval []; Call [] [] [(* 22 *) Eval []; Bind [27]]]; Loop [Try [If Opaque [Call [] [] [(* 279 *) Eval [];
       (* 280 *) Eval [];
       (* 281 *) Eval [12]; If Opaque [(* 282 *) Eval [13]; If Opaque [(* 283 *) Eval [14;9];
         (* 284 *) Eval []; If Opaque [(* 285 *) Eval []; Call [] [] [(* 316 *) Eval [2];
           (* 317 *) Eval []; If Opaque [(* 318 *) Eval [8]; If Opaque [(* 319 *) Eval []; If Opaque [(* 320 *) Eval [1]; If Opaque [(* 321 *) Eval [2];
               (* 322 *) Eval [6];
               (* 323 *) Eval [1]] [];
              (* 324 *) Eval [7;1]] [(* 325 *) Eval [1]; If Opaque [(* 326 *) Eval [7;1]] []]] [];
            (* 327 *) Eval []; If Opaque [(* 328 *) Eval [3]; Call [] [] [(* 112 *) Eval [3]; If Opaque [(* 113 *) Eval [3];
               (* 114 *) Eval [];
               (* 115 *) Eval []; Raise] [];
              (* 116 *) Eval [];
              (* 118 *) Eval [20]; If Opaque [] [Eval [20]]; Eval [20];
              (* 120 *) Eval [5]; If Opaque [Eval [20;5]] []; If Opaque [(* 122 *) Eval [20;5]] [];
              (* 124 *) Eval [20];
              (* 125 *) Eval [];
              (* 126 *) Eval [23];
              (* 127 *) Eval [24];
              (* 129 *) Eval []; If Opaque [(* 130 *) Eval [];
               (* 131 *) Eval []; Raise] [];
              (* 132 *) Eval [24;25]]] [(* 330 *) Eval [3]; Call [] [] [(* 112 *) Eval [3]; If Opaque [(* 113 *) Eval [3];
               (* 114 *) Eval [];
               (* 115 *) Eval []; Raise] [];
              (* 116 *) Eval [];
              (* 118 *) Eval [20]; If Opaque [] [Eval [20]]; Eval [20];
              (* 120 *) Eval [5]; If Opaque [Eval [20;5]] []; If Opaque [(* 122 *) Eval [20;5]] [];
              (* 124 *) Eval [20];
              (* 125 *) Eval [];
              (* 126 *) Eval [23];
              (* 127 *) Eval [24];
              (* 129 *) Eval []; If Opaque [(* 130 *) Eval [];
               (* 131 *) Eval []; Raise] [];
              (* 132 *) Eval [24;25]]]] [];
           (* 331 *) Eval []; Return]; Return] []] [(* 287 *) Eval [10;12]; Bind [10];
         (* 288 *) Eval [10]]] [(* 290 *) Eval []];
       (* 293 *) Eval [];
       (* 294 *) Eval [];
       (* 295 *) Eval [];
       (* 296 *) Eval [];
       (* 297 *) Eval [];
       (* 298 *) Eval [];
       (* 299 *) Eval [];
       (* 300 *) Eval []; Call [] [] [(* 154 *) Eval [1]; If Opaque [(* 155 *) Eval []; Return] [];
        (* 157 *) Eval [7;1];
        (* 159 *) Eval [4];
        (* 160 *) Eval [0];
        (* 161 *) Eval []; If Opaque [Eval [4]] [];
        (* 162 *) Eval []; If Opaque [Eval [0]] [];
        (* 164 *) Eval [8]; If Opaque [(* 165 *) Eval [];
         (* 168 *) Eval [7;17;18];
         (* 169 *) Eval [15];
         (* 170 *) Eval [16]] [(* 172 *) Eval [];
         (* 173 *) Eval [15];
         (* 174 *) Eval [16]];
        (* 176 *) Eval [];
        (* 177 *) Eval [];
        (* 178 *) Eval []; If Opaque [(* 179 *) Eval [];
         (* 180 *) Eval [];
         (* 182 *) Eval [];
         (* 183 *) Eval []] [(* 185 *) Eval [20]; If Opaque [Eval [20]] [];
         (* 186 *) Eval [17]; If Opaque [(* 188 *) Eval [3;25;21];
          (* 189 *) Eval [];
          (* 192 *) Eval [3;25;21];
          (* 195 *) Eval [24];
          (* 196 *) Eval [3];
          (* 198 *) Eval [26];
          (* 199 *) Eval []] []];
        (* 206 *) Eval [8]; If Opaque [(* 207 *) Eval []] [(* 209 *) Eval []];
        (* 210 *) Eval []; If Opaque [(* 211 *) Eval [7;1];
         (* 212 *) Eval [];
         (* 213 *) Eval [];
         (* 214 *) Eval []] [];
        (* 218 *) Eval [2];
        (* 219 *) Eval [6];
        (* 220 *) Eval []; If Opaque [(* 221 *) Eval [];
         (* 222 *) Eval []] [(* 225 *) Eval [2];
         (* 226 *) Eval [6];
         (* 227 *) Eval []; If Opaque [(* 228 *) Eval [];
          (* 229 *) Eval []] []];
        (* 232 *) Eval []; Return];
       (* 302 *) Eval [19]; If Opaque [(* 303 *) Eval []; Call [] [] [(* 237 *) Eval [1]; If Opaque [(* 238 *) Eval []; Return] [];
         (* 239 *) Eval [7;1;2];
         (* 240 *) Eval []; If Opaque [(* 241 *) Eval []; Return] [];
         (* 242 *) Eval [];
         (* 243 *) Eval [];
         (* 244 *) Eval [];
         (* 245 *) Eval [];
         (* 246 *) Eval []; Return];
        (* 305 *) Eval []; Call [] [] [(* 255 *) Eval [];
         (* 256 *) Eval [];
         (* 260 *) Eval [7;1];
         (* 261 *) Eval [];
         (* 262 *) Eval [];
         (* 263 *) Eval [];
         (* 264 *) Eval [];
         (* 265 *) Eval [];
         (* 266 *) Eval [];
         (* 267 *) Eval []; If Opaque [(* 268 *) Eval []] [(* 272 *) Eval []];
         (* 275 *) Eval []; Return]] [];
       (* 308 *) Eval []; Call [] [] [(* 85 *) Eval [];
        (* 90 *) Eval [9;25;21];
        (* 93 *) Eval []; If Opaque [(* 94 *) Eval []; Return] [];
        (* 96 *) Eval [20]; If Opaque [Eval [20]] [];
        (* 97 *) Eval [17;18];
        (* 101 *) Eval []; If Opaque [(* 102 *) Eval [24;25;21];
         (* 106 *) Eval []; Return] []];
       (* 309 *) Eval []; If Opaque [(* 310 *) Eval [22];
        (* 311 *) Eval []] [];
       (* 313 *) Eval []; Call [] [] [(* 316 *) Eval [2];
        (* 317 *) Eval []; If Opaque [(* 318 *) Eval [8]; If Opaque [(* 319 *) Eval []; If Opaque [(* 320 *) Eval [1]; If Opaque [(* 321 *) Eval [2];
            (* 322 *) Eval [6];
            (* 323 *) Eval [1]] [];
           (* 324 *) Eval [7;1]] [(* 325 *) Eval [1]; If Opaque [(* 326 *) Eval [7;1]] []]] [];
         (* 327 *) Eval []; If Opaque [(* 328 *) Eval [3]; Call [] [] [(* 112 *) Eval [3]; If Opaque [(* 113 *) Eval [3];
            (* 114 *) Eval [];
            (* 115 *) Eval []; Raise] [];
           (* 116 *) Eval [];
           (* 118 *) Eval [20]; If Opaque [] [Eval [20]]; Eval [20];
           (* 120 *) Eval [5]; If Opaque [Eval [20;5]] []; If Opaque [(* 122 *) Eval [20;5]] [];
           (* 124 *) Eval [20];
           (* 125 *) Eval [];
           (* 126 *) Eval [23];
           (* 127 *) Eval [24];
           (* 129 *) Eval []; If Opaque [(* 130 *) Eval [];
            (* 131 *) Eval []; Raise] [];
           (* 132 *) Eval [24;25]]] [(* 330 *) Eval [3]; Call [] [] [(* 112 *) Eval [3]; If Opaque [(* 113 *) Eval [3];
            (* 114 *) Eval [];
            (* 115 *) Eval []; Raise] [];
           (* 116 *) Eval [];
           (* 118 *) Eval [20]; If Opaque [] [Eval [20]]; Eval [20];
           (* 120 *) Eval [5]; If Opaque [Eval [20;5]] []; If Opaque [(* 122 *) Eval [20;5]] [];
           (* 124 *) Eval [20];
           (* 125 *) Eval [];
           (* 126 *) Eval [23];
           (* 127 *) Eval [24];
           (* 129 *) Eval []; If Opaque [(* 130 *) Eval [];
            (* 131 *) Eval []; Raise] [];
           (* 132 *) Eval [24;25]]]] [];
        (* 331 *) Eval []; Return]; Return]] [If Opaque [Call [] [] [(* 85 *) Eval [];
        (* 90 *) Eval [9;25;21];
        (* 93 *) Eval []; If Opaque [(* 94 *) Eval []; Return] [];
        (* 96 *) Eval [20]; If Opaque [Eval [20]] [];
        (* 97 *) Eval [17;18];
        (* 101 *) Eval []; If Opaque [(* 102 *) Eval [24;25;21];
         (* 106 *) Eval []; Return] []]] [If Opaque [Call [] [] [(* 112 *) Eval [3]; If Opaque [(* 113 *) Eval [3];
          (* 114 *) Eval [];
          (* 115 *) Eval []; Raise] [];
         (* 116 *) Eval [];
         (* 118 *) Eval [20]; If Opaque [] [Eval [20]]; Eval [20];
         (* 120 *) Eval [5]; If Opaque [Eval [20;5]] []; If Opaque [(* 122 *) Eval [20;5]] [];
         (* 124 *) Eval [20];
         (* 125 *) Eval [];
         (* 126 *) Eval [23];
         (* 127 *) Eval [24];
         (* 129 *) Eval []; If Opaque [(* 130 *) Eval [];
          (* 131 *) Eval []; Raise] [];
         (* 132 *) Eval [24;25]]] [If Opaque [Call [] [] [(* 139 *) Eval [12]; If Opaque [(* 140 *) Eval [12]; Raise] [];
          (* 142 *) Eval []; Bind [1]]] [If Opaque [Call [] [] [(* 154 *) Eval [1]; If Opaque [(* 155 *) Eval []; Return] [];
           (* 157 *) Eval [7;1];
           (* 159 *) Eval [4];
           (* 160 *) Eval [0];
           (* 161 *) Eval []; If Opaque [Eval [4]] [];
           (* 162 *) Eval []; If Opaque [Eval [0]] [];
           (* 164 *) Eval [8]; If Opaque [(* 165 *) Eval [];
            (* 168 *) Eval [7;17;18];
            (* 169 *) Eval [15];
            (* 170 *) Eval [16]] [(* 172 *) Eval [];
            (* 173 *) Eval [15];
            (* 174 *) Eval [16]];
           (* 176 *) Eval [];
           (* 177 *) Eval [];
           (* 178 *) Eval []; If Opaque [(* 179 *) Eval [];
            (* 180 *) Eval [];
            (* 182 *) Eval [];
            (* 183 *) Eval []] [(* 185 *) Eval [20]; If Opaque [Eval [20]] [];
            (* 186 *) Eval [17]; If Opaque [(* 188 *) Eval [3;25;21];
             (* 189 *) Eval [];
             (* 192 *) Eval [3;25;21];
             (* 195 *) Eval [24];
             (* 196 *) Eval [3];
             (* 198 *) Eval [26];
             (* 199 *) Eval []] []];
           (* 206 *) Eval [8]; If Opaque [(* 207 *) Eval []] [(* 209 *) Eval []];
           (* 210 *) Eval []; If Opaque [(* 211 *) Eval [7;1];
            (* 212 *) Eval [];
            (* 213 *) Eval [];
            (* 214 *) Eval []] [];
           (* 218 *) Eval [2];
           (* 219 *) Eval [6];
           (* 220 *) Eval []; If Opaque [(* 221 *) Eval [];
            (* 222 *) Eval []] [(* 225 *) Eval [2];
            (* 226 *) Eval [6];
            (* 227 *) Eval []; If Opaque [(* 228 *) Eval [];
             (* 229 *) Eval []] []];
           (* 232 *) Eval []; Return]] [If Opaque [Call [] [] [(* 237 *) Eval [1]; If Opaque [(* 238 *) Eval []; Return] [];
            (* 239 *) Eval [7;1;2];
            (* 240 *) Eval []; If Opaque [(* 241 *) Eval []; Return] [];
            (* 242 *) Eval [];
            (* 243 *) Eval [];
            (* 244 *) Eval [];
            (* 245 *) Eval [];
            (* 246 *) Eval []; Return]] [If Opaque [Call [] [] [(* 255 *) Eval [];
             (* 256 *) Eval [];
             (* 260 *) Eval [7;1];
             (* 261 *) Eval [];
             (* 262 *) Eval [];
             (* 263 *) Eval [];
             (* 264 *) Eval [];
             (* 265 *) Eval [];
             (* 266 *) Eval [];
             (* 267 *) Eval []; If Opaque [(* 268 *) Eval []] [(* 272 *) Eval []];
             (* 275 *) Eval []; Return]] [If Opaque [Call [] [] [(* 316 *) Eval [2];
              (* 317 *) Eval []; If Opaque [(* 318 *) Eval [8]; If Opaque [(* 319 *) Eval []; If Opaque [(* 320 *) Eval [1]; If Opaque [(* 321 *) Eval [2];
                  (* 322 *) Eval [6];
                  (* 323 *) Eval [1]] [];
                 (* 324 *) Eval [7;1]] [(* 325 *) Eval [1]; If Opaque [(* 326 *) Eval [7;1]] []]] [];
               (* 327 *) Eval []; If Opaque [(* 328 *) Eval [3]; Call [] [] [(* 112 *) Eval [3]; If Opaque [(* 113 *) Eval [3];
                  (* 114 *) Eval [];
                  (* 115 *) Eval []; Raise] [];
                 (* 116 *) Eval [];
                 (* 118 *) Eval [20]; If Opaque [] [Eval [20]]; Eval [20];
                 (* 120 *) Eval [5]; If Opaque [Eval [20;5]] []; If Opaque [(* 122 *) Eval [20;5]] [];
                 (* 124 *) Eval [20];
                 (* 125 *) Eval [];
                 (* 126 *) Eval [23];
                 (* 127 *) Eval [24];
                 (* 129 *) Eval []; If Opaque [(* 130 *) Eval [];
                  (* 131 *) Eval []; Raise] [];
                 (* 132 *) Eval [24;25]]] [(* 330 *) Eval [3]; Call [] [] [(* 112 *) Eval [3]; If Opaque [(* 113 *) Eval [3];
                  (* 114 *) Eval [];
                  (* 115 *) Eval []; Raise] [];
                 (* 116 *) Eval [];
                 (* 118 *) Eval [20]; If Opaque [] [Eval [20]]; Eval [20];
                 (* 120 *) Eval [5]; If Opaque [Eval [20;5]] []; If Opaque [(* 122 *) Eval [20;5]] [];
                 (* 124 *) Eval [20];
                 (* 125 *) Eval [];
                 (* 126 *) Eval [23];
                 (* 127 *) Eval [24];
                 (* 129 *) Eval []; If Opaque [(* 130 *) Eval [];
                  (* 131 *) Eval []; Raise] [];
                 (* 132 *) Eval [24;25]]]] [];
              (* 331 *) Eval []; Return]] []]]]]]]]] []]] |}.

(** decoders/decoder.py:18-35. *)
Definition at_Decoder : file := {| f_name := "Decoder";
  f_vars := ["decoder_type"];
  f_body :=
   [Call [] [] [(* 22 *) Eval []; Bind [0]]; Loop [Try [If Opaque [Call [] [] []] []] []]] |}.

(** decoders/entropy_bitwise_decoder.py:13-122. *)
Definition at_EntropyBitwiseDecoder : file := {| f_name := "EntropyBitwiseDecoder";
  f_vars := ["segmentor"; "ldpc_decoder"; "model_length"; "entropy_threshold"; "model_bits_idx"; "clipping_factor"; "window_length"
    ; "distribution"; "entropy"; "predefined_model"; "model_data"; "structural_elements"; "min_data"; "decoder_type"];
  f_body :=
   [Call [] [] [(* 34 *) Eval []; Bind [0];
    (* 35 *) Eval []; Bind [1];
    (* 36 *) Eval []; Bind [2];
    (* 37 *) Eval []; Bind [3];
    (* 38 *) Eval [1]; Bind [4];
    (* 39 *) Eval [4];
    (* 40 *) Eval [4]; Bind [4];
    (* 41 *) Eval []; Bind [5];
    (* 42 *) Eval []; Bind [6];
    (* 43 *) Eval []; If Opaque [(* 44 *) Eval [4]; Bind [2];
     (* 45 *) Eval [2]; Bind [7];
     (* 46 *) Eval [7]; Bind [8];
     (* 47 *) Eval []; Bind [9]] [(* 49 *) Eval []; Bind [7];
     (* 50 *) Eval []; Bind [8];
     (* 51 *) Eval []; Bind [9]];
    (* 52 *) Eval []; Bind [10];
    (* 53 *) Eval []; Bind [11];
    (* 54 *) Eval []; Bind [12];
    (* 55 *) Eval []; Call [] [] [(* 22 *) Eval []; Bind [13]]]; Loop [Try [If Opaque [Call [] [] [(* 68 *) Eval [1];
       (* 69 *) Eval []; If Opaque [(* 70 *) Eval [4];
        (* 71 *) Eval [];
        (* 72 *) Eval [0];
        (* 73 *) Eval []; If Opaque [(* 74 *) Eval []; Call [] [] [(* 91 *) Eval [9]; If Opaque [(* 92 *) Eval []; Return] [];
          (* 93 *) Eval [2]; If Opaque [(* 94 *) Eval []; Raise] [];
          (* 95 *) Eval [];
          (* 96 *) Eval [10]; If Opaque [] [Eval [10]]; Bind [10];
          (* 97 *) Eval [6]; If Opaque [Eval [10;6]] []; If Opaque [(* 99 *) Eval [10;6]; Bind [10]] [];
          (* 100 *) Eval [10]; Bind [7];
          (* 101 *) Eval [7]; Bind [8]]] [];
        (* 75 *) Eval []; Return] [];
       (* 78 *) Eval []; Call [] [] [(* 111 *) Eval [4;8;3]; Bind [11];
        (* 113 *) Eval [];
        (* 114 *) Eval [9]; If Opaque [Eval [10]; If Opaque [Eval [10;12]] []] []; If Opaque [(* 116 *) Eval [5];
         (* 117 *) Eval [11;7;8;3]] [];
        (* 122 *) Eval []; Return];
       (* 79 *) Eval [1];
       (* 80 *) Eval [4];
       (* 81 *) Eval [];
       (* 82 *) Eval [0];
       (* 83 *) Eval []; If Opaque [(* 84 *) Eval []; Call [] [] [(* 91 *) Eval [9]; If Opaque [(* 92 *) Eval []; Return] [];
         (* 93 *) Eval [2]; If Opaque [(* 94 *) Eval []; Raise] [];
         (* 95 *) Eval [];
         (* 96 *) Eval [10]; If Opaque [] [Eval [10]]; Bind [10];
         (* 97 *) Eval [6]; If Opaque [Eval [10;6]] []; If Opaque [(* 99 *) Eval [10;6]; Bind [10]] [];
         (* 100 *) Eval [10]; Bind [7];
         (* 101 *) Eval [7]; Bind [8]]] [];
       (* 85 *) Eval []; Return]] [If Opaque [Call [] [] [(* 91 *) Eval [9]; If Opaque [(* 92 *) Eval []; Return] [];
        (* 93 *) Eval [2]; If Opaque [(* 94 *) Eval []; Raise] [];
        (* 95 *) Eval [];
        (* 96 *) Eval [10]; If Opaque [] [Eval [10]]; Bind [10];
        (* 97 *) Eval [6]; If Opaque [Eval [10;6]] []; If Opaque [(* 99 *) Eval [10;6]; Bind [10]] [];
        (* 100 *) Eval [10]; Bind [7];
        (* 101 *) Eval [7]; Bind [8]]] [If Opaque [Call [] [] [(* 111 *) Eval [4;8;3]; Bind [11];
         (* 113 *) Eval [];
         (* 114 *) Eval [9]; If Opaque [Eval [10]; If Opaque [Eval [10;12]] []] []; If Opaque [(* 116 *) Eval [5];
          (* 117 *) Eval [11;7;8;3]] [];
         (* 122 *) Eval []; Return]] []]]] []]] |}.

(** decoders/entropy_bitwise_decoder.py:125-228. *)
Definition at_EntropyBitwiseFlippingDecoder : file := {| f_name := "EntropyBitwiseFlippingDecoder";
  f_vars := ["segmentor"; "ldpc_decoder"; "model_length"; "entropy_threshold"; "model_bits_idx"; "window_length"; "distribution"
    ; "entropy"; "predefined_model"; "model_data"; "structural_elements"; "structural_values"; "min_data"; "decoder_type"
    ];
  f_body :=
   [Call [] [] [(* 144 *) Eval []; Bind [0];
    (* 145 *) Eval []; Bind [1];
    (* 146 *) Eval []; Bind [2];
    (* 147 *) Eval []; Bind [3];
    (* 148 *) Eval [1]; Bind [4];
    (* 149 *) Eval [4];
    (* 150 *) Eval [4]; Bind [4];
    (* 151 *) Eval []; Bind [5];
    (* 152 *) Eval []; If Opaque [(* 153 *) Eval [4]; Bind [2];
     (* 154 *) Eval [2]; Bind [6];
     (* 155 *) Eval [6]; Bind [7];
     (* 156 *) Eval []; Bind [8]] [(* 158 *) Eval []; Bind [6];
     (* 159 *) Eval []; Bind [7];
     (* 160 *) Eval []; Bind [8]];
    (* 161 *) Eval []; Bind [9];
    (* 162 *) Eval []; Bind [10];
    (* 163 *) Eval []; Bind [11];
    (* 164 *) Eval []; Bind [12];
    (* 165 *) Eval []; Call [] [] [(* 22 *) Eval []; Bind [13]]]; Loop [Try [If Opaque [Call [] [] [(* 178 *) Eval [1];
       (* 179 *) Eval []; If Opaque [(* 180 *) Eval [4];
        (* 181 *) Eval [];
        (* 182 *) Eval [0];
        (* 183 *) Eval []; If Opaque [(* 184 *) Eval []; Call [] [] [(* 201 *) Eval [8]; If Opaque [(* 202 *) Eval []; Return] [];
          (* 203 *) Eval [2]; If Opaque [(* 204 *) Eval []; Raise] [];
          (* 205 *) Eval [];
          (* 206 *) Eval [9]; If Opaque [] [Eval [9]]; Bind [9];
          (* 207 *) Eval [5]; If Opaque [Eval [9;5]] []; If Opaque [(* 209 *) Eval [9;5]; Bind [9]] [];
          (* 210 *) Eval [9]; Bind [6];
          (* 211 *) Eval [6]; Bind [7]]] [];
        (* 185 *) Eval []; Return] [];
       (* 188 *) Eval []; Call [] [] [(* 219 *) Eval [8]; If Opaque [Eval [9]; If Opaque [Eval [9;12]] []] []; If Opaque [(* 220 *) Eval []; Return] [];
        (* 223 *) Eval [4;7;3]; Bind [10];
        (* 225 *) Eval [6;10]; Bind [11];
        (* 226 *) Eval [];
        (* 227 *) Eval [11;10];
        (* 228 *) Eval []; Return];
       (* 189 *) Eval [1];
       (* 190 *) Eval [4];
       (* 191 *) Eval [];
       (* 192 *) Eval [0];
       (* 193 *) Eval []; If Opaque [(* 194 *) Eval []; Call [] [] [(* 201 *) Eval [8]; If Opaque [(* 202 *) Eval []; Return] [];
         (* 203 *) Eval [2]; If Opaque [(* 204 *) Eval []; Raise] [];
         (* 205 *) Eval [];
         (* 206 *) Eval [9]; If Opaque [] [Eval [9]]; Bind [9];
         (* 207 *) Eval [5]; If Opaque [Eval [9;5]] []; If Opaque [(* 209 *) Eval [9;5]; Bind [9]] [];
         (* 210 *) Eval [9]; Bind [6];
         (* 211 *) Eval [6]; Bind [7]]] [];
       (* 195 *) Eval []; Return]] [If Opaque [Call [] [] [(* 201 *) Eval [8]; If Opaque [(* 202 *) Eval []; Return] [];
        (* 203 *) Eval [2]; If Opaque [(* 204 *) Eval []; Raise] [];
        (* 205 *) Eval [];
        (* 206 *) Eval [9]; If Opaque [] [Eval [9]]; Bind [9];
        (* 207 *) Eval [5]; If Opaque [Eval [9;5]] []; If Opaque [(* 209 *) Eval [9;5]; Bind [9]] [];
        (* 210 *) Eval [9]; Bind [6];
        (* 211 *) Eval [6]; Bind [7]]] [If Opaque [Call [] [] [(* 219 *) Eval [8]; If Opaque [Eval [9]; If Opaque [Eval [9;12]] []] []; If Opaque [(* 220 *) Eval []; Return] [];
         (* 223 *) Eval [4;7;3]; Bind [10];
         (* 225 *) Eval [6;10]; Bind [11];
         (* 226 *) Eval [];
         (* 227 *) Eval [11;10];
         (* 228 *) Eval []; Return]] []]]] []]] |}.

(** decoders/entropy_bitwise_decoder.py:231-505. *)
Definition at_EntropyBitwiseWeightedDecoder : file := {| f_name := "EntropyBitwiseWeightedDecoder";
  f_vars := ["segmentor"; "ldpc_decoder"; "model_length"; "entropy_threshold"; "model_bits_idx"; "clipping_factor"; "a_distribution"
    ; "a_entropy"; "b_distribution"; "b_entropy"; "a_conf_center"; "a_conf_slope"; "b_conf_center"; "b_conf_slope"; "confidence_scheme"
    ; "estimator"; "bit_flip"; "corrected_dist"; "a_ones_prior"; "a_zeros_prior"; "b_ones_prior"; "b_zeros_prior"; "a_normalized_variance"
    ; "b_normalized_variance"; "min_size"; "max_size"; "window_length"; "model_a_data"; "model_b_data"; "decoder_type"];
  f_body :=
   [Call [] [] [(* 254 *) Eval []; Bind [0];
    (* 255 *) Eval []; Bind [1];
    (* 256 *) Eval []; Bind [2];
    (* 257 *) Eval []; Bind [3];
    (* 258 *) Eval [1]; Bind [4];
    (* 259 *) Eval [4];
    (* 260 *) Eval [4]; Bind [4];
    (* 261 *) Eval []; Bind [5];
    (* 263 *) Eval []; Bind [6];
    (* 264 *) Eval []; Bind [7];
    (* 265 *) Eval []; Bind [8];
    (* 266 *) Eval []; Bind [9];
    (* 267 *) Eval []; Bind [10];
    (* 268 *) Eval []; Bind [11];
    (* 269 *) Eval []; Bind [12];
    (* 270 *) Eval []; Bind [13];
    (* 271 *) Eval []; Bind [14];
    (* 272 *) Eval []; Bind [15];
    (* 273 *) Eval []; Bind [16];
    (* 274 *) Eval []; Bind [17];
    (* 275 *) Eval []; If (Is "estimator" (VStr "Bayes")) [(* 276 *) Eval [4]; Bind [18];
     (* 277 *) Eval [4]; Bind [19];
     (* 278 *) Eval [4]; Bind [20];
     (* 279 *) Eval [4]; Bind [21];
     (* 280 *) Eval []; Bind [22];
     (* 281 *) Eval []; Bind [23];
     (* 282 *) Eval []; Bind [24];
     (* 283 *) Eval []; Bind [25]] [(* 285 *) Eval []; Bind [26];
     (* 286 *) Eval []; Bind [27];
     (* 287 *) Eval []; Bind [28]];
    (* 288 *) Eval []; Call [] [] [(* 22 *) Eval []; Bind [29]]]; Loop [Try [If Opaque [Call [] [] [(* 309 *) Eval [1];
       (* 310 *) Eval []; If Opaque [(* 311 *) Eval [4];
        (* 312 *) Eval [];
        (* 313 *) Eval [0];
        (* 314 *) Eval []; If Opaque [(* 315 *) Eval []; Call [] [] [(* 343 *) Eval [2]; If Opaque [(* 344 *) Eval []; Raise] [];
          (* 345 *) Eval [];
          (* 347 *) Eval [15]; If (Is "estimator" (VStr "Bayes")) [(* 348 *) Eval [18]; Bind [18];
           (* 349 *) Eval [19]; Bind [19];
           (* 351 *) Eval [18;19;25]; If Opaque [(* 352 *) Eval [18;19];
            (* 353 *) Eval [18]; Bind [18];
            (* 354 *) Eval [19]; Bind [19];
            (* 355 *) Eval [18;19;24]; If Opaque [(* 356 *) Eval [24;18;19];
             (* 357 *) Eval [18]; Bind [18];
             (* 358 *) Eval [19]; Bind [19]] []] [];
           (* 361 *) Eval [18;19];
           (* 362 *) Eval [16];
           (* 364 *) Eval [16;18;19];
           (* 368 *) Eval []; Bind [22];
           (* 369 *) Eval []; Bind [6]] [(* 371 *) Eval [27]; If Opaque [] [Eval [27]]; Bind [27];
           (* 372 *) Eval [26]; If Opaque [Eval [27;26]] []; If Opaque [(* 374 *) Eval [27;26]; Bind [27]] [];
           (* 375 *) Eval [27]; Bind [6];
           (* 376 *) Eval [17]; If Opaque [(* 377 *) Eval [6];
            (* 378 *) Eval [16];
            (* 379 *) Eval []; Bind [6]] [(* 381 *) Eval [6]];
           (* 385 *) Eval []; Bind [22]];
          (* 386 *) Eval []; If Opaque [(* 387 *) Eval [];
           (* 388 *) Eval []; Raise] [];
          (* 389 *) Eval [6]; Bind [7]]] [];
        (* 316 *) Eval []; Call [] [] [(* 395 *) Eval [2]; If Opaque [(* 396 *) Eval []; Raise] [];
         (* 397 *) Eval [];
         (* 399 *) Eval [15]; If (Is "estimator" (VStr "Bayes")) [(* 400 *) Eval [20]; Bind [20];
          (* 401 *) Eval [21]; Bind [21];
          (* 403 *) Eval [20;21;25]; If Opaque [(* 404 *) Eval [20;21];
           (* 405 *) Eval [20]; Bind [20];
           (* 406 *) Eval [21]; Bind [21];
           (* 407 *) Eval [20;21;24]; If Opaque [(* 408 *) Eval [24;20;21];
            (* 409 *) Eval [20]; Bind [20];
            (* 410 *) Eval [21]; Bind [21]] []] [];
          (* 412 *) Eval [20;21];
          (* 414 *) Eval [16];
          (* 416 *) Eval [16;20;21];
          (* 420 *) Eval []; Bind [23];
          (* 421 *) Eval []; Bind [8]] [(* 423 *) Eval [28]; If Opaque [] [Eval [28]]; Bind [28];
          (* 424 *) Eval [26]; If Opaque [Eval [28;26]] []; If Opaque [(* 426 *) Eval [28;26]; Bind [28]] [];
          (* 427 *) Eval [28]; Bind [8];
          (* 428 *) Eval [17]; If Opaque [(* 429 *) Eval [8];
           (* 430 *) Eval [16];
           (* 431 *) Eval []; Bind [8]] [(* 433 *) Eval [8]];
          (* 437 *) Eval []; Bind [23]];
         (* 438 *) Eval []; If Opaque [(* 439 *) Eval [];
          (* 440 *) Eval []; Raise] [];
         (* 441 *) Eval [8]; Bind [9]];
        (* 318 *) Eval [6;8;4;7;3;9]; Return] [];
       (* 324 *) Eval []; Call [] [] [(* 450 *) Eval [];
        (* 453 *) Eval [];
        (* 456 *) Eval [4;7;3];
        (* 457 *) Eval [4;9;3];
        (* 459 *) Eval []; If Opaque [(* 460 *) Eval []; Return] [];
        (* 462 *) Eval [15]; If (Is "estimator" (VStr "Bayes")) [(* 463 *) Eval [18;19];
         (* 464 *) Eval [20;21]] [(* 466 *) Eval [27]; If Opaque [Eval [27]] [];
         (* 467 *) Eval [28]; If Opaque [Eval [28]] []];
        (* 469 *) Eval [10;11];
        (* 470 *) Eval [12;13];
        (* 473 *) Eval [14]; If (Is "confidence" (VInt 0)) [] [(* 475 *) Eval [14]; If (Is "confidence" (VInt 1)) [(* 476 *) Eval [];
          (* 477 *) Eval []; If Opaque [(* 478 *) Eval [];
           (* 479 *) Eval []] []] [(* 480 *) Eval [14]; If (Is "confidence" (VInt 1)) [(* 481 *) Eval [];
           (* 482 *) Eval []; If Opaque [(* 483 *) Eval [];
            (* 484 *) Eval []] []] [(* 485 *) Eval [14]; If (Is "confidence" (VInt 3)) [(* 486 *) Eval []] [(* 487 *) Eval [14]; If (Is "confidence" (VInt 4)) [(* 488 *) Eval [22];
             (* 489 *) Eval [23]] [(* 490 *) Eval [14]; If (Is "confidence" (VInt 5)) [(* 491 *) Eval []] []]]]]];
        (* 493 *) Eval [5];
        (* 496 *) Eval []; If Opaque [(* 497 *) Eval [6;7;3]] [];
        (* 500 *) Eval []; If Opaque [(* 501 *) Eval [8;9;3]] [];
        (* 505 *) Eval []; Return];
       (* 325 *) Eval [1];
       (* 326 *) Eval [4];
       (* 327 *) Eval [];
       (* 328 *) Eval [0];
       (* 329 *) Eval []; If Opaque [(* 330 *) Eval []; Call [] [] [(* 343 *) Eval [2]; If Opaque [(* 344 *) Eval []; Raise] [];
         (* 345 *) Eval [];
         (* 347 *) Eval [15]; If (Is "estimator" (VStr "Bayes")) [(* 348 *) Eval [18]; Bind [18];
          (* 349 *) Eval [19]; Bind [19];
          (* 351 *) Eval [18;19;25]; If Opaque [(* 352 *) Eval [18;19];
           (* 353 *) Eval [18]; Bind [18];
           (* 354 *) Eval [19]; Bind [19];
           (* 355 *) Eval [18;19;24]; If Opaque [(* 356 *) Eval [24;18;19];
            (* 357 *) Eval [18]; Bind [18];
            (* 358 *) Eval [19]; Bind [19]] []] [];
          (* 361 *) Eval [18;19];
          (* 362 *) Eval [16];
          (* 364 *) Eval [16;18;19];
          (* 368 *) Eval []; Bind [22];
          (* 369 *) Eval []; Bind [6]] [(* 371 *) Eval [27]; If Opaque [] [Eval [27]]; Bind [27];
          (* 372 *) Eval [26]; If Opaque [Eval [27;26]] []; If Opaque [(* 374 *) Eval [27;26]; Bind [27]] [];
          (* 375 *) Eval [27]; Bind [6];
          (* 376 *) Eval [17]; If Opaque [(* 377 *) Eval [6];
           (* 378 *) Eval [16];
           (* 379 *) Eval []; Bind [6]] [(* 381 *) Eval [6]];
          (* 385 *) Eval []; Bind [22]];
         (* 386 *) Eval []; If Opaque [(* 387 *) Eval [];
          (* 388 *) Eval []; Raise] [];
         (* 389 *) Eval [6]; Bind [7]];
        (* 331 *) Eval []; Call [] [] [(* 395 *) Eval [2]; If Opaque [(* 396 *) Eval []; Raise] [];
         (* 397 *) Eval [];
         (* 399 *) Eval [15]; If (Is "estimator" (VStr "Bayes")) [(* 400 *) Eval [20]; Bind [20];
          (* 401 *) Eval [21]; Bind [21];
          (* 403 *) Eval [20;21;25]; If Opaque [(* 404 *) Eval [20;21];
           (* 405 *) Eval [20]; Bind [20];
           (* 406 *) Eval [21]; Bind [21];
           (* 407 *) Eval [20;21;24]; If Opaque [(* 408 *) Eval [24;20;21];
            (* 409 *) Eval [20]; Bind [20];
            (* 410 *) Eval [21]; Bind [21]] []] [];
          (* 412 *) Eval [20;21];
          (* 414 *) Eval [16];
          (* 416 *) Eval [16;20;21];
          (* 420 *) Eval []; Bind [23];
          (* 421 *) Eval []; Bind [8]] [(* 423 *) Eval [28]; If Opaque [] [Eval [28]]; Bind [28];
          (* 424 *) Eval [26]; If Opaque [Eval [28;26]] []; If Opaque [(* 426 *) Eval [28;26]; Bind [28]] [];
          (* 427 *) Eval [28]; Bind [8];
          (* 428 *) Eval [17]; If Opaque [(* 429 *) Eval [8];
           (* 430 *) Eval [16];
           (* 431 *) Eval []; Bind [8]] [(* 433 *) Eval [8]];
          (* 437 *) Eval []; Bind [23]];
         (* 438 *) Eval []; If Opaque [(* 439 *) Eval [];
          (* 440 *) Eval []; Raise] [];
         (* 441 *) Eval [8]; Bind [9]]] [(* 333 *) Eval [4];
        (* 334 *) Eval []; Call [] [] [(* 395 *) Eval [2]; If Opaque [(* 396 *) Eval []; Raise] [];
         (* 397 *) Eval [];
         (* 399 *) Eval [15]; If (Is "estimator" (VStr "Bayes")) [(* 400 *) Eval [20]; Bind [20];
          (* 401 *) Eval [21]; Bind [21];
          (* 403 *) Eval [20;21;25]; If Opaque [(* 404 *) Eval [20;21];
           (* 405 *) Eval [20]; Bind [20];
           (* 406 *) Eval [21]; Bind [21];
           (* 407 *) Eval [20;21;24]; If Opaque [(* 408 *) Eval [24;20;21];
            (* 409 *) Eval [20]; Bind [20];
            (* 410 *) Eval [21]; Bind [21]] []] [];
          (* 412 *) Eval [20;21];
          (* 414 *) Eval [16];
          (* 416 *) Eval [16;20;21];
          (* 420 *) Eval []; Bind [23];
          (* 421 *) Eval []; Bind [8]] [(* 423 *) Eval [28]; If Opaque [] [Eval [28]]; Bind [28];
          (* 424 *) Eval [26]; If Opaque [Eval [28;26]] []; If Opaque [(* 426 *) Eval [28;26]; Bind [28]] [];
          (* 427 *) Eval [28]; Bind [8];
          (* 428 *) Eval [17]; If Opaque [(* 429 *) Eval [8];
           (* 430 *) Eval [16];
           (* 431 *) Eval []; Bind [8]] [(* 433 *) Eval [8]];
          (* 437 *) Eval []; Bind [23]];
         (* 438 *) Eval []; If Opaque [(* 439 *) Eval [];
          (* 440 *) Eval []; Raise] [];
         (* 441 *) Eval [8]; Bind [9]]];
       (* 335 *) Eval [6;8;4;7;3;9]; Return]] [If Opaque [Call [] [] [(* 343 *) Eval [2]; If Opaque [(* 344 *) Eval []; Raise] [];
        (* 345 *) Eval [];
        (* 347 *) Eval [15]; If (Is "estimator" (VStr "Bayes")) [(* 348 *) Eval [18]; Bind [18];
         (* 349 *) Eval [19]; Bind [19];
         (* 351 *) Eval [18;19;25]; If Opaque [(* 352 *) Eval [18;19];
          (* 353 *) Eval [18]; Bind [18];
          (* 354 *) Eval [19]; Bind [19];
          (* 355 *) Eval [18;19;24]; If Opaque [(* 356 *) Eval [24;18;19];
           (* 357 *) Eval [18]; Bind [18];
           (* 358 *) Eval [19]; Bind [19]] []] [];
         (* 361 *) Eval [18;19];
         (* 362 *) Eval [16];
         (* 364 *) Eval [16;18;19];
         (* 368 *) Eval []; Bind [22];
         (* 369 *) Eval []; Bind [6]] [(* 371 *) Eval [27]; If Opaque [] [Eval [27]]; Bind [27];
         (* 372 *) Eval [26]; If Opaque [Eval [27;26]] []; If Opaque [(* 374 *) Eval [27;26]; Bind [27]] [];
         (* 375 *) Eval [27]; Bind [6];
         (* 376 *) Eval [17]; If Opaque [(* 377 *) Eval [6];
          (* 378 *) Eval [16];
          (* 379 *) Eval []; Bind [6]] [(* 381 *) Eval [6]];
         (* 385 *) Eval []; Bind [22]];
        (* 386 *) Eval []; If Opaque [(* 387 *) Eval [];
         (* 388 *) Eval []; Raise] [];
        (* 389 *) Eval [6]; Bind [7]]] [If Opaque [Call [] [] [(* 395 *) Eval [2]; If Opaque [(* 396 *) Eval []; Raise] [];
         (* 397 *) Eval [];
         (* 399 *) Eval [15]; If (Is "estimator" (VStr "Bayes")) [(* 400 *) Eval [20]; Bind [20];
          (* 401 *) Eval [21]; Bind [21];
          (* 403 *) Eval [20;21;25]; If Opaque [(* 404 *) Eval [20;21];
           (* 405 *) Eval [20]; Bind [20];
           (* 406 *) Eval [21]; Bind [21];
           (* 407 *) Eval [20;21;24]; If Opaque [(* 408 *) Eval [24;20;21];
            (* 409 *) Eval [20]; Bind [20];
            (* 410 *) Eval [21]; Bind [21]] []] [];
          (* 412 *) Eval [20;21];
          (* 414 *) Eval [16];
          (* 416 *) Eval [16;20;21];
          (* 420 *) Eval []; Bind [23];
          (* 421 *) Eval []; Bind [8]] [(* 423 *) Eval [28]; If Opaque [] [Eval [28]]; Bind [28];
          (* 424 *) Eval [26]; If Opaque [Eval [28;26]] []; If Opaque [(* 426 *) Eval [28;26]; Bind [28]] [];
          (* 427 *) Eval [28]; Bind [8];
          (* 428 *) Eval [17]; If Opaque [(* 429 *) Eval [8];
           (* 430 *) Eval [16];
           (* 431 *) Eval []; Bind [8]] [(* 433 *) Eval [8]];
          (* 437 *) Eval []; Bind [23]];
         (* 438 *) Eval []; If Opaque [(* 439 *) Eval [];
          (* 440 *) Eval []; Raise] [];
         (* 441 *) Eval [8]; Bind [9]]] [If Opaque [Call [] [] [(* 450 *) Eval [];
          (* 453 *) Eval [];
          (* 456 *) Eval [4;7;3];
          (* 457 *) Eval [4;9;3];
          (* 459 *) Eval []; If Opaque [(* 460 *) Eval []; Return] [];
          (* 462 *) Eval [15]; If (Is "estimator" (VStr "Bayes")) [(* 463 *) Eval [18;19];
           (* 464 *) Eval [20;21]] [(* 466 *) Eval [27]; If Opaque [Eval [27]] [];
           (* 467 *) Eval [28]; If Opaque [Eval [28]] []];
          (* 469 *) Eval [10;11];
          (* 470 *) Eval [12;13];
          (* 473 *) Eval [14]; If (Is "confidence" (VInt 0)) [] [(* 475 *) Eval [14]; If (Is "confidence" (VInt 1)) [(* 476 *) Eval [];
            (* 477 *) Eval []; If Opaque [(* 478 *) Eval [];
             (* 479 *) Eval []] []] [(* 480 *) Eval [14]; If (Is "confidence" (VInt 1)) [(* 481 *) Eval [];
             (* 482 *) Eval []; If Opaque [(* 483 *) Eval [];
              (* 484 *) Eval []] []] [(* 485 *) Eval [14]; If (Is "confidence" (VInt 3)) [(* 486 *) Eval []] [(* 487 *) Eval [14]; If (Is "confidence" (VInt 4)) [(* 488 *) Eval [22];
               (* 489 *) Eval [23]] [(* 490 *) Eval [14]; If (Is "confidence" (VInt 5)) [(* 491 *) Eval []] []]]]]];
          (* 493 *) Eval [5];
          (* 496 *) Eval []; If Opaque [(* 497 *) Eval [6;7;3]] [];
          (* 500 *) Eval []; If Opaque [(* 501 *) Eval [8;9;3]] [];
          (* 505 *) Eval []; Return]] []]]]] []]] |}.

(** decoders/mavlink_decoder.py:22-273. *)
Definition at_MavlinkRectifyingDecoder : file := {| f_name := "MavlinkRectifyingDecoder";
  f_vars := ["invalid_thr"; "buffer_structures"; "ldpc_decoder"; "model_length"; "valid_threshold"; "window_length"; "bs"
    ; "model"; "learning"; "model_bits_idx"; "running_idx"; "classifier_training_size"; "n_clusters"; "cluster"; "classifier"
    ; "valid_factor"; "invalid_factor"; "conf_center"; "conf_slope"; "debug"; "segmentation_iterations"; "decoder_type"];
  f_body :=
   [Call [] [] [(* 52 *) Eval []; Bind [0];
    (* 53 *) Eval []; Bind [1];
    (* 54 *) Eval []; Bind [2];
    (* 55 *) Eval []; Bind [3];
    (* 56 *) Eval []; Bind [4];
    (* 57 *) Eval []; Bind [5];
    (* 58 *) Eval []; Bind [6];
    (* 59 *) Eval []; Bind [7];
    (* 60 *) Eval []; Bind [8];
    (* 61 *) Eval [2]; Bind [9];
    (* 62 *) Eval [9]; If Opaque [(* 63 *) Eval []; Bind [9]] [(* 65 *) Eval [9];
     (* 66 *) Eval [9]; Bind [9]];
    (* 68 *) Eval []; Bind [10];
    (* 69 *) Eval []; Bind [11];
    (* 70 *) Eval []; Bind [12];
    (* 71 *) Eval []; Bind [13];
    (* 72 *) Eval []; Bind [14];
    (* 74 *) Eval []; Bind [15];
    (* 75 *) Eval []; Bind [16];
    (* 77 *) Eval []; Bind [17];
    (* 78 *) Eval []; Bind [18];
    (* 79 *) Eval []; Bind [19];
    (* 80 *) Eval []; Bind [20];
    (* 81 *) Eval []; Call [] [] [(* 22 *) Eval []; Bind [21]]]; Loop [Try [If Opaque [Call [] [] [(* 97 *) Eval [];
       (* 98 *) Eval [];
       (* 99 *) Eval [];
       (* 100 *) Eval [20]; Loop [(* 101 *) Eval [12]; If Opaque [(* 102 *) Eval [13]; If Opaque [(* 103 *) Eval [14;9];
          (* 104 *) Eval []; If Opaque [(* 105 *) Eval []; Call [] [] [(* 139 *) Eval [2];
            (* 140 *) Eval [8]; If Opaque [(* 141 *) Eval []; If Opaque [(* 142 *) Eval [1]; If Opaque [(* 143 *) Eval [2];
               (* 144 *) Eval [6];
               (* 145 *) Eval [1]] [];
              (* 146 *) Eval [7;1]] [(* 147 *) Eval [1]; If Opaque [(* 148 *) Eval [7;1]] []]] [];
            (* 149 *) Eval []; Return]; Return] []] [(* 107 *) Eval [10;12]; Bind [10];
          (* 108 *) Eval [10]]] [(* 110 *) Eval []];
        (* 112 *) Eval [];
        (* 113 *) Eval [];
        (* 114 *) Eval [];
        (* 115 *) Eval [];
        (* 116 *) Eval [];
        (* 117 *) Eval [];
        (* 118 *) Eval [];
        (* 119 *) Eval []; Call [] [] [(* 171 *) Eval [1]; If Opaque [(* 172 *) Eval []; Return] [];
         (* 174 *) Eval [7;1];
         (* 176 *) Eval [4];
         (* 177 *) Eval [0];
         (* 178 *) Eval []; If Opaque [Eval [4]] [];
         (* 179 *) Eval []; If Opaque [Eval [0]] [];
         (* 181 *) Eval [8]; If Opaque [(* 182 *) Eval [];
          (* 185 *) Eval [7;17;18];
          (* 186 *) Eval [15];
          (* 187 *) Eval [16]] [(* 189 *) Eval [15];
          (* 190 *) Eval [16]];
         (* 192 *) Eval [];
         (* 193 *) Eval [];
         (* 194 *) Eval []; If Opaque [(* 195 *) Eval [];
          (* 196 *) Eval [];
          (* 198 *) Eval [];
          (* 199 *) Eval []] [(* 201 *) Eval [];
          (* 202 *) Eval []];
         (* 206 *) Eval [];
         (* 207 *) Eval []; If Opaque [(* 208 *) Eval [7;1];
          (* 209 *) Eval [];
          (* 210 *) Eval [];
          (* 211 *) Eval []] [];
         (* 215 *) Eval [2];
         (* 216 *) Eval [6];
         (* 217 *) Eval []; If Opaque [(* 218 *) Eval [];
          (* 219 *) Eval []] [(* 222 *) Eval [2];
          (* 223 *) Eval [6];
          (* 224 *) Eval []; If Opaque [(* 225 *) Eval [];
           (* 226 *) Eval []] []];
         (* 229 *) Eval []; Return];
        (* 121 *) Eval []; Call [] [] [(* 139 *) Eval [2];
         (* 140 *) Eval [8]; If Opaque [(* 141 *) Eval []; If Opaque [(* 142 *) Eval [1]; If Opaque [(* 143 *) Eval [2];
            (* 144 *) Eval [6];
            (* 145 *) Eval [1]] [];
           (* 146 *) Eval [7;1]] [(* 147 *) Eval [1]; If Opaque [(* 148 *) Eval [7;1]] []]] [];
         (* 149 *) Eval []; Return];
        (* 123 *) Eval [];
        (* 124 *) Eval []; If Opaque [(* 125 *) Break] []];
       (* 126 *) Eval [19]; If Opaque [(* 127 *) Eval []; Call [] [] [(* 234 *) Eval [1]; If Opaque [(* 235 *) Eval []; Return] [];
         (* 236 *) Eval [7;1;2];
         (* 237 *) Eval []; If Opaque [(* 238 *) Eval []; Return] [];
         (* 239 *) Eval [];
         (* 240 *) Eval [];
         (* 241 *) Eval [];
         (* 242 *) Eval [];
         (* 243 *) Eval []; Return];
        (* 129 *) Eval []; Call [] [] [(* 252 *) Eval [];
         (* 253 *) Eval [];
         (* 257 *) Eval [7;1];
         (* 258 *) Eval [];
         (* 259 *) Eval [];
         (* 260 *) Eval [];
         (* 261 *) Eval [];
         (* 262 *) Eval [];
         (* 263 *) Eval [];
         (* 264 *) Eval []; If Opaque [(* 265 *) Eval []] [(* 269 *) Eval []];
         (* 272 *) Eval []; Return]] [(* 131 *) Eval [];
        (* 132 *) Eval []];
       (* 134 *) Eval []; Return]] [If Opaque [Call [] [] [(* 139 *) Eval [2];
        (* 140 *) Eval [8]; If Opaque [(* 141 *) Eval []; If Opaque [(* 142 *) Eval [1]; If Opaque [(* 143 *) Eval [2];
           (* 144 *) Eval [6];
           (* 145 *) Eval [1]] [];
          (* 146 *) Eval [7;1]] [(* 147 *) Eval [1]; If Opaque [(* 148 *) Eval [7;1]] []]] [];
        (* 149 *) Eval []; Return]] [If Opaque [Call [] [] [(* 156 *) Eval [12]; If Opaque [(* 157 *) Eval [12]; Raise] [];
         (* 159 *) Eval []; Bind [1]]] [If Opaque [Call [] [] [(* 171 *) Eval [1]; If Opaque [(* 172 *) Eval []; Return] [];
          (* 174 *) Eval [7;1];
          (* 176 *) Eval [4];
          (* 177 *) Eval [0];
          (* 178 *) Eval []; If Opaque [Eval [4]] [];
          (* 179 *) Eval []; If Opaque [Eval [0]] [];
          (* 181 *) Eval [8]; If Opaque [(* 182 *) Eval [];
           (* 185 *) Eval [7;17;18];
           (* 186 *) Eval [15];
           (* 187 *) Eval [16]] [(* 189 *) Eval [15];
           (* 190 *) Eval [16]];
          (* 192 *) Eval [];
          (* 193 *) Eval [];
          (* 194 *) Eval []; If Opaque [(* 195 *) Eval [];
           (* 196 *) Eval [];
           (* 198 *) Eval [];
           (* 199 *) Eval []] [(* 201 *) Eval [];
           (* 202 *) Eval []];
          (* 206 *) Eval [];
          (* 207 *) Eval []; If Opaque [(* 208 *) Eval [7;1];
           (* 209 *) Eval [];
           (* 210 *) Eval [];
           (* 211 *) Eval []] [];
          (* 215 *) Eval [2];
          (* 216 *) Eval [6];
          (* 217 *) Eval []; If Opaque [(* 218 *) Eval [];
           (* 219 *) Eval []] [(* 222 *) Eval [2];
           (* 223 *) Eval [6];
           (* 224 *) Eval []; If Opaque [(* 225 *) Eval [];
            (* 226 *) Eval []] []];
          (* 229 *) Eval []; Return]] [If Opaque [Call [] [] [(* 234 *) Eval [1]; If Opaque [(* 235 *) Eval []; Return] [];
           (* 236 *) Eval [7;1;2];
           (* 237 *) Eval []; If Opaque [(* 238 *) Eval []; Return] [];
           (* 239 *) Eval [];
           (* 240 *) Eval [];
           (* 241 *) Eval [];
           (* 242 *) Eval [];
           (* 243 *) Eval []; Return]] [If Opaque [Call [] [] [(* 252 *) Eval [];
            (* 253 *) Eval [];
            (* 257 *) Eval [7;1];
            (* 258 *) Eval [];
            (* 259 *) Eval [];
            (* 260 *) Eval [];
            (* 261 *) Eval [];
            (* 262 *) Eval [];
            (* 263 *) Eval [];
            (* 264 *) Eval []; If Opaque [(* 265 *) Eval []] [(* 269 *) Eval []];
            (* 272 *) Eval []; Return]] []]]]]]] []]] |}.

(** decoders/turbo.py:15-57. *)
Definition at_TurboDecoder : file := {| f_name := "TurboDecoder";
  f_vars := ["first_decoder"; "second_decoder"; "max_iter"; "debug"; "decoder_type"];
  f_body :=
   [Call [] [] [(* 19 *) Eval []; Bind [0];
    (* 20 *) Eval []; Bind [1];
    (* 21 *) Eval []; Bind [2];
    (* 22 *) Eval []; Bind [3];
    (* 23 *) Eval []; Call [] [] [(* 22 *) Eval []; Bind [4]]]; Loop [Try [If Opaque [Call [] [] [(* 33 *) Eval [];
       (* 34 *) Eval [];
       (* 36 *) Eval [2]; Loop [(* 37 *) Eval [0];
        (* 38 *) Eval [];
        (* 39 *) Eval []; If Opaque [(* 40 *) Eval []; Return] [];
        (* 41 *) Eval [];
        (* 43 *) Eval [1];
        (* 44 *) Eval [];
        (* 45 *) Eval []; If Opaque [(* 46 *) Eval []; Return] [];
        (* 47 *) Eval [];
        (* 49 *) Eval [3]; If Opaque [(* 50 *) Eval [];
         (* 51 *) Eval []] []];
       (* 54 *) Eval [3]; If Opaque [(* 55 *) Eval []; Return] [(* 57 *) Eval []; Return]]] []] []]] |}.

(** inference/bmm.py:5-104. *)
Definition at_BMM : file := {| f_name := "BMM";
  f_vars := ["n_components"; "max_iter"; "tol"; "x"; "n_samples"; "n_features"; "pi"; "mu"; "old_logL"; "logL"; "gamma"; "old_mu"
    ; "old_pi"; "old_gamma"; "Neff"];
  f_body :=
   [Call [] [] [(* 8 *) Eval []; Bind [0];
    (* 9 *) Eval []; Bind [1];
    (* 10 *) Eval []; Bind [2]]; Loop [Try [If Opaque [Call [] [] [(* 13 *) Eval []; Bind [3];
       (* 14 *) Eval []; Call [] [] [(* 49 *) Eval [3]; Bind [4];
        (* 50 *) Eval [3]; Bind [5];
        (* 52 *) Eval [0]; Bind [6];
        (* 53 *) Eval [0;5]; Bind [7];
        (* 54 *) Eval []; Call [] [] [(* 57 *) Eval [7];
         (* 58 *) Eval [0]; Loop [(* 59 *) Eval [7]]]];
       (* 15 *) Eval [3]; Call [] [] [(* 69 *) Eval [7]; Call [] [] [(* 74 *) Eval [];
         (* 75 *) Eval [];
         (* 76 *) Eval []; Return];
        (* 70 *) Eval [7]; Call [] [] [(* 74 *) Eval [];
         (* 75 *) Eval [];
         (* 76 *) Eval []; Return];
        (* 71 *) Eval []; Return];
       (* 16 *) Eval []; Call [] [] [(* 96 *) Eval []; Call [] [] [(* 93 *) Eval [6]; Return]; Return]; Bind [8];
       (* 17 *) Eval [1]; Loop [(* 18 *) Eval []; If Opaque [(* 19 *) Eval [9]; Bind [8]] [];
        (* 21 *) Eval []; Call [] [] [(* 62 *) Eval [0];
         (* 63 *) Eval [6];
         (* 64 *) Eval [0]; Loop [(* 65 *) Eval [6]];
         (* 66 *) Eval []; Return]; Bind [10];
        (* 22 *) Eval []; Call [] [] [(* 44 *) Eval [7]; Bind [11];
         (* 45 *) Eval [6]; Bind [12];
         (* 46 *) Eval [10]; Bind [13]];
        (* 24 *) Eval []; Call [] [] [(* 79 *) Eval [10]; Bind [14]];
        (* 25 *) Eval []; Call [] [] [(* 82 *) Eval [10;3;14]; Bind [7]];
        (* 26 *) Eval []; Call [] [] [(* 85 *) Eval [14;4]; Bind [6]];
        (* 28 *) Eval [3]; Call [] [] [(* 69 *) Eval [7]; Call [] [] [(* 74 *) Eval [];
          (* 75 *) Eval [];
          (* 76 *) Eval []; Return];
         (* 70 *) Eval [7]; Call [] [] [(* 74 *) Eval [];
          (* 75 *) Eval [];
          (* 76 *) Eval []; Return];
         (* 71 *) Eval []; Return];
        (* 29 *) Eval []; Call [] [] [(* 96 *) Eval []; Call [] [] [(* 93 *) Eval [6]; Return]; Return]; Bind [9];
        (* 30 *) Eval [9]; If Opaque [(* 31 *) Eval []; Call [] [] [(* 36 *) Eval [11]; Bind [7];
          (* 37 *) Eval [12]; Bind [6];
          (* 38 *) Eval [13]; Bind [10];
          (* 39 *) Eval []; Call [] [] [(* 79 *) Eval [10]; Bind [14]];
          (* 40 *) Eval [3]; Call [] [] [(* 69 *) Eval [7]; Call [] [] [(* 74 *) Eval [];
            (* 75 *) Eval [];
            (* 76 *) Eval []; Return];
           (* 70 *) Eval [7]; Call [] [] [(* 74 *) Eval [];
            (* 75 *) Eval [];
            (* 76 *) Eval []; Return];
           (* 71 *) Eval []; Return];
          (* 41 *) Eval []; Call [] [] [(* 96 *) Eval []; Call [] [] [(* 93 *) Eval [6]; Return]; Return]; Bind [9]];
         (* 32 *) Eval [9];
         (* 33 *) Break] []]]] [If Opaque [Call [] [] [(* 36 *) Eval [11]; Bind [7];
        (* 37 *) Eval [12]; Bind [6];
        (* 38 *) Eval [13]; Bind [10];
        (* 39 *) Eval []; Call [] [] [(* 79 *) Eval [10]; Bind [14]];
        (* 40 *) Eval [3]; Call [] [] [(* 69 *) Eval [7]; Call [] [] [(* 74 *) Eval [];
          (* 75 *) Eval [];
          (* 76 *) Eval []; Return];
         (* 70 *) Eval [7]; Call [] [] [(* 74 *) Eval [];
          (* 75 *) Eval [];
          (* 76 *) Eval []; Return];
         (* 71 *) Eval []; Return];
        (* 41 *) Eval []; Call [] [] [(* 96 *) Eval []; Call [] [] [(* 93 *) Eval [6]; Return]; Return]; Bind [9]]] [If Opaque [Call [] [] [(* 44 *) Eval [7]; Bind [11];
         (* 45 *) Eval [6]; Bind [12];
         (* 46 *) Eval [10]; Bind [13]]] [If Opaque [Call [] [] [(* 49 *) Eval [3]; Bind [4];
          (* 50 *) Eval [3]; Bind [5];
          (* 52 *) Eval [0]; Bind [6];
          (* 53 *) Eval [0;5]; Bind [7];
          (* 54 *) Eval []; Call [] [] [(* 57 *) Eval [7];
           (* 58 *) Eval [0]; Loop [(* 59 *) Eval [7]]]]] [If Opaque [Call [] [] [(* 57 *) Eval [7];
           (* 58 *) Eval [0]; Loop [(* 59 *) Eval [7]]]] [If Opaque [Call [] [] [(* 62 *) Eval [0];
            (* 63 *) Eval [6];
            (* 64 *) Eval [0]; Loop [(* 65 *) Eval [6]];
            (* 66 *) Eval []; Return]] [If Opaque [Call [] [] [(* 69 *) Eval [7]; Call [] [] [(* 74 *) Eval [];
              (* 75 *) Eval [];
              (* 76 *) Eval []; Return];
             (* 70 *) Eval [7]; Call [] [] [(* 74 *) Eval [];
              (* 75 *) Eval [];
              (* 76 *) Eval []; Return];
             (* 71 *) Eval []; Return]] [If Opaque [Call [] [] [(* 74 *) Eval [];
              (* 75 *) Eval [];
              (* 76 *) Eval []; Return]] [If Opaque [Call [] [] [(* 79 *) Eval [10]; Bind [14]]] [If Opaque [Call [] [] [(* 82 *) Eval [10;3;14]; Bind [7]]] [If Opaque [Call [] [] [(* 85 *) Eval [14;4]; Bind [6]]] [If Opaque [Call [] [] [(* 88 *) Eval []; Call [] [] [(* 69 *) Eval [7]; Call [] [] [(* 74 *) Eval [];
                    (* 75 *) Eval [];
                    (* 76 *) Eval []; Return];
                   (* 70 *) Eval [7]; Call [] [] [(* 74 *) Eval [];
                    (* 75 *) Eval [];
                    (* 76 *) Eval []; Return];
                   (* 71 *) Eval []; Return];
                  (* 89 *) Eval []; Call [] [] [(* 62 *) Eval [0];
                   (* 63 *) Eval [6];
                   (* 64 *) Eval [0]; Loop [(* 65 *) Eval [6]];
                   (* 66 *) Eval []; Return];
                  (* 90 *) Eval []; Return]] [If Opaque [Call [] [] [(* 93 *) Eval [6]; Return]] [If Opaque [Call [] [] [(* 96 *) Eval []; Call [] [] [(* 93 *) Eval [6]; Return]; Return]] [If Opaque [Call [] [] [(* 99 *) Eval []; Call [] [] [(* 69 *) Eval [7]; Call [] [] [(* 74 *) Eval [];
                       (* 75 *) Eval [];
                       (* 76 *) Eval []; Return];
                      (* 70 *) Eval [7]; Call [] [] [(* 74 *) Eval [];
                       (* 75 *) Eval [];
                       (* 76 *) Eval []; Return];
                      (* 71 *) Eval []; Return];
                     (* 100 *) Eval []; Call [] [] [(* 96 *) Eval []; Call [] [] [(* 93 *) Eval [6]; Return]; Return]; Return]] [If Opaque [Call [] [] [(* 103 *) Eval []; Call [] [] [(* 69 *) Eval [7]; Call [] [] [(* 74 *) Eval [];
                        (* 75 *) Eval [];
                        (* 76 *) Eval []; Return];
                       (* 70 *) Eval [7]; Call [] [] [(* 74 *) Eval [];
                        (* 75 *) Eval [];
                        (* 76 *) Eval []; Return];
                       (* 71 *) Eval []; Return];
                      (* 104 *) Eval []; Call [] [] [(* 93 *) Eval [6]; Return]; Return]] []]]]]]]]]]]]]]]]] []]] |}.

(** inference/bmm.py:5-104, first a call of fit, then of fit, predict, score and score_samples. *)
Definition at_BMM_fit : file := {| f_name := "BMM.fit";
  f_vars := ["n_components"; "max_iter"; "tol"; "x"; "n_samples"; "n_features"; "pi"; "mu"; "old_logL"; "logL"; "gamma"; "old_mu"
    ; "old_pi"; "old_gamma"; "Neff"];
  f_body :=
   [Call [] [] [(* 8 *) Eval []; Bind [0];
    (* 9 *) Eval []; Bind [1];
    (* 10 *) Eval []; Bind [2]]; Call [] [] [(* 13 *) Eval []; Bind [3];
    (* 14 *) Eval []; Call [] [] [(* 49 *) Eval [3]; Bind [4];
     (* 50 *) Eval [3]; Bind [5];
     (* 52 *) Eval [0]; Bind [6];
     (* 53 *) Eval [0;5]; Bind [7];
     (* 54 *) Eval []; Call [] [] [(* 57 *) Eval [7];
      (* 58 *) Eval [0]; Loop [(* 59 *) Eval [7]]]];
    (* 15 *) Eval [3]; Call [] [] [(* 69 *) Eval [7]; Call [] [] [(* 74 *) Eval [];
      (* 75 *) Eval [];
      (* 76 *) Eval []; Return];
     (* 70 *) Eval [7]; Call [] [] [(* 74 *) Eval [];
      (* 75 *) Eval [];
      (* 76 *) Eval []; Return];
     (* 71 *) Eval []; Return];
    (* 16 *) Eval []; Call [] [] [(* 96 *) Eval []; Call [] [] [(* 93 *) Eval [6]; Return]; Return]; Bind [8];
    (* 17 *) Eval [1]; Loop [(* 18 *) Eval []; If Opaque [(* 19 *) Eval [9]; Bind [8]] [];
     (* 21 *) Eval []; Call [] [] [(* 62 *) Eval [0];
      (* 63 *) Eval [6];
      (* 64 *) Eval [0]; Loop [(* 65 *) Eval [6]];
      (* 66 *) Eval []; Return]; Bind [10];
     (* 22 *) Eval []; Call [] [] [(* 44 *) Eval [7]; Bind [11];
      (* 45 *) Eval [6]; Bind [12];
      (* 46 *) Eval [10]; Bind [13]];
     (* 24 *) Eval []; Call [] [] [(* 79 *) Eval [10]; Bind [14]];
     (* 25 *) Eval []; Call [] [] [(* 82 *) Eval [10;3;14]; Bind [7]];
     (* 26 *) Eval []; Call [] [] [(* 85 *) Eval [14;4]; Bind [6]];
     (* 28 *) Eval [3]; Call [] [] [(* 69 *) Eval [7]; Call [] [] [(* 74 *) Eval [];
       (* 75 *) Eval [];
       (* 76 *) Eval []; Return];
      (* 70 *) Eval [7]; Call [] [] [(* 74 *) Eval [];
       (* 75 *) Eval [];
       (* 76 *) Eval []; Return];
      (* 71 *) Eval []; Return];
     (* 29 *) Eval []; Call [] [] [(* 96 *) Eval []; Call [] [] [(* 93 *) Eval [6]; Return]; Return]; Bind [9];
     (* 30 *) Eval [9]; If Opaque [(* 31 *) Eval []; Call [] [] [(* 36 *) Eval [11]; Bind [7];
       (* 37 *) Eval [12]; Bind [6];
       (* 38 *) Eval [13]; Bind [10];
       (* 39 *) Eval []; Call [] [] [(* 79 *) Eval [10]; Bind [14]];
       (* 40 *) Eval [3]; Call [] [] [(* 69 *) Eval [7]; Call [] [] [(* 74 *) Eval [];
         (* 75 *) Eval [];
         (* 76 *) Eval []; Return];
        (* 70 *) Eval [7]; Call [] [] [(* 74 *) Eval [];
         (* 75 *) Eval [];
         (* 76 *) Eval []; Return];
        (* 71 *) Eval []; Return];
       (* 41 *) Eval []; Call [] [] [(* 96 *) Eval []; Call [] [] [(* 93 *) Eval [6]; Return]; Return]; Bind [9]];
      (* 32 *) Eval [9];
      (* 33 *) Break] []]]; Loop [Try [If Opaque [Call [] [] [(* 13 *) Eval []; Bind [3];
       (* 14 *) Eval []; Call [] [] [(* 49 *) Eval [3]; Bind [4];
        (* 50 *) Eval [3]; Bind [5];
        (* 52 *) Eval [0]; Bind [6];
        (* 53 *) Eval [0;5]; Bind [7];
        (* 54 *) Eval []; Call [] [] [(* 57 *) Eval [7];
         (* 58 *) Eval [0]; Loop [(* 59 *) Eval [7]]]];
       (* 15 *) Eval [3]; Call [] [] [(* 69 *) Eval [7]; Call [] [] [(* 74 *) Eval [];
         (* 75 *) Eval [];
         (* 76 *) Eval []; Return];
        (* 70 *) Eval [7]; Call [] [] [(* 74 *) Eval [];
         (* 75 *) Eval [];
         (* 76 *) Eval []; Return];
        (* 71 *) Eval []; Return];
       (* 16 *) Eval []; Call [] [] [(* 96 *) Eval []; Call [] [] [(* 93 *) Eval [6]; Return]; Return]; Bind [8];
       (* 17 *) Eval [1]; Loop [(* 18 *) Eval []; If Opaque [(* 19 *) Eval [9]; Bind [8]] [];
        (* 21 *) Eval []; Call [] [] [(* 62 *) Eval [0];
         (* 63 *) Eval [6];
         (* 64 *) Eval [0]; Loop [(* 65 *) Eval [6]];
         (* 66 *) Eval []; Return]; Bind [10];
        (* 22 *) Eval []; Call [] [] [(* 44 *) Eval [7]; Bind [11];
         (* 45 *) Eval [6]; Bind [12];
         (* 46 *) Eval [10]; Bind [13]];
        (* 24 *) Eval []; Call [] [] [(* 79 *) Eval [10]; Bind [14]];
        (* 25 *) Eval []; Call [] [] [(* 82 *) Eval [10;3;14]; Bind [7]];
        (* 26 *) Eval []; Call [] [] [(* 85 *) Eval [14;4]; Bind [6]];
        (* 28 *) Eval [3]; Call [] [] [(* 69 *) Eval [7]; Call [] [] [(* 74 *) Eval [];
          (* 75 *) Eval [];
          (* 76 *) Eval []; Return];
         (* 70 *) Eval [7]; Call [] [] [(* 74 *) Eval [];
          (* 75 *) Eval [];
          (* 76 *) Eval []; Return];
         (* 71 *) Eval []; Return];
        (* 29 *) Eval []; Call [] [] [(* 96 *) Eval []; Call [] [] [(* 93 *) Eval [6]; Return]; Return]; Bind [9];
        (* 30 *) Eval [9]; If Opaque [(* 31 *) Eval []; Call [] [] [(* 36 *) Eval [11]; Bind [7];
          (* 37 *) Eval [12]; Bind [6];
          (* 38 *) Eval [13]; Bind [10];
          (* 39 *) Eval []; Call [] [] [(* 79 *) Eval [10]; Bind [14]];
          (* 40 *) Eval [3]; Call [] [] [(* 69 *) Eval [7]; Call [] [] [(* 74 *) Eval [];
            (* 75 *) Eval [];
            (* 76 *) Eval []; Return];
           (* 70 *) Eval [7]; Call [] [] [(* 74 *) Eval [];
            (* 75 *) Eval [];
            (* 76 *) Eval []; Return];
           (* 71 *) Eval []; Return];
          (* 41 *) Eval []; Call [] [] [(* 96 *) Eval []; Call [] [] [(* 93 *) Eval [6]; Return]; Return]; Bind [9]];
         (* 32 *) Eval [9];
         (* 33 *) Break] []]]] [If Opaque [Call [] [] [(* 88 *) Eval []; Call [] [] [(* 69 *) Eval [7]; Call [] [] [(* 74 *) Eval [];
          (* 75 *) Eval [];
          (* 76 *) Eval []; Return];
         (* 70 *) Eval [7]; Call [] [] [(* 74 *) Eval [];
          (* 75 *) Eval [];
          (* 76 *) Eval []; Return];
         (* 71 *) Eval []; Return];
        (* 89 *) Eval []; Call [] [] [(* 62 *) Eval [0];
         (* 63 *) Eval [6];
         (* 64 *) Eval [0]; Loop [(* 65 *) Eval [6]];
         (* 66 *) Eval []; Return];
        (* 90 *) Eval []; Return]] [If Opaque [Call [] [] [(* 99 *) Eval []; Call [] [] [(* 69 *) Eval [7]; Call [] [] [(* 74 *) Eval [];
           (* 75 *) Eval [];
           (* 76 *) Eval []; Return];
          (* 70 *) Eval [7]; Call [] [] [(* 74 *) Eval [];
           (* 75 *) Eval [];
           (* 76 *) Eval []; Return];
          (* 71 *) Eval []; Return];
         (* 100 *) Eval []; Call [] [] [(* 96 *) Eval []; Call [] [] [(* 93 *) Eval [6]; Return]; Return]; Return]] [If Opaque [Call [] [] [(* 103 *) Eval []; Call [] [] [(* 69 *) Eval [7]; Call [] [] [(* 74 *) Eval [];
            (* 75 *) Eval [];
            (* 76 *) Eval []; Return];
           (* 70 *) Eval [7]; Call [] [] [(* 74 *) Eval [];
            (* 75 *) Eval [];
            (* 76 *) Eval []; Return];
           (* 71 *) Eval []; Return];
          (* 104 *) Eval []; Call [] [] [(* 93 *) Eval [6]; Return]; Return]] []]]]] []]] |}.

(** inference/buffer_segmentation.py:22-72. *)
Definition at_BufferStructure : file := {| f_name := "BufferStructure";
  f_vars := ["structure"; "reception_count"; "received_buffers"; "field_models"; "byte_structure"];
  f_body :=
   [Call [] [] [(* 29 *) Eval []; Bind [0];
    (* 30 *) Eval []; Bind [1];
    (* 31 *) Eval []; Bind [2];
    (* 32 *) Eval []; Bind [3];
    (* 33 *) Eval []; Bind [4]]; Loop [Try [If Opaque [Call [] [] [(* 37 *) Eval []; If Opaque [(* 38 *) Eval [0]; Return] [];
       (* 39 *) Eval []; If Opaque [Eval [0]] []; Return]] [If Opaque [Call [] [] [(* 47 *) Eval []; Call [] [] [(* 65 *) Eval [0]; Loop [(* 66 *) Eval [];
          (* 67 *) Eval []; If Opaque [(* 68 *) Eval []; Return] []];
         (* 69 *) Eval []; Return]; If Opaque [(* 48 *) Eval [2];
         (* 49 *) Eval [1]; Bind [1]] [(* 51 *) Eval []; Raise]]] [If Opaque [Call [] [] [(* 54 *) Eval [0]; Return]] [If Opaque [Call [] [] [(* 58 *) Eval [0]; Return]] [If Opaque [Call [] [] [(* 65 *) Eval [0]; Loop [(* 66 *) Eval [];
            (* 67 *) Eval []; If Opaque [(* 68 *) Eval []; Return] []];
           (* 69 *) Eval []; Return]] [If Opaque [Call [] [] [(* 72 *) Eval []; Bind [3]]] []]]]]]] []]] |}.

(** inference/buffer_segmentation.py:75-214. *)
Definition at_BufferSegmentation : file := {| f_name := "BufferSegmentation";
  f_vars := ["protocol_parser"];
  f_body :=
   [Call [] [] [(* 83 *) Eval []; Bind [0]]; Loop [Try [If Opaque [Call [] [] [(* 98 *) Eval [];
       (* 100 *) Eval [];
       (* 102 *) Eval [];
       (* 105 *) Eval []; Loop [(* 107 *) Eval []; If Opaque [(* 108 *) Continue] [];
        (* 109 *) Eval []; If Opaque [(* 111 *) Eval [];
         (* 112 *) Eval [];
         (* 113 *) Eval [];
         (* 114 *) Eval [0];
         (* 117 *) Eval [];
         (* 118 *) Eval [];
         (* 119 *) Eval [];
         (* 121 *) Eval [];
         (* 124 *) Eval []] []];
       (* 125 *) Eval []; Return]] [If Opaque [Call [] [] [(* 136 *) Eval []; If Opaque [(* 137 *) Eval []; Return] [];
        (* 140 *) Eval [];
        (* 141 *) Eval [];
        (* 142 *) Eval [];
        (* 143 *) Eval []; Loop [(* 144 *) Eval []; If Opaque [(* 145 *) Eval []] [(* 147 *) Eval []; If Opaque [(* 148 *) Eval []] [];
          (* 149 *) Eval []];
         (* 150 *) Eval []];
        (* 151 *) Eval []; If Opaque [(* 152 *) Eval []] [];
        (* 153 *) Eval []; Return]] [If Opaque [Call [] [] [(* 165 *) Eval []; If Opaque [(* 166 *) Eval []; Return] [];
         (* 168 *) Eval [];
         (* 169 *) Eval [];
         (* 170 *) Eval [];
         (* 171 *) Eval []; Loop [(* 172 *) Eval []; If Opaque [(* 173 *) Eval []] [(* 175 *) Eval []; If Opaque [(* 176 *) Eval []] [];
           (* 177 *) Eval []];
          (* 178 *) Eval []];
         (* 179 *) Eval []; If Opaque [(* 180 *) Eval []] [];
         (* 181 *) Eval []; Return]] [If Opaque [Call [] [] [(* 189 *) Eval []; Call [] [] [(* 98 *) Eval [];
           (* 100 *) Eval [];
           (* 102 *) Eval [];
           (* 105 *) Eval []; Loop [(* 107 *) Eval []; If Opaque [(* 108 *) Continue] [];
            (* 109 *) Eval []; If Opaque [(* 111 *) Eval [];
             (* 112 *) Eval [];
             (* 113 *) Eval [];
             (* 114 *) Eval [0];
             (* 117 *) Eval [];
             (* 118 *) Eval [];
             (* 119 *) Eval [];
             (* 121 *) Eval [];
             (* 124 *) Eval []] []];
           (* 125 *) Eval []; Return];
          (* 190 *) Eval []; Return]] [If Opaque [Call [] [] [(* 198 *) Eval []; Call [] [] [(* 98 *) Eval [];
            (* 100 *) Eval [];
            (* 102 *) Eval [];
            (* 105 *) Eval []; Loop [(* 107 *) Eval []; If Opaque [(* 108 *) Continue] [];
             (* 109 *) Eval []; If Opaque [(* 111 *) Eval [];
              (* 112 *) Eval [];
              (* 113 *) Eval [];
              (* 114 *) Eval [0];
              (* 117 *) Eval [];
              (* 118 *) Eval [];
              (* 119 *) Eval [];
              (* 121 *) Eval [];
              (* 124 *) Eval []] []];
            (* 125 *) Eval []; Return];
           (* 199 *) Eval []; If Opaque [(* 200 *) Eval []; Return] [];
           (* 201 *) Eval [];
           (* 202 *) Eval [];
           (* 203 *) Eval []; Loop [(* 204 *) Eval [];
            (* 206 *) Eval [];
            (* 207 *) Eval []; Loop [(* 208 *) Eval [];
             (* 209 *) Eval [];
             (* 211 *) Eval []];
            (* 212 *) Eval []];
           (* 214 *) Eval []; Return]] []]]]]] []]] |}.

(** inference/clustering.py:10-38. *)
Definition at_Cluster : file := {| f_name := "Cluster";
  f_vars := ["_data"; "uid"; "n_samples"];
  f_body :=
   [Call [] [] [(* 12 *) Eval []; Bind [0];
    (* 13 *) Eval []; Bind [1];
    (* 14 *) Eval []; Bind [2]]; Loop [Try [If Opaque [Call [] [] [(* 18 *) Eval [0]; Call [] [] [(* 22 *) Eval [0;2]; Return]; Return]] [If Opaque [Call [] [] [(* 22 *) Eval [0;2]; Return]] [If Opaque [Call [] [] [(* 25 *) Eval [];
         (* 26 *) Eval [0];
         (* 27 *) Eval [0];
         (* 28 *) Eval [2]; Bind [2]]] [If Opaque [Call [] [] [(* 31 *) Eval [0]; Bind [0];
          (* 32 *) Eval [2]; Bind [2]]] [If Opaque [Call [] [] [(* 35 *) Eval [1;2]; Return]] [If Opaque [Call [] [] [(* 38 *) Eval [2]; Return]] []]]]]]] []]] |}.

(** inference/clustering.py:41-121. *)
Definition at_BufferClassifier : file := {| f_name := "BufferClassifier";
  f_vars := ["min_data_size"; "k"; "clusters"; "init"; "__cluster_uid"; "samples"; "classify_dist"; "merge_dist"; "weight_scheme"
    ];
  f_body :=
   [Call [] [] [(* 52 *) Eval []; Bind [0];
    (* 53 *) Eval []; Bind [1];
    (* 54 *) Eval []; Bind [2];
    (* 55 *) Eval []; Bind [3];
    (* 56 *) Eval []; Bind [4];
    (* 57 *) Eval []; Bind [5];
    (* 58 *) Eval []; Bind [6];
    (* 59 *) Eval []; Bind [7];
    (* 60 *) Eval []; Bind [8]]; Loop [Try [If Opaque [Call [] [] [(* 63 *) Eval [5]; Bind [5];
       (* 64 *) Eval [5;0]; If Opaque [(* 65 *) Eval [];
        (* 66 *) Eval []; Call [] [] [(* 92 *) Eval [2];
         (* 93 *) Eval []; Bind [4];
         (* 94 *) Eval [2]; Return];
        (* 67 *) Eval []; Return] [];
       (* 68 *) Eval [3]; If Opaque [(* 69 *) Eval []; Call [] [] [(* 97 *) Eval []; Eval [2;1]; Loop [(* 99 *) Eval [2];
          (* 100 *) Eval [];
          (* 101 *) Eval []; Loop [(* 102 *) Eval [2];
           (* 103 *) Eval [8]; If (Is "weight_scheme" (VStr "sqrt")) [(* 104 *) Eval []] [(* 105 *) Eval [8]; If (Is "weight_scheme" (VStr "linear")) [(* 106 *) Eval []] [(* 108 *) Eval []]];
           (* 109 *) Eval [7]; If (Is "merge_dist" (VStr "KlDiv")) [(* 110 *) Eval [2]] [(* 114 *) Eval [2]];
           (* 115 *) Eval []; If Opaque [(* 116 *) Eval [];
            (* 117 *) Eval []] []];
          (* 118 *) Eval [2];
          (* 119 *) Eval [2]; Eval [2;1]];
         (* 120 *) Eval [2]; Loop [(* 121 *) Eval []]];
        (* 70 *) Eval []; Bind [3]] [];
       (* 72 *) Eval [];
       (* 73 *) Eval [2]; Loop [(* 74 *) Eval [6]; If (Is "classify_dist" (VStr "hamming")) [(* 75 *) Eval [];
         (* 76 *) Eval []; If Opaque [(* 77 *) Eval [];
          (* 78 *) Eval []] []] [(* 80 *) Eval [];
         (* 84 *) Eval []; If Opaque [(* 85 *) Eval [];
          (* 86 *) Eval []] []]];
       (* 88 *) Eval [];
       (* 89 *) Eval []; Return]] [If Opaque [Call [] [] [(* 92 *) Eval [2];
        (* 93 *) Eval []; Bind [4];
        (* 94 *) Eval [2]; Return]] [If Opaque [Call [] [] [(* 97 *) Eval []; Eval [2;1]; Loop [(* 99 *) Eval [2];
          (* 100 *) Eval [];
          (* 101 *) Eval []; Loop [(* 102 *) Eval [2];
           (* 103 *) Eval [8]; If (Is "weight_scheme" (VStr "sqrt")) [(* 104 *) Eval []] [(* 105 *) Eval [8]; If (Is "weight_scheme" (VStr "linear")) [(* 106 *) Eval []] [(* 108 *) Eval []]];
           (* 109 *) Eval [7]; If (Is "merge_dist" (VStr "KlDiv")) [(* 110 *) Eval [2]] [(* 114 *) Eval [2]];
           (* 115 *) Eval []; If Opaque [(* 116 *) Eval [];
            (* 117 *) Eval []] []];
          (* 118 *) Eval [2];
          (* 119 *) Eval [2]; Eval [2;1]];
         (* 120 *) Eval [2]; Loop [(* 121 *) Eval []]]] []]]] []]] |}.

(** inference/dude.py:4-110. *)
Definition at_OnlineDude : file := {| f_name := "OnlineDude";
  f_vars := ["channel_transition_matrix"; "inverse_channel_transition_matrix"; "loss_matrix"; "k"; "alphabet_size"; "contexts"
    ; "_last_context"; "hard_decision"];
  f_body :=
   [Call [] [] [(* 20 *) Eval []; Bind [0];
    (* 21 *) Eval []; Bind [1];
    (* 23 *) Eval []; Bind [2];
    (* 24 *) Eval []; Bind [3];
    (* 25 *) Eval []; Bind [4];
    (* 26 *) Eval []; Bind [5];
    (* 27 *) Eval []; Bind [6];
    (* 28 *) Eval []; Bind [7]]; Loop [Try [If Opaque [Call [] [] [(* 35 *) Eval [4]; If Opaque [(* 36 *) Eval [4]; Raise] [];
       (* 37 *) Eval [6;3]; If Opaque [(* 39 *) Eval [6]; Bind [6];
        (* 40 *) Eval [7]; If Opaque [(* 41 *) Eval []; Return] [(* 43 *) Eval [4]; Return]] [];
       (* 44 *) Eval [6;5]; If Opaque [(* 45 *) Eval [4;5;6]] [];
       (* 46 *) Eval [5;6];
       (* 47 *) Eval [5;6];
       (* 49 *) Eval [6]; Bind [6];
       (* 51 *) Eval [7]; If Opaque [(* 52 *) Eval [1;0];
        (* 55 *) Eval [2];
        (* 56 *) Eval [];
        (* 57 *) Eval []; Return] [(* 61 *) Eval []; Call [] [] [(* 88 *) Eval [1];
         (* 89 *) Eval []; If Opaque [(* 90 *) Eval [];
          (* 91 *) Eval []] [(* 92 *) Eval []; If Opaque [(* 93 *) Eval [];
           (* 94 *) Eval []] []];
         (* 95 *) Eval [0];
         (* 96 *) Eval []; Return];
        (* 62 *) Eval [2];
        (* 63 *) Eval []; Return]]] [If Opaque [Call [] [] [(* 71 *) Eval [7]; If Opaque [(* 72 *) Eval []] [(* 74 *) Eval [4]];
        (* 75 *) Eval [];
        (* 76 *) Eval []; Loop [(* 77 *) Eval []; Call [] [] [(* 35 *) Eval [4]; If Opaque [(* 36 *) Eval [4]; Raise] [];
          (* 37 *) Eval [6;3]; If Opaque [(* 39 *) Eval [6]; Bind [6];
           (* 40 *) Eval [7]; If Opaque [(* 41 *) Eval []; Return] [(* 43 *) Eval [4]; Return]] [];
          (* 44 *) Eval [6;5]; If Opaque [(* 45 *) Eval [4;5;6]] [];
          (* 46 *) Eval [5;6];
          (* 47 *) Eval [5;6];
          (* 49 *) Eval [6]; Bind [6];
          (* 51 *) Eval [7]; If Opaque [(* 52 *) Eval [1;0];
           (* 55 *) Eval [2];
           (* 56 *) Eval [];
           (* 57 *) Eval []; Return] [(* 61 *) Eval []; Call [] [] [(* 88 *) Eval [1];
            (* 89 *) Eval []; If Opaque [(* 90 *) Eval [];
             (* 91 *) Eval []] [(* 92 *) Eval []; If Opaque [(* 93 *) Eval [];
              (* 94 *) Eval []] []];
            (* 95 *) Eval [0];
            (* 96 *) Eval []; Return];
           (* 62 *) Eval [2];
           (* 63 *) Eval []; Return]]];
        (* 78 *) Eval []; Return]] [If Opaque [Call [] [] [(* 88 *) Eval [1];
         (* 89 *) Eval []; If Opaque [(* 90 *) Eval [];
          (* 91 *) Eval []] [(* 92 *) Eval []; If Opaque [(* 93 *) Eval [];
           (* 94 *) Eval []] []];
         (* 95 *) Eval [0];
         (* 96 *) Eval []; Return]] [If Opaque [Call [] [] [(* 103 *) Eval [3]; If Opaque [(* 104 *) Eval []; Raise] [];
          (* 105 *) Eval []; Bind [6]]] [If Opaque [Call [] [] [(* 109 *) Eval []; Bind [6];
           (* 110 *) Eval []; Bind [5]]] []]]]]] []]] |}.

(** inference/dude.py:113-235. *)
Definition at_DUDE : file := {| f_name := "DUDE";
  f_vars := ["channel_transition_matrix"; "inverse_channel_transition_matrix"; "loss_matrix"; "k"; "alphabet_size"; "hard_decision"
    ; "_last_context"; "contexts"];
  f_body :=
   [Call [] [] [(* 128 *) Eval []; Bind [0];
    (* 129 *) Eval []; Bind [1];
    (* 131 *) Eval []; Bind [2];
    (* 132 *) Eval []; Bind [3];
    (* 133 *) Eval []; Bind [4];
    (* 134 *) Eval []; Bind [5]]; Loop [Try [If Opaque [Call [] [] [(* 141 *) Eval [6]; If Opaque [(* 142 *) Eval []; Raise] [];
       (* 143 *) Eval [4]; If Opaque [(* 144 *) Eval [4]; Raise] [];
       (* 145 *) Eval [6;7]; If Opaque [(* 146 *) Eval [4;7;6]] [];
       (* 147 *) Eval [7;6];
       (* 149 *) Eval [7;6];
       (* 151 *) Eval [6]; Bind [6];
       (* 153 *) Eval [5]; If Opaque [(* 154 *) Eval [1;0];
        (* 157 *) Eval [2];
        (* 158 *) Eval [];
        (* 159 *) Eval []; Return] [(* 163 *) Eval []; Call [] [] [(* 227 *) Eval [1];
         (* 228 *) Eval []; If Opaque [(* 229 *) Eval [];
          (* 230 *) Eval []] [(* 231 *) Eval []; If Opaque [(* 232 *) Eval [];
           (* 233 *) Eval []] []];
         (* 234 *) Eval [0];
         (* 235 *) Eval []; Return];
        (* 164 *) Eval [2];
        (* 165 *) Eval []; Return]]] [If Opaque [Call [] [] [(* 173 *) Eval [];
        (* 174 *) Eval [5]; If Opaque [(* 175 *) Eval [];
         (* 176 *) Eval [3];
         (* 177 *) Eval [3]] [(* 179 *) Eval [4];
         (* 180 *) Eval [4;3];
         (* 181 *) Eval [4;3]];
        (* 183 *) Eval [];
        (* 185 *) Eval [];
        (* 186 *) Eval [3]; Loop [(* 187 *) Eval [3];
         (* 189 *) Eval []; If Opaque [(* 190 *) Eval [4]] [];
         (* 191 *) Eval []];
        (* 199 *) Eval [3]; Loop [(* 201 *) Eval [3];
         (* 202 *) Eval [];
         (* 203 *) Eval [];
         (* 204 *) Eval [5]; If Opaque [(* 205 *) Eval [1;0];
          (* 208 *) Eval [2];
          (* 209 *) Eval [];
          (* 210 *) Eval []] [(* 214 *) Eval []; Call [] [] [(* 227 *) Eval [1];
           (* 228 *) Eval []; If Opaque [(* 229 *) Eval [];
            (* 230 *) Eval []] [(* 231 *) Eval []; If Opaque [(* 232 *) Eval [];
             (* 233 *) Eval []] []];
           (* 234 *) Eval [0];
           (* 235 *) Eval []; Return];
          (* 215 *) Eval [2];
          (* 216 *) Eval []]];
        (* 217 *) Eval []; Return]] [If Opaque [Call [] [] [(* 227 *) Eval [1];
         (* 228 *) Eval []; If Opaque [(* 229 *) Eval [];
          (* 230 *) Eval []] [(* 231 *) Eval []; If Opaque [(* 232 *) Eval [];
           (* 233 *) Eval []] []];
         (* 234 *) Eval [0];
         (* 235 *) Eval []; Return]] []]]] []]] |}.

(** inference/dude.py:113-235, at the end a call of denoise_sample. *)
Definition at_DUDE_denoise_sample : file := {| f_name := "DUDE.denoise_sample";
  f_vars := ["channel_transition_matrix"; "inverse_channel_transition_matrix"; "loss_matrix"; "k"; "alphabet_size"; "hard_decision"
    ; "_last_context"; "contexts"];
  f_body :=
   [Call [] [] [(* 128 *) Eval []; Bind [0];
    (* 129 *) Eval []; Bind [1];
    (* 131 *) Eval []; Bind [2];
    (* 132 *) Eval []; Bind [3];
    (* 133 *) Eval []; Bind [4];
    (* 134 *) Eval []; Bind [5]]; Loop [Try [If Opaque [Call [] [] [(* 141 *) Eval [6]; If Opaque [(* 142 *) Eval []; Raise] [];
       (* 143 *) Eval [4]; If Opaque [(* 144 *) Eval [4]; Raise] [];
       (* 145 *) Eval [6;7]; If Opaque [(* 146 *) Eval [4;7;6]] [];
       (* 147 *) Eval [7;6];
       (* 149 *) Eval [7;6];
       (* 151 *) Eval [6]; Bind [6];
       (* 153 *) Eval [5]; If Opaque [(* 154 *) Eval [1;0];
        (* 157 *) Eval [2];
        (* 158 *) Eval [];
        (* 159 *) Eval []; Return] [(* 163 *) Eval []; Call [] [] [(* 227 *) Eval [1];
         (* 228 *) Eval []; If Opaque [(* 229 *) Eval [];
          (* 230 *) Eval []] [(* 231 *) Eval []; If Opaque [(* 232 *) Eval [];
           (* 233 *) Eval []] []];
         (* 234 *) Eval [0];
         (* 235 *) Eval []; Return];
        (* 164 *) Eval [2];
        (* 165 *) Eval []; Return]]] [If Opaque [Call [] [] [(* 173 *) Eval [];
        (* 174 *) Eval [5]; If Opaque [(* 175 *) Eval [];
         (* 176 *) Eval [3];
         (* 177 *) Eval [3]] [(* 179 *) Eval [4];
         (* 180 *) Eval [4;3];
         (* 181 *) Eval [4;3]];
        (* 183 *) Eval [];
        (* 185 *) Eval [];
        (* 186 *) Eval [3]; Loop [(* 187 *) Eval [3];
         (* 189 *) Eval []; If Opaque [(* 190 *) Eval [4]] [];
         (* 191 *) Eval []];
        (* 199 *) Eval [3]; Loop [(* 201 *) Eval [3];
         (* 202 *) Eval [];
         (* 203 *) Eval [];
         (* 204 *) Eval [5]; If Opaque [(* 205 *) Eval [1;0];
          (* 208 *) Eval [2];
          (* 209 *) Eval [];
          (* 210 *) Eval []] [(* 214 *) Eval []; Call [] [] [(* 227 *) Eval [1];
           (* 228 *) Eval []; If Opaque [(* 229 *) Eval [];
            (* 230 *) Eval []] [(* 231 *) Eval []; If Opaque [(* 232 *) Eval [];
             (* 233 *) Eval []] []];
           (* 234 *) Eval [0];
           (* 235 *) Eval []; Return];
          (* 215 *) Eval [2];
          (* 216 *) Eval []]];
        (* 217 *) Eval []; Return]] [If Opaque [Call [] [] [(* 227 *) Eval [1];
         (* 228 *) Eval []; If Opaque [(* 229 *) Eval [];
          (* 230 *) Eval []] [(* 231 *) Eval []; If Opaque [(* 232 *) Eval [];
           (* 233 *) Eval []] []];
         (* 234 *) Eval [0];
         (* 235 *) Eval []; Return]] []]]] []]; Call [] [] [(* 141 *) Eval [6]; If Opaque [(* 142 *) Eval []; Raise] [];
    (* 143 *) Eval [4]; If Opaque [(* 144 *) Eval [4]; Raise] [];
    (* 145 *) Eval [6;7]; If Opaque [(* 146 *) Eval [4;7;6]] [];
    (* 147 *) Eval [7;6];
    (* 149 *) Eval [7;6];
    (* 151 *) Eval [6]; Bind [6];
    (* 153 *) Eval [5]; If Opaque [(* 154 *) Eval [1;0];
     (* 157 *) Eval [2];
     (* 158 *) Eval [];
     (* 159 *) Eval []; Return] [(* 163 *) Eval []; Call [] [] [(* 227 *) Eval [1];
      (* 228 *) Eval []; If Opaque [(* 229 *) Eval [];
       (* 230 *) Eval []] [(* 231 *) Eval []; If Opaque [(* 232 *) Eval [];
        (* 233 *) Eval []] []];
      (* 234 *) Eval [0];
      (* 235 *) Eval []; Return];
     (* 164 *) Eval [2];
     (* 165 *) Eval []; Return]]] |}.

(** inference/entropy_mle.py:17-109. *)
Definition at_EMLE : file := {| f_name := "EMLE";
  f_vars := ["f"; "hard_decision"; "soft_input"; "threshold"; "conf_center"; "conf_slope"; "window_length"; "model_size"; "model_entropy"
    ; "p1"; "model_data"];
  f_body :=
   [Call [] [] [(* 28 *) Eval []; Bind [0];
    (* 29 *) Eval []; Bind [1];
    (* 30 *) Eval []; Bind [2];
    (* 31 *) Eval []; Bind [3];
    (* 32 *) Eval []; Bind [4];
    (* 33 *) Eval []; Bind [5];
    (* 34 *) Eval []; Bind [6];
    (* 36 *) Eval []; Bind [7];
    (* 37 *) Eval []; Bind [8];
    (* 38 *) Eval []; Bind [9];
    (* 39 *) Eval []; Bind [10]]; Loop [Try [If Opaque [Call [] [] [(* 42 *) Eval [7]; If Opaque [] [Eval [7;4;5]]; Return]] [If Opaque [Call [] [] [(* 47 *) Eval []; Bind [7];
        (* 48 *) Eval []; Bind [8];
        (* 49 *) Eval []; Bind [9];
        (* 50 *) Eval []; Bind [10]]] [If Opaque [Call [] [] [(* 57 *) Eval [8;3];
         (* 58 *) Eval []; If Opaque [(* 59 *) Eval []; Return] [];
         (* 60 *) Eval []; Call [] [] [(* 42 *) Eval [7]; If Opaque [] [Eval [7;4;5]]; Return];
         (* 61 *) Eval []; If Opaque [(* 62 *) Eval [9]] [];
         (* 64 *) Eval []; Return]] [If Opaque [Call [] [] [(* 70 *) Eval [];
          (* 71 *) Eval [10]; If Opaque [] [Eval [10]]; Bind [10];
          (* 72 *) Eval [6]; If Opaque [Eval [10]] []; If Opaque [(* 74 *) Eval [10;6]; Bind [10]] [];
          (* 75 *) Eval [10];
          (* 76 *) Eval [0]; Bind [9];
          (* 77 *) Eval [9]; Bind [8];
          (* 78 *) Eval [7;6]; If Opaque [Eval [6]] []; If Opaque [(* 79 *) Eval [7]; Bind [7]] []]] [If Opaque [Call [] [] [(* 88 *) Eval [2]; If Opaque [] [Eval [0]];
           (* 89 *) Eval [2];
           (* 90 *) Eval []; Call [] [] [(* 57 *) Eval [8;3];
            (* 58 *) Eval []; If Opaque [(* 59 *) Eval []; Return] [];
            (* 60 *) Eval []; Call [] [] [(* 42 *) Eval [7]; If Opaque [] [Eval [7;4;5]]; Return];
            (* 61 *) Eval []; If Opaque [(* 62 *) Eval [9]] [];
            (* 64 *) Eval []; Return];
           (* 91 *) Eval [];
           (* 92 *) Eval []; Call [] [] [(* 70 *) Eval [];
            (* 71 *) Eval [10]; If Opaque [] [Eval [10]]; Bind [10];
            (* 72 *) Eval [6]; If Opaque [Eval [10]] []; If Opaque [(* 74 *) Eval [10;6]; Bind [10]] [];
            (* 75 *) Eval [10];
            (* 76 *) Eval [0]; Bind [9];
            (* 77 *) Eval [9]; Bind [8];
            (* 78 *) Eval [7;6]; If Opaque [Eval [6]] []; If Opaque [(* 79 *) Eval [7]; Bind [7]] []];
           (* 93 *) Eval [];
           (* 94 *) Eval [1]; Return]] [If Opaque [Call [] [] [(* 102 *) Eval [1]; If Opaque [(* 103 *) Eval []] [(* 105 *) Eval []];
            (* 106 *) Eval [];
            (* 107 *) Eval []; Loop [(* 108 *) Eval []; Call [] [] [(* 88 *) Eval [2]; If Opaque [] [Eval [0]];
              (* 89 *) Eval [2];
              (* 90 *) Eval []; Call [] [] [(* 57 *) Eval [8;3];
               (* 58 *) Eval []; If Opaque [(* 59 *) Eval []; Return] [];
               (* 60 *) Eval []; Call [] [] [(* 42 *) Eval [7]; If Opaque [] [Eval [7;4;5]]; Return];
               (* 61 *) Eval []; If Opaque [(* 62 *) Eval [9]] [];
               (* 64 *) Eval []; Return];
              (* 91 *) Eval [];
              (* 92 *) Eval []; Call [] [] [(* 70 *) Eval [];
               (* 71 *) Eval [10]; If Opaque [] [Eval [10]]; Bind [10];
               (* 72 *) Eval [6]; If Opaque [Eval [10]] []; If Opaque [(* 74 *) Eval [10;6]; Bind [10]] [];
               (* 75 *) Eval [10];
               (* 76 *) Eval [0]; Bind [9];
               (* 77 *) Eval [9]; Bind [8];
               (* 78 *) Eval [7;6]; If Opaque [Eval [6]] []; If Opaque [(* 79 *) Eval [7]; Bind [7]] []];
              (* 93 *) Eval [];
              (* 94 *) Eval [1]; Return]];
            (* 109 *) Eval []; Return]] []]]]]]] []]] |}.

(** inference/statistical_models.py:29-134. *)
Definition at_FieldModel : file := {| f_name := "FieldModel";
  f_vars := ["name"; "field_type"; "field_len"; "_mean"; "_std"; "samples"; "_up2date"; "window_size"; "int_type"; "signed"
    ];
  f_body :=
   [Call [] [] [(* 31 *) Eval []; If Opaque [(* 32 *) Eval []; Raise] [];
    (* 33 *) Eval []; Bind [0];
    (* 34 *) Eval []; Bind [1];
    (* 35 *) Eval []; Bind [2];
    (* 36 *) Eval []; Bind [3];
    (* 37 *) Eval []; Bind [4];
    (* 38 *) Eval []; Bind [5];
    (* 39 *) Eval []; Bind [6];
    (* 40 *) Eval []; Bind [7];
    (* 41 *) Eval []; If Opaque [(* 42 *) Eval []; Bind [8];
     (* 43 *) Eval []; Bind [9]] [(* 44 *) Eval []; If Opaque [(* 45 *) Eval []; Bind [8];
      (* 46 *) Eval []; Bind [9]] [(* 47 *) Eval []; If Opaque [(* 48 *) Eval []; Bind [8];
       (* 49 *) Eval []; Bind [9]] [(* 51 *) Eval []; Raise]]]]; Loop [Try [If Opaque [Call [] [] [(* 54 *) Eval []; If Opaque [(* 55 *) Eval [5]] [(* 57 *) Eval [5]];
       (* 58 *) Eval [7]; If Opaque [Eval [5;7]] []; If Opaque [(* 59 *) Eval [5;7]; Bind [5]] [];
       (* 60 *) Eval []; Bind [6]]] [If Opaque [Call [] [] [(* 64 *) Eval [6]; If Opaque [(* 65 *) Eval []; Call [] [] [(* 75 *) Eval [5]; If Opaque [(* 76 *) Eval [5]; Bind [3;4];
           (* 77 *) Eval []; Bind [6]] []]] [];
        (* 66 *) Eval [3]; Return]] [If Opaque [Call [] [] [(* 70 *) Eval [6]; If Opaque [(* 71 *) Eval []; Call [] [] [(* 75 *) Eval [5]; If Opaque [(* 76 *) Eval [5]; Bind [3;4];
            (* 77 *) Eval []; Bind [6]] []]] [];
         (* 72 *) Eval [4]; Return]] [If Opaque [Call [] [] [(* 75 *) Eval [5]; If Opaque [(* 76 *) Eval [5]; Bind [3;4];
           (* 77 *) Eval []; Bind [6]] []]] [If Opaque [Call [] [] [(* 80 *) Eval [6]; If Opaque [(* 81 *) Eval []; Call [] [] [(* 75 *) Eval [5]; If Opaque [(* 76 *) Eval [5]; Bind [3;4];
              (* 77 *) Eval []; Bind [6]] []]] [];
           (* 82 *) Eval [3;4]; Return]] [If Opaque [Call [] [] [(* 85 *) Eval [6]; If Opaque [(* 86 *) Eval []; Call [] [] [(* 75 *) Eval [5]; If Opaque [(* 76 *) Eval [5]; Bind [3;4];
               (* 77 *) Eval []; Bind [6]] []]] [];
            (* 87 *) Eval [3;4]; Return]] [If Opaque [Call [] [] [(* 91 *) Eval [6]; If Opaque [(* 92 *) Eval []; Call [] [] [(* 75 *) Eval [5]; If Opaque [(* 76 *) Eval [5]; Bind [3;4];
                (* 77 *) Eval []; Bind [6]] []]] [];
             (* 93 *) Eval [4]; If Opaque [(* 94 *) Eval [3]; Return] [];
             (* 95 *) Eval [3;4];
             (* 96 *) Eval [4]; Return]] [If Opaque [Call [] [] [(* 102 *) Eval [9]; If Opaque [(* 103 *) Eval []; Return] [];
              (* 104 *) Eval [6]; If Opaque [(* 105 *) Eval []; Call [] [] [(* 75 *) Eval [5]; If Opaque [(* 76 *) Eval [5]; Bind [3;4];
                 (* 77 *) Eval []; Bind [6]] []]] [];
              (* 107 *) Eval [3;4];
              (* 108 *) Eval []; Return]] [If Opaque [Call [] [] [(* 112 *) Eval [6]; If Opaque [(* 113 *) Eval []; Call [] [] [(* 75 *) Eval [5]; If Opaque [(* 76 *) Eval [5]; Bind [3;4];
                  (* 77 *) Eval []; Bind [6]] []]] [];
               (* 115 *) Eval []; Return]] [If Opaque [Call [] [] [(* 119 *) Eval [6]; If Opaque [(* 120 *) Eval []; Call [] [] [(* 75 *) Eval [5]; If Opaque [(* 76 *) Eval [5]; Bind [3;4];
                   (* 77 *) Eval []; Bind [6]] []]] [];
                (* 122 *) Eval [4]; Return]] [If Opaque [Call [] [] [(* 125 *) Eval [0;1]; Call [] [] [(* 64 *) Eval [6]; If Opaque [(* 65 *) Eval []; Call [] [] [(* 75 *) Eval [5]; If Opaque [(* 76 *) Eval [5]; Bind [3;4];
                     (* 77 *) Eval []; Bind [6]] []]] [];
                  (* 66 *) Eval [3]; Return]; Call [] [] [(* 70 *) Eval [6]; If Opaque [(* 71 *) Eval []; Call [] [] [(* 75 *) Eval [5]; If Opaque [(* 76 *) Eval [5]; Bind [3;4];
                     (* 77 *) Eval []; Bind [6]] []]] [];
                  (* 72 *) Eval [4]; Return]; Return]] [If Opaque [Call [] [] [(* 129 *) Eval [5]; Return]] [If Opaque [Call [] [] [(* 132 *) Eval [6]; If Opaque [(* 133 *) Eval []; Call [] [] [(* 75 *) Eval [5]; If Opaque [(* 76 *) Eval [5]; Bind [3;4];
                      (* 77 *) Eval []; Bind [6]] []]] [];
                   (* 134 *) Eval [3;1]; Return]] []]]]]]]]]]]]]] []]] |}.

(** inference/statistical_models.py:137-377. *)
Definition at_BufferModel : file := {| f_name := "BufferModel";
  f_vars := ["ordered_field_names"; "_buffer_description"; "_field_models"; "window_size"; "model_size"];
  f_body :=
   [Call [] [] [(* 139 *) Eval []; Bind [0];
    (* 140 *) Eval []; Bind [1];
    (* 141 *) Eval []; Bind [2];
    (* 142 *) Eval []; Bind [3];
    (* 143 *) Eval []; Bind [4]]; Loop [Try [If Opaque [Call [] [] [(* 146 *) Eval [2]; If Opaque [(* 147 *) Eval [3;2]] [];
       (* 148 *) Eval [2]]] [If Opaque [Call [] [] [(* 151 *) Eval [2]; Return]] [If Opaque [Call [] [] [(* 154 *) Eval [2]]] [If Opaque [Call [] [] [(* 157 *) Eval [2]; Return]] [If Opaque [Call [] [] [(* 160 *) Eval [2]; Return]] [If Opaque [Call [] [] [(* 163 *) Eval [2]; Return]] [If Opaque [Call [] [] [(* 166 *) Eval [2]; Return]] [If Opaque [Call [] [] [(* 171 *) Eval []; Bind [1];
              (* 172 *) Eval []; Bind [0];
              (* 173 *) Eval []; Loop [(* 174 *) Eval []; If Opaque [(* 175 *) Eval [0]] []]]] [If Opaque [Call [] [] [(* 178 *) Eval [1]; Return]] [If Opaque [Call [] [] [(* 181 *) Eval [2]; Return]] [If Opaque [Call [] [] [(* 193 *) Eval []; If Opaque [(* 194 *) Eval []] [(* 195 *) Eval []; If Opaque [(* 196 *) Eval []] [(* 198 *) Eval []; Raise]];
                 (* 199 *) Eval []; Call [] [] [(* 253 *) Eval [];
                  (* 257 *) Eval [];
                  (* 258 *) Eval [];
                  (* 259 *) Eval [];
                  (* 260 *) Eval []; Loop [(* 263 *) Eval [];
                   (* 265 *) Eval [];
                   (* 267 *) Eval [];
                   (* 268 *) Eval []; Loop [(* 269 *) Eval [];
                    (* 270 *) Eval []];
                   (* 271 *) Eval []; If Opaque [(* 273 *) Eval [];
                    (* 274 *) Eval []; Loop [(* 275 *) Eval [];
                     (* 276 *) Eval [];
                     (* 277 *) Eval [];
                     (* 278 *) Eval []];
                    (* 280 *) Eval [];
                    (* 281 *) Eval [];
                    (* 282 *) Eval []; Loop [(* 283 *) Eval [];
                     (* 284 *) Eval [];
                     (* 285 *) Eval [];
                     (* 286 *) Eval [];
                     (* 287 *) Eval []]] []];
                  (* 288 *) Eval []; Return];
                 (* 200 *) Eval []; Call [] [] [(* 221 *) Eval []; If Opaque [(* 222 *) Eval [];
                   (* 226 *) Eval []] [(* 227 *) Eval []; If Opaque [(* 228 *) Eval []; Raise] []];
                  (* 229 *) Eval [];
                  (* 230 *) Eval []; Loop [(* 232 *) Eval [];
                   (* 234 *) Eval []];
                  (* 237 *) Eval []; Return];
                 (* 203 *) Eval [];
                 (* 204 *) Eval [];
                 (* 205 *) Eval [];
                 (* 206 *) Eval []; Loop [(* 207 *) Eval [2]; If Opaque [(* 208 *) Eval [2];
                   (* 209 *) Eval [];
                   (* 210 *) Eval [];
                   (* 211 *) Eval []] []];
                 (* 212 *) Eval []; Return]] [If Opaque [Call [] [] [(* 221 *) Eval []; If Opaque [(* 222 *) Eval [];
                   (* 226 *) Eval []] [(* 227 *) Eval []; If Opaque [(* 228 *) Eval []; Raise] []];
                  (* 229 *) Eval [];
                  (* 230 *) Eval []; Loop [(* 232 *) Eval [];
                   (* 234 *) Eval []];
                  (* 237 *) Eval []; Return]] [If Opaque [Call [] [] [(* 253 *) Eval [];
                   (* 257 *) Eval [];
                   (* 258 *) Eval [];
                   (* 259 *) Eval [];
                   (* 260 *) Eval []; Loop [(* 263 *) Eval [];
                    (* 265 *) Eval [];
                    (* 267 *) Eval [];
                    (* 268 *) Eval []; Loop [(* 269 *) Eval [];
                     (* 270 *) Eval []];
                    (* 271 *) Eval []; If Opaque [(* 273 *) Eval [];
                     (* 274 *) Eval []; Loop [(* 275 *) Eval [];
                      (* 276 *) Eval [];
                      (* 277 *) Eval [];
                      (* 278 *) Eval []];
                     (* 280 *) Eval [];
                     (* 281 *) Eval [];
                     (* 282 *) Eval []; Loop [(* 283 *) Eval [];
                      (* 284 *) Eval [];
                      (* 285 *) Eval [];
                      (* 286 *) Eval [];
                      (* 287 *) Eval []]] []];
                   (* 288 *) Eval []; Return]] [If Opaque [Call [] [] [(* 291 *) Eval [2]; Loop [(* 292 *) Eval []];
                    (* 293 *) Eval [];
                    (* 294 *) Eval [2;1;3;4]]] [If Opaque [Call [] [] [(* 300 *) Eval [];
                     (* 301 *) Eval [];
                     (* 302 *) Eval [];
                     (* 303 *) Eval [];
                     (* 304 *) Eval [];
                     (* 305 *) Eval [];
                     (* 306 *) Eval [];
                     (* 307 *) Eval []; Loop [(* 308 *) Eval [];
                      (* 309 *) Eval [];
                      (* 310 *) Eval [];
                      (* 311 *) Eval []];
                     (* 312 *) Eval []; If Opaque [(* 313 *) Eval []; Loop [(* 314 *) Eval []; If Opaque [(* 315 *) Eval []] []];
                      (* 316 *) Eval []] [];
                     (* 317 *) Eval [];
                     (* 318 *) Eval [];
                     (* 319 *) Eval []; Return]] [If Opaque [Call [] [] [(* 330 *) Eval []; Call [] [] [(* 253 *) Eval [];
                       (* 257 *) Eval [];
                       (* 258 *) Eval [];
                       (* 259 *) Eval [];
                       (* 260 *) Eval []; Loop [(* 263 *) Eval [];
                        (* 265 *) Eval [];
                        (* 267 *) Eval [];
                        (* 268 *) Eval []; Loop [(* 269 *) Eval [];
                         (* 270 *) Eval []];
                        (* 271 *) Eval []; If Opaque [(* 273 *) Eval [];
                         (* 274 *) Eval []; Loop [(* 275 *) Eval [];
                          (* 276 *) Eval [];
                          (* 277 *) Eval [];
                          (* 278 *) Eval []];
                         (* 280 *) Eval [];
                         (* 281 *) Eval [];
                         (* 282 *) Eval []; Loop [(* 283 *) Eval [];
                          (* 284 *) Eval [];
                          (* 285 *) Eval [];
                          (* 286 *) Eval [];
                          (* 287 *) Eval []]] []];
                       (* 288 *) Eval []; Return];
                      (* 331 *) Eval [];
                      (* 332 *) Try [(* 333 *) Eval []; Return] []]] [If Opaque [Call [] [] [(* 348 *) Eval []; If Opaque [(* 349 *) Eval []] [(* 350 *) Eval []; If Opaque [(* 351 *) Eval []] [(* 353 *) Eval []; Raise]];
                       (* 355 *) Eval []; Call [] [] [(* 253 *) Eval [];
                        (* 257 *) Eval [];
                        (* 258 *) Eval [];
                        (* 259 *) Eval [];
                        (* 260 *) Eval []; Loop [(* 263 *) Eval [];
                         (* 265 *) Eval [];
                         (* 267 *) Eval [];
                         (* 268 *) Eval []; Loop [(* 269 *) Eval [];
                          (* 270 *) Eval []];
                         (* 271 *) Eval []; If Opaque [(* 273 *) Eval [];
                          (* 274 *) Eval []; Loop [(* 275 *) Eval [];
                           (* 276 *) Eval [];
                           (* 277 *) Eval [];
                           (* 278 *) Eval []];
                          (* 280 *) Eval [];
                          (* 281 *) Eval [];
                          (* 282 *) Eval []; Loop [(* 283 *) Eval [];
                           (* 284 *) Eval [];
                           (* 285 *) Eval [];
                           (* 286 *) Eval [];
                           (* 287 *) Eval []]] []];
                        (* 288 *) Eval []; Return];
                       (* 356 *) Eval []; Call [] [] [(* 221 *) Eval []; If Opaque [(* 222 *) Eval [];
                         (* 226 *) Eval []] [(* 227 *) Eval []; If Opaque [(* 228 *) Eval []; Raise] []];
                        (* 229 *) Eval [];
                        (* 230 *) Eval []; Loop [(* 232 *) Eval [];
                         (* 234 *) Eval []];
                        (* 237 *) Eval []; Return];
                       (* 358 *) Eval [3]; If Opaque [Eval [4;3]] []; If Opaque [Eval [4]] [Eval [3]]; Bind [4];
                       (* 360 *) Eval []; Loop [(* 361 *) Eval []; Call [] [] [(* 146 *) Eval [2]; If Opaque [(* 147 *) Eval [3;2]] [];
                         (* 148 *) Eval [2]]]]] [If Opaque [Call [] [] [(* 371 *) Eval []; Call [] [] [(* 253 *) Eval [];
                         (* 257 *) Eval [];
                         (* 258 *) Eval [];
                         (* 259 *) Eval [];
                         (* 260 *) Eval []; Loop [(* 263 *) Eval [];
                          (* 265 *) Eval [];
                          (* 267 *) Eval [];
                          (* 268 *) Eval []; Loop [(* 269 *) Eval [];
                           (* 270 *) Eval []];
                          (* 271 *) Eval []; If Opaque [(* 273 *) Eval [];
                           (* 274 *) Eval []; Loop [(* 275 *) Eval [];
                            (* 276 *) Eval [];
                            (* 277 *) Eval [];
                            (* 278 *) Eval []];
                           (* 280 *) Eval [];
                           (* 281 *) Eval [];
                           (* 282 *) Eval []; Loop [(* 283 *) Eval [];
                            (* 284 *) Eval [];
                            (* 285 *) Eval [];
                            (* 286 *) Eval [];
                            (* 287 *) Eval []]] []];
                         (* 288 *) Eval []; Return];
                        (* 373 *) Eval [];
                        (* 374 *) Eval []; Loop [(* 376 *) Eval [2]];
                        (* 377 *) Eval []; Return]] []]]]]]]]]]]]]]]]]]] []]] |}.

(** protocol_meta/msg_header.py:68-138. *)
Definition at_FrameHeader : file := {| f_name := "FrameHeader";
  f_vars := ["buffer"];
  f_body :=
   [Call [] [] [(* 72 *) Eval []; If Opaque [(* 73 *) Eval []; Raise] [];
    (* 74 *) Eval []; If Opaque [(* 75 *) Eval []] [(* 76 *) Eval []; If Opaque [(* 77 *) Eval []; Raise] [(* 79 *) Eval []; Raise]];
    (* 81 *) Eval []; Bind [0]]; Loop [Try [If Opaque [Call [] [] [(* 86 *) Eval [0]; Return]] [If Opaque [Call [] [] [(* 91 *) Eval [0]; Return]] [If Opaque [Call [] [] [(* 96 *) Eval [0]; Return]] [If Opaque [Call [] [] [(* 101 *) Eval [0]; Return]] [If Opaque [Call [] [] [(* 106 *) Eval [0]; Return]] [If Opaque [Call [] [] [(* 111 *) Eval [0]; Return]] [If Opaque [Call [] [] [(* 115 *) Eval []; If Opaque [(* 116 *) Eval []; Raise] [];
             (* 117 *) Eval [0]; Return]] [If Opaque [Call [] [] [(* 120 *) Eval []; Call [] [] [(* 96 *) Eval [0]; Return]; Call [] [] [(* 106 *) Eval [0]; Return]; Return]] [If Opaque [Call [] [] [(* 123 *) Eval [0]; Return]] [If Opaque [Call [] [] [(* 133 *) Eval []; If Opaque [(* 134 *) Eval []; Raise] [];
                (* 135 *) Eval [];
                (* 136 *) Eval []; If Opaque [(* 137 *) Eval []] [];
                (* 138 *) Eval []; Return]] []]]]]]]]]]] []]] |}.

(** protocol_meta/protocol_meta.py:20-59. *)
Definition at_MavlinkDialectMeta : file := {| f_name := "MavlinkDialectMeta";
  f_vars := ["stx"; "header_len"; "crc_len"; "msg_ids"; "field_lengths"; "protocol_overhead"; "msgs_payload_length"; "msgs_fields"
    ; "protocol_parser"];
  f_body :=
   [Call [] [] [(* 24 *) Eval []; Bind [0];
    (* 25 *) Eval []; Bind [1];
    (* 26 *) Eval []; Bind [2];
    (* 27 *) Eval []; Bind [3];
    (* 28 *) Eval []; Bind [4];
    (* 29 *) Eval []; Bind [5];
    (* 30 *) Eval []; If Opaque [Call [] [] [(* 55 *) Eval [];
      (* 56 *) Eval []; If Opaque [(* 57 *) Eval []; Raise] [];
      (* 58 *) Eval [];
      (* 59 *) Eval []; If Opaque [Eval [4]] []; Return]] []; Bind [6];
    (* 31 *) Eval []; If Opaque [Call [] [] [(* 41 *) Eval [];
      (* 42 *) Eval []; If Opaque [(* 43 *) Eval []; Raise] [];
      (* 44 *) Eval [];
      (* 45 *) Eval [];
      (* 48 *) Eval [];
      (* 49 *) Eval [];
      (* 50 *) Eval []; Loop [(* 51 *) Eval []];
      (* 52 *) Eval []; Return]] []; Bind [7];
    (* 32 *) Eval []; Bind [8]]; Loop [Try [If Opaque [Call [] [] [(* 41 *) Eval [];
       (* 42 *) Eval []; If Opaque [(* 43 *) Eval []; Raise] [];
       (* 44 *) Eval [];
       (* 45 *) Eval [];
       (* 48 *) Eval [];
       (* 49 *) Eval [];
       (* 50 *) Eval []; Loop [(* 51 *) Eval []];
       (* 52 *) Eval []; Return]] [If Opaque [Call [] [] [(* 55 *) Eval [];
        (* 56 *) Eval []; If Opaque [(* 57 *) Eval []; Raise] [];
        (* 58 *) Eval [];
        (* 59 *) Eval []; If Opaque [Eval [4]] []; Return]] []]] []]] |}.

(** All the classes; the files are named at each. E.g. decoders/decoder.py:18. *)
Definition attr_programs : list file := [at_ClassifyingEntropyDecoder;
  at_ClassifyingDudeDecoder;
  at_CombinedDecoder;
  at_CombinedUnifiedDecoder;
  at_Decoder;
  at_EntropyBitwiseDecoder;
  at_EntropyBitwiseFlippingDecoder;
  at_EntropyBitwiseWeightedDecoder;
  at_MavlinkRectifyingDecoder;
  at_TurboDecoder;
  at_BMM;
  at_BMM_fit;
  at_BufferStructure;
  at_BufferSegmentation;
  at_Cluster;
  at_BufferClassifier;
  at_OnlineDude;
  at_DUDE;
  at_EMLE;
  at_FieldModel;
  at_BufferModel;
  at_FrameHeader;
  at_MavlinkDialectMeta].
