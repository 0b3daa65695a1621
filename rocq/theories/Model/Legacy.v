(** Model of the oldest simulations, with the entropy decoder and the flipping decoder of single bits:
    runs/HC_eilat_July_2018/simulated_data_entropy_bitwise_decoder_script.py, simulated_data_entropy_bitwise_decoder_script_mp.py and simulated_data_entropy_bitwise_decoder_predefined_model.py.  The LDPC library, the channel
    model and the random choices are parameters. *)
From Coq Require Import List Arith NArith ZArith Bool.
From Verif.Model Require Import Py Float InfoTheory Clustering BitOps Segmentation DecoderBase EntropyDecoder Simulation SimVariants Workers.
Import ListNotations.

(** An item of a row of results: a number, or an array (of numbers). See decoders/entropy_bitwise_decoder.py:68, 79. *)
Inductive item := INum (z : Z) | IArr (l : list Z).
(** int(x == 0): the comparison of an array is an array, and int of an array raises TypeError unless it has one element;
    simulated_data_entropy_bitwise_decoder_script_mp.py:127. *)
Definition zero_flag (x : item) : res Z :=
  match x with
  | INum z => Ok (if (z =? 0)%Z then 1%Z else 0%Z)
  | IArr [z] => Ok (if (z =? 0)%Z then 1%Z else 0%Z)
  | IArr _ => Err TypeError
  end.
(** corrupted[idx] = not corrupted[idx] for idx in error_idx, one after the other; simulated_data_entropy_bitwise_decoder_script_mp.py:112-116. *)
Definition toggle (word : list Z) (idx : list nat) : res (list Z) :=
  fold_res (fun w i => do! b <- index w i in Ok (set_nth w i (if (b =? 0)%Z then 1%Z else 0%Z))) idx word.

(** padded = binary_data + Bits(uint=random.getrandbits(pad_len), length=pad_len); encoded.append(encoder.encode(padded)): a negative number of bits
    raises ValueError, none CreationError; [random i l] are the bits drawn for the i-th buffer; simulated_data_entropy_bitwise_decoder_script_mp.py:52-56, simulated_data_entropy_bitwise_decoder_script.py:51-55,
    simulated_data_entropy_bitwise_decoder_predefined_model.py:50-54. *)
Fixpoint encode_padded (encode : list bool -> res (list Z)) (random : nat -> nat -> list bool) (k i : nat) (buffers : list (list bool)) : res (list (list Z)) :=
  match buffers with
  | [] => Ok []
  | b :: rest =>
      if Nat.ltb k (length b) then Err ValueError
      else if Nat.eqb k (length b) then Err CreationError
      else do! w <- encode (b ++ random i (k - length b)) in
           do! ws <- encode_padded encode random k (S i) rest in
           Ok (w :: ws)
  end.

Section Legacy.
Variable FO : fops.
Notation F := (F FO).
Context {D : Type}.
Variable parser : bytes -> res D.

(** What decode of the LDPC library returns: estimate, llr, success, number of iterations, and further items ([t_more]); the decoders of the project
    expect the syndrome and an array with a number for each bit (vnode_validity); decoders/entropy_bitwise_decoder.py:68. *)
Record tuple := Tuple { t_estimate : list Z; t_llr : list F; t_success : bool; t_iterations : Z; t_more : list item }.
(** estimate, llr, decode_success, iterations, syndrome, vnode_validity = ...: ValueError for another number of items;
    decoders/entropy_bitwise_decoder.py:68, 79, 178, 189. *)
Definition unpack_six (t : tuple) : res (list Z * list F * bool * Z) :=
  if Nat.eqb (length (t_more t)) 2 then Ok (t_estimate t, t_llr t, t_success t, t_iterations t) else Err ValueError.

(** A row of the lists of results: the four first items and the items from number 4 on. See decoders/entropy_bitwise_decoder.py:68, 79, 178, 189. *)
Record row := Row { r_estimate : list Z; r_llr : list F; r_success : bool; r_iterations : Z; r_more : list item }.
(** res[5] and res[-1]; simulated_data_entropy_bitwise_decoder_script_mp.py:127-131, simulated_data_entropy_bitwise_decoder_predefined_model.py:126-130. *)
Definition item_five (r : row) : res item := index (r_more r) 1.
(** t[-1]; runs/HC_eilat_July_2018/simulated_data_entropy_bitwise_decoder_script_mp.py:127-131. *)
Definition item_last (r : row) : res item := match rev (r_more r) with x :: _ => Ok x | [] => Ok (INum (r_iterations r)) end.
(** sum(int(res[...] == 0) for res in rows); same lines. See simulated_data_entropy_bitwise_decoder_script_mp.py:132-156. *)
Definition recovered (pick : row -> res item) (rows : list row) : res Z :=
  do! l <- map_res (fun r => do! x <- pick r in zero_flag x) rows in Ok (sum_z l).

(** hamming_distance(Bits(auto=estimate), encoded[tx_idx]); simulated_data_entropy_bitwise_decoder_script_mp.py:121. *)
Definition wrong_bits (estimate encoded : list Z) : res Z := do! h <- hamming_distance (HArray estimate) (HArray encoded) 8 in Ok (Z.of_nat h).

(** The decoders of one step: the library's decoder of channel values, its decoder of hard bits, the bytes of the information bits of a word, the channel
    model, and the two decoders of the project. See runs/HC_eilat_July_2018/simulated_data_entropy_bitwise_decoder_script_mp.py:88-126. *)
Record tools := Tools { tl_soft : list F -> res tuple; tl_hard : list Z -> res tuple; tl_info : list Z -> bytes; tl_llr : list Z -> list F;
  tl_entropy : ed_conf FO; tl_flipping : ed_conf FO }.

(** entropy_decoder.decode_buffer and entropy_flipping_decoder.decode_buffer on what the library returns.
    See simulated_data_entropy_bitwise_decoder_script_mp.py:110-126; simulated_data_entropy_bitwise_decoder_script.py:102-124; simulated_data_entropy_bitwise_decoder_predefined_model.py:109-125. *)
Definition soft_decode (tl : tools) (m : entropy_model FO) (word : list F) : entropy_model FO * res (list Z * list F * bool * Z * nat) :=
  ed_decode FO parser (tl_entropy tl) (ed_predict FO (tl_entropy tl)) (fun w => do! t <- tl_soft tl w in unpack_six t) m word.
(** The second of them; runs/HC_eilat_July_2018/simulated_data_entropy_bitwise_decoder_script_mp.py:110-126. *)
Definition hard_decode (tl : tools) (m : entropy_model FO) (word : list Z) : entropy_model FO * res (list Z * list F * bool * Z * nat) :=
  ed_decode FO parser (tl_flipping tl) (ed_flip FO (tl_flipping tl)) (fun w => do! t <- tl_hard tl w in unpack_six t) m word.

(** decoded.append(( *d, hamming_distance(Bits(auto=d[0]), encoded[tx_idx]))) for the decoders of the project; simulated_data_entropy_bitwise_decoder_script_mp.py:123, 125. *)
Definition aided_row (d : list Z * list F * bool * Z * nat) (encoded : list Z) : res row :=
  let '(estimate, llr, success, iterations, messages) := d in
  do! h <- wrong_bits estimate encoded in
  Ok (Row estimate llr success iterations [INum (Z.of_nat messages); INum h]).
(** decoded_ldpc.append(( *d, len(s), hamming_distance(...))); simulated_data_entropy_bitwise_decoder_script_mp.py:118-121. *)
Definition plain_row (tl : tools) (d : tuple) (encoded : list Z) : res row :=
  do! (_, _, structure) <- segment_buffer parser (tl_info tl (t_estimate d)) in
  do! h <- wrong_bits (t_estimate d) encoded in
  Ok (Row (t_estimate d) (t_llr d) (t_success d) (t_iterations d) (t_more d ++ [INum (Z.of_nat (length structure)); INum h])).

(** for tx_idx in range(n): the received word and the three rows; simulated_data_entropy_bitwise_decoder_script_mp.py:110-126, simulated_data_entropy_bitwise_decoder_script.py:102-124, simulated_data_entropy_bitwise_decoder_predefined_model.py:109-125. *)
Fixpoint legacy_loop (tl : tools) (errors : list (list nat)) (encoded : list (list Z)) (me mf : entropy_model FO)
  : res (list (list Z * row * row * row)) :=
  match encoded, errors with
  | [], _ => Ok []
  | _ :: _, [] => Err IndexError   (* a row of errors is drawn for each word *)
  | w :: ws, e :: es =>
      do! corrupted <- toggle w e in
      let llr := tl_llr tl corrupted in
      do! d <- tl_soft tl llr in
      do! rl <- plain_row tl d w in
      let '(me, d) := soft_decode tl me llr in
      do! d <- d in
      do! re <- aided_row d w in
      let '(mf, d) := hard_decode tl mf corrupted in
      do! d <- d in
      do! rf <- aided_row d w in
      do! rest <- legacy_loop tl es ws me mf in
      Ok ((corrupted, rl, re, rf) :: rest)
  end.

(** One table of a step with its rates; simulated_data_entropy_bitwise_decoder_script_mp.py:132-156. *)
Record legacy_table := LTable { lt_rows : list row; lt_rate : F; lt_ber : F }.
(** The results of a step; runs/HC_eilat_July_2018/simulated_data_entropy_bitwise_decoder_script_mp.py:132-156. *)
Record legacy_report := LReport { lr_data : list (list bool); lr_encoded : list (list Z); lr_rx : list (list Z); lr_raw_ber : F; lr_len : nat;
  lr_ldpc : legacy_table; lr_entropy : legacy_table; lr_flipping : legacy_table; lr_n : nat }.
(** One table; runs/HC_eilat_July_2018/simulated_data_entropy_bitwise_decoder_script_mp.py:132-156. *)
Definition legacy_table_of (pick : row -> res item) (encoded : list (list Z)) (rows : list row) : res legacy_table :=
  let n := length encoded in
  do! s <- recovered pick rows in
  if Nat.eqb n 0 then Err ZeroDivision
  else
    do! first <- index encoded 0 in
    do! hs <- map_res (fun er => wrong_bits (r_estimate (snd er)) (fst er)) (combine encoded rows) in
    if Nat.eqb (n * length first) 0 then Err ZeroDivision
    else Ok (LTable rows (fdiv FO (fz FO s) (fz FO (Z.of_nat n))) (fdiv FO (fz FO (sum_z hs)) (fz FO (Z.of_nat (n * length first))))).

(** simulation_step, with the errors drawn; [nn] is encoder.n.  The three numbers printed first are those of the rates; simulated_data_entropy_bitwise_decoder_script_mp.py:88-160,
    simulated_data_entropy_bitwise_decoder_script.py:86-157, simulated_data_entropy_bitwise_decoder_predefined_model.py:83-162. *)
Definition legacy_step (pick : row -> res item) (tl : tools) (me mf : entropy_model FO) (data : list (list bool)) (nn no_errors : nat)
  (encoded : list (list Z)) (errors : list (list nat)) : res legacy_report :=
  do! t <- legacy_loop tl errors encoded me mf in
  let rx := map (fun x => fst (fst (fst x))) t in
  let l := map (fun x => snd (fst (fst x))) t in
  let e := map (fun x => snd (fst x)) t in
  let f := map snd t in
  do! _ <- recovered pick l in
  do! _ <- recovered pick e in
  do! _ <- recovered pick f in
  do! tab_l <- legacy_table_of pick encoded l in
  do! tab_e <- legacy_table_of pick encoded e in
  do! tab_f <- legacy_table_of pick encoded f in
  do! first <- index encoded 0 in
  Ok (LReport (firstn (length encoded) data) encoded rx (fdiv FO (fz FO (Z.of_nat no_errors)) (fz FO (Z.of_nat nn))) (length first) tab_l tab_e tab_f
        (length encoded)).

(** What the scripts are told: the buffers, --N, the encoder, and what their decoders are made of (info_idx of the library, threshold, clipping,
    min_data, window). See runs/HC_eilat_July_2018/simulated_data_entropy_bitwise_decoder_script_mp.py:20-85. *)
Record setting := Setting { se_k : nat; se_nn : nat; se_encode : list bool -> res (list Z); se_random : nat -> nat -> list bool;
  se_soft : list F -> res tuple; se_hard : F -> list Z -> res tuple; se_info : list Z -> bytes; se_llr : F -> list Z -> list F; se_idx : list bool;
  se_threshold : F; se_clip : F; se_min : Z; se_window : option Z; se_size : F -> nat }.
(** n = args.N if args.N > 0 else len(five_sec_bin); simulated_data_entropy_bitwise_decoder_script_mp.py:45, simulated_data_entropy_bitwise_decoder_predefined_model.py:44. *)
Definition wanted (n : Z) (buffers : list (list bool)) : nat := if (0 <? n)%Z then Z.to_nat n else length buffers.
(** The decoders of a step; runs/HC_eilat_July_2018/simulated_data_entropy_bitwise_decoder_script_mp.py:88-109. *)
Definition tools_of (se : setting) (ent flip : ed_conf FO) (p : F) : tools :=
  Tools (se_soft se) (se_hard se p) (se_info se) (se_llr se p) ent flip.

(** The step of simulated_data_entropy_bitwise_decoder_script.py:86-157 and simulated_data_entropy_bitwise_decoder_script_mp.py:88-160 for level [p]; model_length = len(five_sec_bin[0]). *)
Definition learning_step (se : setting) (buffers : list (list bool)) (encoded : list (list Z)) (model_length : nat) (p : F) (errors : list (list nat))
  : res legacy_report :=
  let '(ent, me) := ed_init FO (se_idx se) model_length (se_threshold se) (se_clip se) (se_min se) (se_window se) None in
  let '(flip, mf) := ed_init FO (se_idx se) model_length (se_threshold se) (se_clip se) (se_min se) (se_window se) None in
  legacy_step item_five (tools_of se ent flip p) me mf buffers (se_nn se) (se_size se p) encoded errors.

(** What precedes the levels; simulated_data_entropy_bitwise_decoder_script_mp.py:44-59, simulated_data_entropy_bitwise_decoder_script.py:43-58. *)
Definition legacy_prepare (se : setting) (n : Z) (buffers : list (list bool)) : res (list (list Z) * nat) :=
  do! encoded <- encode_padded (se_encode se) (se_random se) (se_k se) 0 (firstn (wanted n buffers) buffers) in
  do! first <- index buffers 0 in
  Ok (encoded, length first).

(** for p in bit_flip_p: ...; the files are written after the last level; simulated_data_entropy_bitwise_decoder_script.py:86-195.  [choice] draws error positions, [g] is the state of the
    generator. *)
Fixpoint legacy_levels {G} (choice : G -> nat -> nat -> list nat * G) (se : setting) (buffers : list (list bool)) (encoded : list (list Z)) (ml : nat)
  (g : G) (levels : list F) : res (list legacy_report) :=
  match levels with
  | [] => Ok []
  | p :: levels =>
      let '(errors, g) := error_rows choice (se_nn se) (se_size se p) (length encoded) g in
      do! r <- learning_step se buffers encoded ml p errors in
      do! rs <- legacy_levels choice se buffers encoded ml g levels in
      Ok (r :: rs)
  end.
(** The whole script; runs/HC_eilat_July_2018/simulated_data_entropy_bitwise_decoder_script.py:43-195. *)
Definition legacy_script {G} (choice : G -> nat -> nat -> list nat * G) (se : setting) (n : Z) (buffers : list (list bool)) (g : G) (levels : list F)
  : res (list legacy_report) :=
  do! (encoded, ml) <- legacy_prepare se n buffers in
  legacy_levels choice se buffers encoded ml g levels.

(** pool.map(simulation_step, bit_flip_p) of simulated_data_entropy_bitwise_decoder_script_mp.py:163-165, for a schedule of the worker processes. *)
Definition legacy_pool {G} (choice : G -> nat -> nat -> list nat * G) (se : setting) (buffers : list (list bool)) (encoded : list (list Z)) (ml workers : nat)
  (init : nat -> G) (levels : list F) (sched : list nat) (r : res (list legacy_report)) : Prop :=
  pool_map (flip_step choice (se_size se) (se_nn se) (length encoded) (learning_step se buffers encoded ml)) workers init levels sched r.

(** simulated_data_entropy_bitwise_decoder_predefined_model.py:44-63: the words, each sent eight times, and the given model of [cols] columns. *)
Definition predefined_words (se : setting) (n : Z) (buffers : list (list bool)) : res (list (list Z)) :=
  do! encoded <- encode_padded (se_encode se) (se_random se) (se_k se) 0 (firstn (wanted n buffers) buffers) in
  Ok (multiplied 3 encoded).
(** The step of simulated_data_entropy_bitwise_decoder_predefined_model.py:83-166. *)
Definition predefined_step (se : setting) (model : list (list F)) (cols : nat) (buffers : list (list bool)) (encoded : list (list Z)) (p : F)
  (errors : list (list nat)) : res legacy_report :=
  let '(ent, me) := ed_init FO (se_idx se) (length model) (se_threshold se) (se_clip se) 0 None (Some (model, cols)) in
  let '(flip, mf) := ed_init FO (se_idx se) (length model) (se_threshold se) (se_clip se) 0 None (Some (model, cols)) in
  legacy_step item_last (tools_of se ent flip p) me mf buffers (se_nn se) (se_size se p) encoded errors.
End Legacy.
