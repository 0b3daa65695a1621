(** Model of the simulations with several decoders, of the logged recovery rates and of the nested errors of the averaged simulation.  The LDPC
    decoders, the decoders with aid (with their memory) and the random choices are parameters. *)
From Coq Require Import List Arith ZArith Bool.
From Verif.Model Require Import Py Float InfoTheory Clustering BitOps DecoderBase Simulation.
Import ListNotations.

Section Many.
Variable FO : fops.
Notation F := (F FO).
Context {St C : Type}.

(** The decoders of a script, in the order of the loop: each has its memory and gets what the channel gives.
    See runs/HC_eilat_July_2018/simulated_data_combined_decoder.py:184-191. *)
Definition machine := St -> C -> res (answer * St).

(** d = decoder.decode...; decoded.append(( *d, hamming_distance(d[0], encoded[tx_idx]))) for each decoder;
    runs/HC_eilat_July_2018/simulated_data_combined_decoder.py:184-191, simulate_gallager_bf.py:115-120, simluated_data_entropy_bf_decoders.py:141-154,
    classifying_entropy_decoder_over_awgn_channel.py:167-170, simulated_data_pretrained_model.py:128-133,
    simulated_data_classifying_dude_decoder.py:136-139, simulated_data_mavlink_decoding.py:167-170. *)
Fixpoint decode_all (ds : list machine) (encoded : list Z) (c : C) (ss : list St) : res (list (answer * Z) * list St) :=
  match ds, ss with
  | d :: ds, s :: ss =>
      do! (a, s') <- d s c in
      do! h <- hamming_distance (HArray (a_estimate a)) (HArray encoded) 8 in
      do! (rows, ss') <- decode_all ds encoded c ss in
      Ok ((a, Z.of_nat h) :: rows, s' :: ss')
  | _, _ => Ok ([], [])
  end.

(** for tx_idx in range(n): the received words and the table of each decoder; same lines. See runs/HC_eilat_July_2018/simulated_data_combined_decoder.py:178-191. *)
Definition word_step (ds : list machine) (channel : nat -> list Z -> res (list Z * C)) (st : list (list Z) * list (list (answer * Z)) * list St) (iw : nat * list Z)
  : res (list (list Z) * list (list (answer * Z)) * list St) :=
  let '(rx, ts, ss) := st in
  do! (corrupted, c) <- channel (fst iw) (snd iw) in
  do! (rows, ss) <- decode_all ds (snd iw) c ss in
  Ok (rx ++ [corrupted], zip_with (fun t r => t ++ [r]) ts rows, ss).
(** All the words; runs/HC_eilat_July_2018/simulated_data_combined_decoder.py:178-191. *)
Definition many_loop (ds : list machine) (channel : nat -> list Z -> res (list Z * C)) (encoded : list (list Z)) (ss : list St)
  : res (list (list Z) * list (list (answer * Z))) :=
  do! (rx, ts, _) <- fold_res (word_step ds channel) (combine (seq 0 (length encoded)) encoded) ([], map (fun _ => []) ds, ss) in
  Ok (rx, ts).

(** The results of one step: each decoder's table with its success rate and bit error rate. See runs/HC_eilat_July_2018/simulated_data_combined_decoder.py:213-243. *)
Record table := Table { t_rows : list (answer * Z); t_rate : F; t_ber : F }.
(** The results of a step; runs/HC_eilat_July_2018/simulated_data_combined_decoder.py:195-243. *)
Record report := Report { rp_raw_ber : F; rp_data : list data_row; rp_tables : list table }.

(** Tables and rates; [columns] are the numbers of columns of the data frames; simulated_data_combined_decoder.py:213-243 (7, 6, 10, 13),
    simulate_gallager_bf.py:130-157 (6, 10, 10), simluated_data_entropy_bf_decoders.py:170-228 (7, 6, 10, 6, 10, 6, 10),
    classifying_entropy_decoder_over_awgn_channel.py:187-207 (7, 10), simulated_data_pretrained_model.py:155-181 (7, 10, 10),
    simulated_data_classifying_dude_decoder.py:157-175 (7, 7), simulated_data_mavlink_decoding.py:190-210 (7, 13). *)
Definition report_of (columns : list nat) (raw : F) (data : list data_row) (encoded : list (list Z)) (ts : list (list (answer * Z))) : res report :=
  do! first <- index encoded 0 in
  if forallb (fun ct => frame_ok (fst ct) (snd ct)) (combine columns ts)
  then Ok (Report raw data (map (fun t => Table t (success_rate FO t (length encoded)) (bit_error_rate FO t (length encoded) (length first))) ts))
  else Err ValueError.
End Many.

Section Channels.
Variable FO : fops.
Notation F := (F FO).
Context {St : Type}.

(** Binary symmetric channel: the decoders get the channel model's values and the positions of the errors; [after] are the logs between the loop
    and the tables; e.g. simulated_data_combined_decoder.py:168-243. *)
Definition simulate_many (columns : list nat) (after : list (list (answer * Z)) -> res unit) (ds : list (@machine St (list F * list nat))) (llr : list Z -> list F)
  (nn k no_errors : nat) (errors : list (list nat)) (encoded : list (list Z)) (ss : list St) : res (report FO) :=
  match encoded with
  | [] => Err ValueError
  | _ =>
    do! (rx, ts) <- many_loop ds (fun i w => do! row <- index errors i in do! c <- flip_at w row in Ok (c, (llr c, row))) encoded ss in
    do! _ <- after ts in
    let data := map (fun er => match er with (en, r, e) =>
                       DataRow en r (ErrIdx e) (count_if (fun i => Nat.ltb i k) e) (count_if (fun i => negb (Nat.ltb i k)) e) end)
                    (combine (combine encoded rx) errors) in
    report_of FO columns (fdiv FO (fz FO (Z.of_nat no_errors)) (fz FO (Z.of_nat nn))) data encoded ts
  end.

(** awgn_llr(sigma): 2 * y / sigma ** 2; classifying_entropy_decoder_over_awgn_channel.py:23-32. *)
Definition awgn_llr (sigma : F) (y : list F) : list F := map (fun v => fdiv FO (fmul FO (fz FO 2) v) (fmul FO sigma sigma)) y.

(** Gaussian noise; [counts] are info_errors and parity_errors of one row of the mask.  The decoders get the noisy values and what the channel model
    makes of them; classifying_entropy_decoder_over_awgn_channel.py:151-207, simluated_data_entropy_bf_decoders.py:126-228. *)
Definition simulate_gauss (counts : list bool -> nat * nat) (columns : list nat) (after : list (list (answer * Z)) -> res unit)
  (ds : list (@machine St (list F * list F))) (llr : list F -> list F)
  (nn : nat) (noise : list (list F)) (encoded : list (list Z)) (ss : list St) : res (report FO) :=
  do! (rx, ts) <- many_loop ds (fun i w => do! x <- index noise i in let y := noisy_word FO x w in Ok (hard FO y, (y, llr y))) encoded ss in
  do! _ <- after ts in
  let rows := zip_with mask_row encoded rx in
  let data := map (fun er => match er with (en, r, e) => DataRow en r (ErrMask e) (fst (counts e)) (snd (counts e)) end) (combine (combine encoded rx) rows) in
  let total := sum_nat (map (count_if (fun b => b)) rows) in
  report_of FO columns (fdiv FO (fdiv FO (fz FO (Z.of_nat total)) (fz FO (Z.of_nat nn))) (fz FO (Z.of_nat (length encoded)))) data encoded ts.

(** np.sum(errors < encoder.k, axis=1) and np.sum(errors >= encoder.k, axis=1) where errors is an array of truth values, 0 or 1 when compared;
    classifying_entropy_decoder_over_awgn_channel.py:179-180. *)
Definition compared_counts (k : nat) (e : list bool) : nat * nat :=
  (count_if (fun b : bool => Nat.ltb (if b then 1 else 0) k) e, count_if (fun b : bool => negb (Nat.ltb (if b then 1 else 0) k)) e).
(** np.sum(errors[:, :encoder.k], axis=1) and np.sum(errors[:, encoder.k:], axis=1); simluated_data_entropy_bf_decoders.py:168-169. *)
Definition sliced_counts (k : nat) (e : list bool) : nat * nat := (count_if (fun b => b) (firstn k e), count_if (fun b => b) (skipn k e)).

(** The number of successes of a table, sum(int(r[-1] == 0) for r in decoded). See simluated_data_entropy_bf_decoders.py:168-169. *)
Definition successes (t : list (answer * Z)) : Z := Z.of_nat (count_if (fun r => (snd r =? 0)%Z) t).
(** The recovery rate logged if the guard holds; simulated_data_combined_decoder.py:201-202, simulated_data_mavlink_decoding.py:176-179,
    classifying_entropy_decoder_over_awgn_channel.py:176-177, simulated_data_pretrained_model.py:141-145 ([guard] is pre_trained_success). *)
Definition recovery_rate (n guard base success : Z) : res (option F) :=
  if (0 <? n - guard)%Z
  then if (n - base =? 0)%Z then Err ZeroDivision else Ok (Some (fdiv FO (fz FO (success - base)%Z) (fz FO (n - base)%Z)))
  else Ok None.
(** The logs of simulated_data_pretrained_model.py:135-145. *)
Definition pretrained_logs (n : Z) (ts : list (list (answer * Z))) : res unit :=
  do! l <- index ts 0 in do! e <- index ts 1 in do! p <- index ts 2 in
  do! _ <- recovery_rate n (successes l) (successes l) (successes e) in
  do! _ <- recovery_rate n (successes p) (successes l) (successes p) in
  Ok tt.
(** The logs of simulated_data_combined_decoder.py:193-202, simulated_data_mavlink_decoding.py:172-179 and
    classifying_entropy_decoder_over_awgn_channel.py:172-177: only the second table is compared. *)
Definition recovery_logs (n : Z) (ts : list (list (answer * Z))) : res unit :=
  do! l <- index ts 0 in do! e <- index ts 1 in
  do! _ <- recovery_rate n (successes l) (successes l) (successes e) in
  Ok tt.

(** errors = error_idx[:, :no_errors]; simulated_data_entropy_bitwise_decoder_weighted_model_averaged.py:136. *)
Definition nested_errors (error_idx : list (list nat)) (no_errors : nat) : list (list nat) := map (firstn no_errors) error_idx.
End Channels.

(** for _ in range(multiply_data): encoded.extend(encoded); e.g. simulated_data_mavlink_decoding.py:91-93. *)
Fixpoint multiplied {A} (times : nat) (l : list A) : list A := match times with 0 => l | S m => multiplied m (l ++ l) end.
