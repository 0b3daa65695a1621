(** Model of the measurements of the simulation and experiment scripts.  The LDPC decoder, the decoder with aid, the channel model and the random
    choices are parameters. *)
From Coq Require Import List Arith NArith ZArith Bool.
From Verif.Model Require Import Py Float InfoTheory Clustering BitOps DecoderBase.
Import ListNotations.

(** What a decoder returns: the estimate, its own opinion of success (item 2 of the tuple), the number of items of the tuple.
    See runs/HC_eilat_July_2018/simulated_data_classifying_entropy_decoder.py:180-183. *)
Record answer := Answer { a_estimate : list Z; a_success : bool; a_items : nat }.

(** corrupted[errors] = 1 - corrupted[errors];
    runs/HC_eilat_July_2018/simulated_data_classifying_entropy_decoder.py:166-167. *)
Definition flip_at (word : list Z) (idx : list nat) : res (list Z) :=
  do! old <- take word idx in put word idx (map (fun x => 1 - x)%Z old).

(** Sums of integers: sum(...) and np.sum. See runs/HC_eilat_July_2018/simulated_data_classifying_entropy_decoder.py:189-195, 221-224. *)
Definition sum_nat (l : list nat) : nat := fold_right plus 0 l.
(** Sums of booleans; runs/HC_eilat_July_2018/simulated_data_classifying_entropy_decoder.py:185-195, 221-223. *)
Definition count_if {A} (f : A -> bool) (l : list A) : nat := sum_nat (map (fun x => if f x then 1 else 0) l).

(** The column error_idx: indices for the binary symmetric channel, a mask for Gaussian noise.
    See runs/HC_eilat_July_2018/simulated_data_classifying_entropy_decoder.py:124, 134, 178. *)
Inductive error_row := ErrIdx (l : list nat) | ErrMask (l : list bool).

(** A row of the table "data": encoded, corrupted, error_idx, info_errors, parity_errors.
    See runs/HC_eilat_July_2018/simulated_data_classifying_entropy_decoder.py:196-199. *)
Record data_row := DataRow { dr_encoded : list Z; dr_corrupted : list Z; dr_errors : error_row; dr_info : nat; dr_parity : nat }.

(** pd.DataFrame(rows, columns=...): ValueError if the rows have another number of items than there are columns.  Simplified: all rows are assumed to
    be as wide as the widest. See runs/HC_eilat_July_2018/simulated_data_classifying_entropy_decoder.py:206-217. *)
Definition frame_ok (columns : nat) (rows : list (answer * Z)) : bool :=
  match rows with [] => true | _ => Nat.eqb (S (fold_right Nat.max 0 (map (fun r => a_items (fst r)) rows))) columns end.

Section Simulation.
Variable FO : fops.
Notation F := (F FO).

(** step_results; runs/HC_eilat_July_2018/simulated_data_classifying_entropy_decoder.py:163, 191-224. *)
Record step := Step { st_raw_ber : F; st_data : list data_row; st_ldpc : list (answer * Z); st_aided : list (answer * Z);
  st_ldpc_rate : F; st_ldpc_ber : F; st_aided_rate : F; st_aided_ber : F }.

(** The body of the loop after the channel: both decoders get the same values; the distances to the encoded word;
    simulated_data_classifying_entropy_decoder.py:180-183. *)
Definition decode_both {S} (ldpc : list F -> res answer) (aided : S -> list F -> res (answer * S)) (encoded : list Z) (llr : list F) (s : S)
  : res ((answer * Z) * (answer * Z) * S) :=
  do! d <- ldpc llr in
  do! h <- hamming_distance (HArray (a_estimate d)) (HArray encoded) 8 in
  do! (e, s) <- aided s llr in
  do! g <- hamming_distance (HArray (a_estimate e)) (HArray encoded) 8 in
  Ok ((d, Z.of_nat h), (e, Z.of_nat g), s).

(** The loop over the words; [channel i word] is what is received for the i-th word: the hard decisions and the values for the decoders;
    simulated_data_classifying_entropy_decoder.py:164-184. *)
Definition sim_loop {S} (ldpc : list F -> res answer) (aided : S -> list F -> res (answer * S)) (channel : nat -> list Z -> res (list Z * list F))
  (encoded : list (list Z)) (s : S) : res (list (list Z) * list (answer * Z) * list (answer * Z)) :=
  do! (rx, l, a, _) <-
    fold_res (fun st iw => let '(rx, l, a, s) := st in
      do! (corrupted, llr) <- channel (fst iw) (snd iw) in
      do! (dl, da, s) <- decode_both ldpc aided (snd iw) llr s in
      Ok (rx ++ [corrupted], l ++ [dl], a ++ [da], s)) (combine (seq 0 (length encoded)) encoded) ([], [], [], s) in
  Ok (rx, l, a).

(** success rate and bit error rate; simulated_data_classifying_entropy_decoder.py:221-224. *)
Definition success_rate (rows : list (answer * Z)) (n : nat) : F :=
  fdiv FO (fz FO (Z.of_nat (count_if (fun r => (snd r =? 0)%Z) rows))) (fz FO (Z.of_nat n)).
(** The bit error rate; runs/HC_eilat_July_2018/simulated_data_classifying_entropy_decoder.py:222, 224. *)
Definition bit_error_rate (rows : list (answer * Z)) (n len : nat) : F :=
  fdiv FO (fz FO (fold_right Z.add 0%Z (map snd rows))) (fz FO (Z.of_nat (n * len))).

(** The tables and rates; simulated_data_classifying_entropy_decoder.py:188-224. *)
Definition summary (columns : nat) (raw_ber : F) (data : list data_row) (encoded : list (list Z)) (l a : list (answer * Z)) : res step :=
  do! first <- index encoded 0 in
  if negb (frame_ok 10 a) then Err ValueError
  else if negb (frame_ok columns l) then Err ValueError
  else let n := length encoded in
       Ok (Step raw_ber data l a (success_rate l n) (bit_error_rate l n (length first)) (success_rate a n) (bit_error_rate a n (length first))).

(** simulation_step over the binary symmetric channel; simulated_data_classifying_entropy_decoder.py:121-127, 165-168, 180-183, 188-224.
    [nn] and [k] are encoder.n and encoder.k, [errors] the rows drawn (no_errors each), [llr] the channel model. *)
Definition simulate_bsc {S} (ldpc : list F -> res answer) (aided : S -> list F -> res (answer * S)) (llr : list Z -> list F)
  (nn k no_errors : nat) (errors : list (list nat)) (encoded : list (list Z)) (s : S) : res step :=
  match encoded with
  | [] => Err ValueError
  | _ =>
    do! (rx, l, a) <- sim_loop ldpc aided (fun i w => do! row <- index errors i in do! c <- flip_at w row in Ok (c, llr c)) encoded s in
    let data := map (fun er => match er with (en, r, e) =>
                       DataRow en r (ErrIdx e) (count_if (fun i => Nat.ltb i k) e) (count_if (fun i => negb (Nat.ltb i k)) e) end)
                    (combine (combine encoded rx) errors) in
    summary 7 (fdiv FO (fz FO (Z.of_nat no_errors)) (fz FO (Z.of_nat nn))) data encoded l a
  end.

(** simulation_step with Gaussian noise; simulated_data_classifying_entropy_decoder.py:128-134, 169-178, 180-183, 188-224.  [noise] are the rows
    sigma * rng.normal(size).  The noisy values themselves are given to the decoders. *)
Definition noisy_word (noise : list F) (w : list Z) : list F := zip_with (fun c x => fadd FO (fz FO (1 - 2 * c)) x) w noise.
(** A row of the table for Gaussian noise; runs/HC_eilat_July_2018/simulated_data_classifying_entropy_decoder.py:193-199. *)
Definition mask_row (w corrupted : list Z) : list bool := zip_with (fun c r => negb (Z.lxor c r =? 0)%Z) w corrupted.
(** The whole step; runs/HC_eilat_July_2018/simulated_data_classifying_entropy_decoder.py:128-134, 169-178, 192-224. *)
Definition simulate_awgn {S} (ldpc : list F -> res answer) (aided : S -> list F -> res (answer * S))
  (nn k : nat) (noise : list (list F)) (encoded : list (list Z)) (s : S) : res step :=
  do! (rx, l, a) <- sim_loop ldpc aided (fun i w => do! x <- index noise i in let y := noisy_word x w in Ok (hard FO y, y)) encoded s in
  let rows := zip_with mask_row encoded rx in
  let data := map (fun er => match er with (en, r, e) =>
                     DataRow en r (ErrMask e) (count_if (fun b => b) (firstn k e)) (count_if (fun b => b) (skipn k e)) end)
                  (combine (combine encoded rx) rows) in
  let total := sum_nat (map (count_if (fun b => b)) rows) in
  summary 6 (fdiv FO (fdiv FO (fz FO (Z.of_nat total)) (fz FO (Z.of_nat nn))) (fz FO (Z.of_nat (length encoded)))) data encoded l a.

(** The experiments: words of which the sent bits are known (first entry below 2) or not; runs/Feb_2022/experimental_data_run.py:98-152,
    runs/Feb_2023/experimental_data_run_feb_23.py:125-179.  errors is an array of floats, initially 2; here a row of numbers.  The values of
    info_errors, parity_errors and input_ber. *)
Record exp_row := ExpRow { er_sent : list Z; er_llr : list F; er_errors : list Z; er_info : Z; er_parity : Z; er_ber : F }.
(** The results; runs/Feb_2022/experimental_data_run.py:98-152. *)
Record experiment := Experiment { ex_data : list exp_row; ex_ldpc : list (answer * Z); ex_aided : list (answer * Z);
  ex_ldpc_rate : F; ex_aided_rate : F; ex_ldpc_ber : F; ex_aided_ber : F }.
(** np.sum; runs/Feb_2022/experimental_data_run.py:98-152. *)
Definition sum_z (l : list Z) : Z := fold_right Z.add 0%Z l.
(** hamming_distance, or 2 of a word that is not known; runs/Feb_2022/experimental_data_run.py:98-152. *)
Definition distance (known : bool) (d : answer) (sent : list Z) : res Z :=
  if known then do! h <- hamming_distance (HArray (a_estimate d)) (HArray sent) 8 in Ok (Z.of_nat h) else Ok (-1)%Z.
(** The rate of claimed successes; runs/Feb_2022/experimental_data_run.py:98-152. *)
Definition claimed_rate (rows : list (answer * Z)) (n : nat) : res F :=
  if Nat.eqb n 0 then Err ZeroDivision
  else Ok (fdiv FO (fz FO (Z.of_nat (count_if (fun r => a_success (fst r)) rows))) (fz FO (Z.of_nat n))).
(** The bit error rate of the known words; runs/Feb_2022/experimental_data_run.py:98-152. *)
Definition known_ber (rows : list (answer * Z)) (bits : nat) : res F :=
  if Nat.eqb bits 0 then Err ZeroDivision
  else Ok (fdiv FO (fz FO (sum_z (filter (fun h => (0 <=? h)%Z) (map snd rows)))) (fz FO (Z.of_nat bits))).
(** The whole run; runs/Feb_2022/experimental_data_run.py:98-152. *)
Definition run_experiment {S} (ldpc : list F -> res answer) (aided : S -> list F -> res (answer * S)) (n k : nat)
  (tx : list (list Z)) (rx : list (list F)) (s : S) : res experiment :=
  do! (errors, l, a, _) <-
    fold_res (fun st ir => let '(errors, l, a, s) := st in
      do! d <- ldpc (snd ir) in
      do! row <- index tx (fst ir) in
      do! first <- index row 0 in
      let known := (first <? 2)%Z in
      let er := if known then zip_with (fun t h => if (t =? h)%Z then 0%Z else 1%Z) row (hard FO (snd ir)) else map (fun _ => 2%Z) (snd ir) in
      do! h <- distance known d row in
      do! (e, s) <- aided s (snd ir) in
      do! g <- distance known e row in
      Ok (errors ++ [er], l ++ [(d, h)], a ++ [(e, g)], s)) (combine (seq 0 (length rx)) rx) ([], [], [], s) in
  let bad row := match row with [] => false | x :: _ => (x =? 2)%Z end in
  let mark row v := if bad row then (-1)%Z else v in
  let data := map (fun x => match x with (t, r, e) =>
                ExpRow t r e (mark t (sum_z (firstn k e))) (mark t (sum_z (skipn k e)))
                       (if bad t then fz FO (-1) else fdiv FO (fz FO (sum_z e)) (fz FO (Z.of_nat n))) end)
              (combine (combine tx rx) errors) in
  if negb (frame_ok 10 a) then Err ValueError
  else if negb (frame_ok 7 l) then Err ValueError
  else let good := count_if (fun row => negb (bad row)) tx in
       do! lr <- claimed_rate l (length rx) in
       do! ar <- claimed_rate a (length rx) in
       do! lb <- known_ber l (n * good) in
       do! ab <- known_ber a (n * good) in
       Ok (Experiment data l a lr ar lb ab).
End Simulation.
