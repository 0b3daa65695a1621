(** Model of the experiments whose decoder with aid is also told where the received word is wrong:
    runs/Feb_2022 and runs/Feb_2023: experimental_mavlink_based.py and experimental_data_unified_decoder.py. *)
From Coq Require Import List Arith NArith ZArith Bool.
From Verif.Model Require Import Py Float InfoTheory Segmentation StatModels Clustering BitOps DecoderBase Rectify MavlinkDecoder CombinedDecoder Simulation.
Import ListNotations.

(** np.where(errors[tx_idx, :] == 1)[0]; runs/Feb_2023/experimental_mavlink_based.py:147. *)
Definition where_one (row : list Z) : list Z := map (fun p => Z.of_nat (fst p)) (filter (fun p => (snd p =? 1)%Z) (combine (seq 0 (length row)) row)).

(** What the decoder is told: always the ones of the row of errors (runs/Feb_2022/experimental_mavlink_based.py:121, runs/Feb_2023/experimental_mavlink_based.py:147), or
    nothing when the sent word is unknown (runs/Feb_2022/experimental_data_unified_decoder.py:129-137, runs/Feb_2023/experimental_data_unified_decoder.py:160-168). *)
Definition tell_always (known : bool) (row : list Z) : list Z := where_one row.
(** errors if the sent bits are known, else None; runs/Feb_2022/experimental_data_unified_decoder.py:129-137, runs/Feb_2023/experimental_data_unified_decoder.py:160-168. *)
Definition tell_known (known : bool) (row : list Z) : option (list Z) := if known then Some (where_one row) else None.

(** The structure that is set for all words: that of the first sent word; runs/Feb_2023/experimental_mavlink_based.py:78-79, 133,
    runs/Feb_2022/experimental_mavlink_based.py:50-51, 107.  np.packbits takes every entry but 0 for a one. *)
Definition first_structure {D} (parser : bytes -> res D) (k : nat) (row : list Z) : res structure :=
  do! (_, _, s) <- segment_buffer parser (pack (firstn k row)) in Ok s.

Section Informed.
Variable FO : fops.
Notation F := (F FO).

(** The loop and the tables; runs/Feb_2022/experimental_mavlink_based.py:108-170, runs/Feb_2023/experimental_mavlink_based.py:134-193,
    runs/Feb_2022/experimental_data_unified_decoder.py:123-180, runs/Feb_2023/experimental_data_unified_decoder.py:154-211.  [columns] are the columns of the second table.
    Simplified as [run_experiment]. *)
Definition run_informed {S E} (ldpc : list F -> res answer) (aided : S -> list F -> E -> res (answer * S)) (tell : bool -> list Z -> E) (columns n k : nat)
  (tx : list (list Z)) (rx : list (list F)) (s : S) : res (experiment FO) :=
  do! (errors, l, a, _) <-
    fold_res (fun st ir => let '(errors, l, a, s) := st in
      do! d <- ldpc (snd ir) in
      do! row <- index tx (fst ir) in
      do! first <- index row 0 in
      let known := (first <? 2)%Z in
      let er := if known then zip_with (fun t h => if (t =? h)%Z then 0%Z else 1%Z) row (hard FO (snd ir)) else map (fun _ => 2%Z) (snd ir) in
      do! h <- distance known d row in
      do! (e, s) <- aided s (snd ir) (tell known er) in
      do! g <- distance known e row in
      Ok (errors ++ [er], l ++ [(d, h)], a ++ [(e, g)], s)) (combine (seq 0 (length rx)) rx) ([], [], [], s) in
  let bad row := match row with [] => false | x :: _ => (x =? 2)%Z end in
  let mark row v := if bad row then (-1)%Z else v in
  let data := map (fun x => match x with (t, r, e) =>
                ExpRow FO t r e (mark t (sum_z (firstn k e))) (mark t (sum_z (skipn k e)))
                       (if bad t then fz FO (-1) else fdiv FO (fz FO (sum_z e)) (fz FO (Z.of_nat n))) end)
              (combine (combine tx rx) errors) in
  if negb (frame_ok columns a) then Err ValueError
  else if negb (frame_ok 7 l) then Err ValueError
  else let good := count_if (fun row => negb (bad row)) tx in
       do! lr <- claimed_rate FO l (length rx) in
       do! ar <- claimed_rate FO a (length rx) in
       do! lb <- known_ber FO l (n * good) in
       do! ab <- known_ber FO a (n * good) in
       Ok (Experiment FO data l a lr ar lb ab).

(** The two kinds of scripts: thirteen columns with the distance, experimental_mavlink_based.py (Feb_2023: 178-182), and six, experimental_data_unified_decoder.py
    (Feb_2023: 199-200). See runs/Feb_2023/experimental_mavlink_based.py:178-182. *)
Definition run_mavlink {S} ldpc (aided : S -> list F -> list Z -> res (answer * S)) := run_informed ldpc aided tell_always 13.
(** With None for the errors of unknown words; runs/Feb_2023/experimental_data_unified_decoder.py:199-200. *)
Definition run_unified {S} ldpc (aided : S -> list F -> option (list Z) -> res (answer * S)) := run_informed ldpc aided tell_known 6.

(** The decoders of the scripts as the loop sees them: an exception ends the run; the tuple has twelve items (mavlink_decoder.py:134-135) or five
    (combined_unified_decoder.py:331). *)
Variable f32_pack : F -> res N.
Variable erf : F -> F.
Variable kl : list F -> list F -> F.
Context {D : Type}.
Variable parser : bytes -> res D.
Variable info_bytes : list Z -> res bytes.
Context {X : Type}.
(** MavlinkRectifyingDecoder.decode_buffer; decoders/mavlink_decoder.py:134-135. *)
Definition md_informed (c : md_conf FO) (ldpc : list F -> res (list Z * list F * bool * Z * X)) (s : md_state FO) (llr : list F) (errors : list Z) : res (answer * md_state FO) :=
  let '(s, r) := md_decode FO f32_pack erf kl parser info_bytes c ldpc s llr errors in
  do! x <- r in let '(((((((((e, _), ok), _), _), _), _), _), _), _, _) := x in Ok (Answer e ok 12, s).
(** CombinedUnifiedDecoder.decode_buffer; decoders/combined_unified_decoder.py:331. *)
Definition co_informed (c : co_conf FO) (ldpc : list F -> res (list Z * list F * bool * Z * X)) (s : co_state FO) (llr : list F) (errors : option (list Z)) : res (answer * co_state FO) :=
  let '(s, r) := co_decode FO f32_pack erf kl parser info_bytes c ldpc s llr errors in
  do! x <- r in let '(((((e, _), ok), _), _), _) := x in Ok (Answer e ok 5, s).
End Informed.
