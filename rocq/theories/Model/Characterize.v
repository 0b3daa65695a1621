(** The analysis of the classifier of fields; scripts/classifier_analysis.py.
    Simplified throughout: bits are 0 or 1; a set of field numbers is the ascending list of its elements; the log is not modelled. *)
From Coq Require Import String List ZArith NArith Bool.
From Verif.Model Require Import Py Float ProtocolMeta Segmentation StatModels InfoTheory Clustering Perf DecoderBase Rectify Simulation.
Import ListNotations.

Section Characterize.
Variable FO : fops.
Notation F := (F FO).
Variable f32_pack : F -> res N.
Variable erf : F -> F.

(** true positive, false positive, true negative, false negative, positive, negative; classifier_analysis.py:138-139, 145-146, 172-173. *)
Definition performance (tp fp positive negative : Z) : list Z := [tp; fp; negative - fp; positive - tp; positive; negative]%Z.

(** What classifier_characterization returns; scripts/classifier_analysis.py:107-150. *)
Record field_report := FieldReport { fr_good_bits : list bool; fr_bad_bits : list bool; fr_good : list nat; fr_bad : list nat;
  fr_fields : nat; fr_damaged : nat; fr_good_performance : list Z; fr_bad_performance : list Z }.

(** classifier_characterization; classifier_analysis.py:107-150. *)
Definition classifier_characterization (vf : list (option (string * F * F))) (vb : list (option F)) (thr : F) (damaged : list Z) : res field_report :=
  let high := fsub FO (fz FO 1) thr in
  do! good <- fields_where FO (above FO high) vf in
  do! bad <- fields_where FO (below FO thr) vf in
  let hit i := existsb (Z.eqb (Z.of_nat i)) damaged in
  let good_false := Z.of_nat (count_if hit good) in
  let good_true := Z.of_nat (count_if (fun i => negb (hit i)) good) in
  let bad_true := Z.of_nat (count_if hit bad) in
  let bad_false := Z.of_nat (count_if (fun i => negb (hit i)) bad) in
  let nf := Z.of_nat (length vf) in
  let nd := Z.of_nat (length damaged) in
  Ok (FieldReport (map (above FO high) vb) (map (below FO thr) vb) good bad (length vf) (length damaged)
        (performance good_true good_false (nf - nd) nd) (performance bad_true bad_false nd (nf - nd))).

(** [idx for idx, vfp in enumerate(valid_field_p) if vfp[1] <= 0 and vfp[2] == 0]; classifier_analysis.py:163. *)
Definition forced_fields_of (vf : list (option (string * F * F))) : res (list nat) :=
  do! l <- map_res (fun e : option (string * F * F) => match e with Some (_, v, d) => Ok (fle FO v (fz FO 0) && feq FO d (fz FO 0))%bool | None => Err TypeError end) vf in
  Ok (flatnonzero l).

(** What forcing_characterization returns; scripts/classifier_analysis.py:153-211. *)
Record force_report := ForceReport { fo_fields : list nat; fo_bits : list nat; fo_bits_ok : list Z; fo_bits_bad : list Z; fo_bits_missed : list Z;
  fo_fields_ok : list Z; fo_fields_bad : list Z; fo_fields_missed : list Z; fo_bits_performance : list Z; fo_fields_performance : list Z;
  fo_quality : list F; fo_flips_performance : list Z }.

(** forcing_characterization; classifier_analysis.py:153-211.  The model after the call (its statistics are refreshed) and the report. *)
Definition forcing_characterization (vf : list (option (string * F * F))) (vb sd : list (option F)) (s : structure) (damaged : list Z) (errors : list Z)
  (m : buffer_model FO) (rx tx : list Z) : res (buffer_model FO * force_report) :=
  let n := length rx in
  let bits := forced_wrong FO vb sd in
  let zbits := map Z.of_nat bits in
  let bits_ok := intersect1d zbits errors in
  let bits_bad := setdiff1d zbits errors in
  let bits_missed := setdiff1d errors zbits in
  do! fields <- forced_fields_of vf in
  let zfields := map Z.of_nat fields in
  let fields_ok := intersect1d zfields damaged in
  let fields_bad := setdiff1d zfields damaged in
  let fields_missed := setdiff1d damaged zfields in
  let ne := Z.of_nat (length errors) in
  let nd := Z.of_nat (length damaged) in
  let size {A} (l : list A) := Z.of_nat (length l) in
  let bits_performance := performance (size bits_ok) (size bits_bad) ne (Z.of_nat n - ne) in
  let fields_performance := performance (size fields_ok) (size fields_bad) nd (size vf - nd) in
  do! (m, model_bits) <- bitwise_model_mean FO f32_pack m zbits (Nat.div n 8) s in
  do! received <- take rx bits in
  let changed := map (fun br : bool * Z => negb (Z.eqb (snd br) (if fst br then 1 else 0)%Z)) (combine model_bits received) in
  let flipped := map Z.of_nat (map fst (filter snd (combine bits changed))) in
  let flips_ok := intersect1d flipped errors in
  let flips_bad := setdiff1d flipped errors in
  do! last <- match bits with
              | [] => Ok (fz FO 0)
              | _ => do! sent <- take tx bits in
                     Ok (fdiv FO (fz FO (Z.of_nat (count_if (fun bt : bool * Z => negb (Z.eqb (snd bt) (if fst bt then 1 else 0)%Z)) (combine model_bits sent)))) (fz FO (size bits)))
              end in
  let quality := [fz FO ne; fz FO (size bits); fz FO (size flipped); fz FO (size flips_ok); fz FO (size flips_bad); last] in
  Ok (m, ForceReport fields bits bits_ok bits_bad bits_missed fields_ok fields_bad fields_missed bits_performance fields_performance quality
           (performance (size flips_ok) (size flips_bad) ne (Z.of_nat n - ne))).

(** One word: the corrupted word, the damaged fields and both reports; classifier_analysis.py:274-312.  find_damaged_fields returns None after an
    IndexError, which cannot be iterated over. *)
Definition characterize_word (thr : F) (m : buffer_model FO) (s : structure) (sent : list Z) (errors : list nat)
  : res (buffer_model FO * (list Z * list Z * field_report * force_report)) :=
  do! corrupted <- flip_at sent errors in
  do! (m, vf, vb, sd) <- predict FO erf m (BBits (map (Z.eqb 1) corrupted)) s in
  let zerrors := map Z.of_nat errors in
  do! found <- find_damaged_fields zerrors s (Nat.div (length corrupted) 8) in
  do! damaged <- match found with Some l => Ok (unique (map (fun nf => Z.of_nat (snd nf)) l)) | None => Err TypeError end in
  do! cl <- classifier_characterization vf vb thr damaged in
  do! (m, fo) <- forcing_characterization vf vb sd s damaged zerrors m corrupted sent in
  Ok (m, (corrupted, damaged, cl, fo)).

(** The loop of simulation_step over words and drawn errors, with the structure of each cluster in turn; classifier_analysis.py:273-313.  The
    rows and the value of running_idx afterwards, which is the column cluster_label (:325). *)
Definition characterize (thr : F) (m : buffer_model FO) (structures : list structure) (clusters : nat) (words : list (list Z * list nat))
  : res (list (list Z * list Z * field_report * force_report) * nat) :=
  do! (_, l, i) <-
    fold_res (fun st we => let '(m, l, i) := st in
      do! s <- index structures i in
      do! (m, r) <- characterize_word thr m s (fst we) (snd we) in
      do! i <- match clusters with O => Err ZeroDivision | _ => Ok (Nat.modulo (i + 1) clusters) end in
      Ok (m, l ++ [r], i)) words (m, [], 0%nat) in
  Ok (l, i).

(** [p[...].sum(axis=0)] of integers; classifier_analysis.py:391-397. *)
Definition column_sums (l : list (list Z)) : list Z := fold_right (zip_with Z.add) (repeat 0%Z 6) l.
End Characterize.
