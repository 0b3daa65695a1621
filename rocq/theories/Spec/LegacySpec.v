(** Specification of the oldest simulations. *)
From Coq Require Import List Arith NArith ZArith Bool.
From Verif.Model Require Import Py Float DecoderBase EntropyDecoder Segmentation Simulation Legacy.
From Verif.Spec Require Import SimulationSpec.
Import ListNotations.

(** A library whose results, if they have six items as the decoders of the project demand, end with an array of several numbers (one for each bit). *)
Definition with_arrays {FO W} (lib : W -> res (tuple FO)) : Prop :=
  forall w t, lib w = Ok t -> length (t_more FO t) = 2 -> exists l, nth_error (t_more FO t) 1 = Some (IArr l) /\ length l <> 1.
(** A library whose estimates are words of [n] bits. *)
Definition gives_words {FO W} (n : nat) (lib : W -> res (tuple FO)) : Prop := forall w t, lib w = Ok t -> word n (t_estimate FO t).

(** A decoder as a function from its memory and a word to an answer and its memory, or an error. *)
Definition decoder_of {M W A} (dec : M -> W -> M * res A) (m : M) (w : W) : res (A * M) := match dec m w with (m', Ok a) => Ok (a, m') | (_, Err e) => Err e end.
Definition estimate_of {X Y Z0 V} (a : list Z * X * Y * Z0 * V) : list Z := fst (fst (fst (fst a))).

(** The number of wrong bits of each estimate. *)
Definition errors_in (sent estimates : list (list Z)) : list nat := map (fun we => length (differences (snd we) (fst we))) (combine sent estimates).

(** A table: the answers, each followed by further items and its number of wrong bits; the share of faultless answers; the share of wrong bits. *)
Definition tabulated (FO : fops) (n : nat) (sent : list (list Z)) (answers : list (list Z * list (F FO) * bool * Z)) (more : list (list item)) (t : legacy_table FO) : Prop :=
  let wrong := errors_in sent (map (fun a => fst (fst (fst a))) answers) in
  lt_rows FO t = map (fun x => match x with (e, l, s, i, m, h) => Row FO e l s i (m ++ [INum (Z.of_nat h)]) end) (combine (combine answers more) wrong) /\
  lt_rate FO t = fdiv FO (fz FO (Z.of_nat (zeros wrong))) (fz FO (Z.of_nat (length sent))) /\
  lt_ber FO t = fdiv FO (fz FO (Z.of_nat (total wrong))) (fz FO (Z.of_nat (length sent * n))).

(** The report of a step: [rx] is received, [dl] are the library's answers with [ns] messages found in them, [de] and [df] the answers of the two decoders. *)
Definition reported (FO : fops) {D} (parser : bytes -> res D) (tl : tools FO) (me mf : entropy_model FO) (data : list (list bool)) (nn no_errors : nat)
  (encoded : list (list Z)) (errors : list (list nat)) (r : legacy_report FO) : Prop :=
  exists dl ns de df,
  length (lr_rx FO r) = length encoded /\ (forall i, i < length encoded -> received (nth i encoded []) (nth i errors []) (nth i (lr_rx FO r) [])) /\
  Forall2 (fun x d => tl_soft FO tl (tl_llr FO tl x) = Ok d) (lr_rx FO r) dl /\
  Forall2 (fun d k => exists parts v s, segment_buffer parser (tl_info FO tl (t_estimate FO d)) = Ok (parts, v, s) /\ length s = k) dl ns /\
  feeds (decoder_of (soft_decode FO parser tl)) me (map (tl_llr FO tl) (lr_rx FO r)) de /\
  feeds (decoder_of (hard_decode FO parser tl)) mf (lr_rx FO r) df /\
  lr_data FO r = firstn (length encoded) data /\ lr_encoded FO r = encoded /\ lr_n FO r = length encoded /\ lr_len FO r = nn /\
  lr_raw_ber FO r = fdiv FO (fz FO (Z.of_nat no_errors)) (fz FO (Z.of_nat nn)) /\
  tabulated FO nn encoded (map (fun d => (t_estimate FO d, t_llr FO d, t_success FO d, t_iterations FO d)) dl)
            (map (fun dk => t_more FO (fst dk) ++ [INum (Z.of_nat (snd dk))]) (combine dl ns)) (lr_ldpc FO r) /\
  tabulated FO nn encoded (map fst de) (map (fun a => [INum (Z.of_nat (snd a))]) de) (lr_entropy FO r) /\
  tabulated FO nn encoded (map fst df) (map (fun a => [INum (Z.of_nat (snd a))]) df) (lr_flipping FO r).
