(** Model of scripts/estimators_comparison/compare_denoisers.py and of the sections of scripts/estimators_comparison/dude_example.py.
    The random sources are arguments. *)
From Coq Require Import List ZArith Bool.
From Verif.Model Require Import Py Float Dude Emle Perf.
Import ListNotations.

(** Whether an array of bits holds ints or floats; compare_denoisers.py:67 makes one of floats (np.ones without a dtype). *)
Inductive kind := Ints | Floats.

(** np.sum(a != b) of arrays of one size. See compare_denoisers.py:9-47. *)
Definition mismatches (a b : list Z) : nat := length (filter (fun xy => negb (Z.eqb (fst xy) (snd xy))) (combine a b)).
(** np.sum((estimates != noisy) & (estimates != sequence)) and np.sum((estimates != noisy) & (estimates == sequence));
    dude_example.py:138-139, 146-147. *)
Definition erroneous_flips (sequence noisy estimates : list Z) : nat :=
  length (filter (fun x => negb (Z.eqb (snd x) (snd (fst x))) && negb (Z.eqb (snd x) (fst (fst x))))%bool (combine (combine sequence noisy) estimates)).
(** good flips; dude_example.py:138-139, 146-147. *)
Definition good_flips (sequence noisy estimates : list Z) : nat :=
  length (filter (fun x => negb (Z.eqb (snd x) (snd (fst x))) && Z.eqb (snd x) (fst (fst x)))%bool (combine (combine sequence noisy) estimates)).

(** source[:, i]. See compare_denoisers.py:9-47. *)
Definition column_of (i : nat) (rows : list (list Z)) : list Z := map (fun r => nth i r 0%Z) rows.

Section Compare.
Variable FO : fops.
Notation F := (F FO).

(** np.argmax: the first greatest entry; dude_example.py:137. *)
Fixpoint argmax_from (l : list F) (i best : nat) (m : F) : nat :=
  match l with
  | [] => best
  | x :: t => if flt FO m x then argmax_from t (S i) i x else argmax_from t (S i) best m
  end.
(** np.argmax; scripts/estimators_comparison/dude_example.py:137. *)
Definition argmax (l : list F) : nat := match l with [] => 0 | x :: t => argmax_from t 1 0 x end.
(** The symbol an estimate stands for. See compare_denoisers.py:28-30. *)
Definition symbol_of (e : estimate FO) : Z := match e with Hard z => z | Soft p => Z.of_nat (argmax p) end.

(** OnlineDude.denoise_sequence (hard decisions) on an array of floats; inference/dude.py:30-78: 0.0 and 1.0 pass the range test and are
    returned while the context fills, and are no index of the counters thereafter.  The state is dropped: it is not used again. *)
Fixpoint denoise_floats (size : nat) (k : Z) (seen : nat) (observations : list Z) : res (list Z) :=
  match observations with
  | [] => Ok []
  | o :: t =>
      if negb ((0 <=? o)%Z && (o <? Z.of_nat size)%Z) then Err ValueError
      else if (Z.of_nat seen <? k)%Z then do! r <- denoise_floats size k (S seen) t in Ok (o :: r)
      else Err IndexError
  end.

(** One column of compare_denoisers; compare_denoisers.py:28-30: a new OnlineDude for every column. *)
Definition dude_column (inv : list (list F) -> res (list (list F))) (t : kind) (f : F) (k : Z) (column : list Z) : res (list Z) :=
  let channel := [[fsub FO (fz FO 1) f; f]; [f; fsub FO (fz FO 1) f]] in
  let loss := [[fz FO 0; fz FO 1]; [fz FO 1; fz FO 0]] in
  do! d <- dude_new FO inv channel loss k true 2 in
  match t with
  | Ints => do! r <- snd (denoise_online FO d online_new column) in Ok (map (fun x => symbol_of (fst x)) r)
  | Floats => denoise_floats 2 k 0 column
  end.

(** The bits of an answer of EMLE with hard decisions. See compare_denoisers.py:9-47. *)
Definition bits_of_answer (a : answer FO) : list Z := match a with Bits l => l | Llr _ => [] end.

(** What compare_denoisers prints and returns, without the statistics of sklearn. See scripts/estimators_comparison/compare_denoisers.py:9-47. *)
Record comparison := Comparison { cmp_dude_ber : F; cmp_dude_flips : nat; cmp_emle_ber : F; cmp_emle_flips : nat }.

(** compare_denoisers; compare_denoisers.py:9-47, without stats.  [rows] are the rows of the source, [cols] is source.shape[1]. *)
Definition compare_denoisers (inv : list (list F) -> res (list (list F))) (t : kind) (rows : list (list Z)) (cols : nat) (f : F) (k : Z)
    (threshold : F) (window center : Z) (slope : F) : res comparison :=
  do! columns <- map_res (fun i => dude_column inv t f k (column_of i rows)) (seq 0 cols) in
  let dude_estimates := map (fun j => map (fun col => nth j col 0%Z) columns) (seq 0 (length rows)) in
  do! answers <- snd (denoise_sequence FO (denoise_hard FO (EmleConf FO f threshold window center slope true)) (emle_new FO) rows) in
  let emle_estimates := map (fun a => bits_of_answer (fst a)) answers in
  do! b1 <- ber FO Signed (concat rows) (concat dude_estimates) in
  do! b2 <- ber FO Signed (concat rows) (concat emle_estimates) in
  Ok (Comparison b1 (mismatches (concat dude_estimates) (concat rows)) b2 (mismatches (concat emle_estimates) (concat rows))).

(** What a section of dude_example.py prints. See scripts/estimators_comparison/dude_example.py:35-51. *)
Record printed := Printed { p_noise : nat; p_online_errors : nat; p_online_flips : nat; p_dude_errors : nat; p_dude_flips : nat;
                            p_emle_errors : nat; p_emle_flips : nat }.

(** A section with noise; dude_example.py:35-51, 54-73, 76-97, 100-122, 125-156.  EMLE is given [sequence] (lines 48, 70, 94, 119, 153),
    online DUDE and DUDE the noisy sequence; online DUDE and EMLE are reset after use. *)
Definition noisy_section (online_dude dude : dude FO) (c : emle_conf FO) (st : online * emle FO) (sequence noisy : list Z)
  : (online * emle FO) * res printed :=
  let '(s1, r1) := denoise_online FO online_dude (fst st) noisy in
  match r1 with
  | Err e => ((s1, snd st), Err e)
  | Ok r1 =>
      let s1 := dude_reset s1 in
      let e1 := map (fun x => symbol_of (fst x)) r1 in
      match denoise_batch FO dude noisy with
      | Err e => ((s1, snd st), Err e)
      | Ok (r2, _) =>
          let e2 := map symbol_of r2 in
          let '(s2, r3) := denoise_sequence FO (denoise_hard FO c) (snd st) (map (fun b => [b]) sequence) in
          match r3 with
          | Err e => ((s1, s2), Err e)
          | Ok r3 =>
              let e3 := concat (map (fun a => bits_of_answer (fst a)) r3) in
              ((s1, emle_reset FO s2), Ok (Printed (mismatches noisy sequence) (mismatches e1 sequence) (mismatches e1 noisy)
                                              (mismatches e2 sequence) (mismatches e2 noisy) (mismatches e3 sequence) (mismatches e3 noisy)))
          end
      end
  end.

(** The sections in turn: online DUDE is constructed anew or was reset, EMLE is one object; an exception ends the script.
    See scripts/estimators_comparison/dude_example.py:35-156. *)
Fixpoint noisy_sections (c : emle_conf FO) (s : emle FO) (l : list (dude FO * dude FO * list Z * list Z)) : list printed * option exn :=
  match l with
  | [] => ([], None)
  | (d1, d2, sequence, noisy) :: t =>
      match noisy_section d1 d2 c (online_new, s) sequence noisy with
      | (_, Err e) => ([], Some e)
      | ((_, s'), Ok p) => let '(ps, e) := noisy_sections c s' t in (p :: ps, e)
      end
  end.
End Compare.
