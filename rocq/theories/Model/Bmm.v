(** Model of inference/bmm.py.  Simplified: all arrays have matching shapes; the random initial means are a parameter. *)
From Coq Require Import List ZArith Bool.
From Verif.Model Require Import Py Float Clustering.
Import ListNotations.

Section Bmm.
Variable FO : fops.
Notation F := (F FO).
Notation "0" := (fz FO 0).
Notation "1" := (fz FO 1).

(** The attributes set by BMM.fit; inference/bmm.py:12-33. *)
Record bmm := Bmm { b_pi : list F; b_mu : list (list F); b_gamma : list (list F); b_neff : list F; b_old : F; b_logL : F }.

(** The decimal literals 1e-15 and 1e-200 (taken exactly). See inference/bmm.py:74-75. *)
Definition e15 : F := fdiv FO 1 (fz FO (10 ^ 15)).
(** 1e-200; inference/bmm.py:73-76. *)
Definition e200 : F := fdiv FO 1 (fz FO (10 ^ 200)).

(** np.isnan and np.isfinite. See inference/bmm.py:18-33. *)
Definition isnan (x : F) : bool := negb (feq FO x x).
(** np.isfinite; inference/bmm.py:73-76. *)
Definition isfinite (x : F) : bool := feq FO (fsub FO x x) 0.
(** np.max of a non-empty list: nan if there is one. See inference/bmm.py:74-75. *)
Definition nmax (a b : F) : F := if isnan a then a else if isnan b then b else fmax FO a b.
(** np.maximum; inference/bmm.py:73-76. *)
Definition fmaximum (l : list F) : F := match l with [] => 0 | x :: t => fold_left nmax t x end.
(** The column j of a matrix given by rows. See inference/bmm.py:74-75. *)
Definition fcol (m : list (list F)) (j : nat) : list F := map (fun r => nth j r 0) m.

(** mu_place in BMM.get_save_single; inference/bmm.py:74-75. *)
Definition place (mu : list (list F)) (row : list F) (j : nat) : F :=
  let m := if fle FO (fmaximum (fcol mu j)) e15 then e15 else nth j row 0 in
  if flt FO (fabs FO m) e200 then e200 else m.
(** BMM.get_save_single; inference/bmm.py:73-76: one row per sample, one column per component. *)
Definition get_save_single (x : list (list Z)) (mu : list (list F)) : list (list F) :=
  map (fun xr => map (fun row => fsum FO (map (fun j => fmul FO (fz FO (nth j xr 0%Z)) (flog FO (place mu row j))) (seq 0 (length xr)))) mu) x.
(** BMM.get_log_bernoullis; inference/bmm.py:68-71. *)
Definition get_log_bernoullis (x : list (list Z)) (mu : list (list F)) : list (list F) :=
  zip_with (zip_with (fadd FO)) (get_save_single x mu) (get_save_single (map (map (fun b => 1 - b)%Z) x) (map (map (fun m => fsub FO 1 m)) mu)).

(** scipy's logsumexp of a vector (scipy/special/_logsumexp.py, of versions up to 1.14): the exponents are shifted by the largest if that is finite.
    See inference/bmm.py:68-71. *)
Definition logsumexp (l : list F) : F :=
  let m := fmaximum l in let m := if isfinite m then m else 0 in
  fadd FO (flog FO (fsum FO (map (fun x => fexp FO (fsub FO x m)) l))) m.
(** BMM.get_sample_log_likelihood; inference/bmm.py:92-93. *)
Definition sample_log_likelihood (pi : list F) (lb : list (list F)) : list F := map (fun row => logsumexp (zip_with (fun p l => fadd FO (flog FO p) l) pi row)) lb.
(** BMM.get_log_likelihood; inference/bmm.py:95-96. *)
Definition log_likelihood (pi : list F) (lb : list (list F)) : F := fmean FO (sample_log_likelihood pi lb).
(** BMM.get_responsibilities; inference/bmm.py:61-66. *)
Definition get_responsibilities (pi : list F) (lb : list (list F)) : list (list F) :=
  zip_with (fun row z => zip_with (fun p l => fexp FO (fsub FO (fadd FO (flog FO p) l) z)) pi row) lb (sample_log_likelihood pi lb).

(** BMM.get_Neff; inference/bmm.py:78-79, for n components. *)
Definition get_neff (n : nat) (gamma : list (list F)) : list F := map (fun k => fsum FO (fcol gamma k)) (seq 0 n).
(** BMM.get_mu; inference/bmm.py:81-82, for n components and d features. *)
Definition get_mu (n d : nat) (x : list (list Z)) (gamma : list (list F)) (neff : list F) : list (list F) :=
  map (fun k => map (fun j => fdiv FO (fsum FO (zip_with (fun g (xr : list Z) => fmul FO (nth k g 0) (fz FO (nth j xr 0%Z))) gamma x)) (nth k neff 0)) (seq 0 d)) (seq 0 n).
(** BMM.get_pi; inference/bmm.py:84-85. *)
Definition get_pi (x : list (list Z)) (neff : list F) : list F := map (fun v => fdiv FO v (fz FO (Z.of_nat (length x)))) neff.

(** BMM.init_params and normalize_mu; inference/bmm.py:48-59. *)
Definition init_params (n : nat) (mu0 : list (list F)) : res (list F * list (list F)) :=
  if Nat.eqb n 0 then Err ZeroDivision
  else Ok (repeat (fmul FO (fdiv FO 1 (fz FO (Z.of_nat n))) 1) n, map (fun row => let s := fsum FO row in map (fun m => fdiv FO m s) row) mu0).

(** One iteration of the loop of BMM.fit; inference/bmm.py:18-33, with reset_params and remember_params (35-46).  [lb] are the log
    Bernoullis of the current parameters; the flag tells whether the loop is left by break. *)
Definition em_step (n d : nat) (x : list (list Z)) (first : bool) (lb : list (list F)) (s : bmm) : bool * list (list F) * bmm :=
  let old := if first then b_old s else b_logL s in
  let gamma := get_responsibilities (b_pi s) lb in
  let neff := get_neff n gamma in
  let mu := get_mu n d x gamma neff in
  let pi := get_pi x neff in
  let lb' := get_log_bernoullis x mu in
  let logL := log_likelihood pi lb' in
  if isnan logL
  then (true, lb', Bmm (b_pi s) (b_mu s) gamma neff old (log_likelihood (b_pi s) (get_log_bernoullis x (b_mu s))))
  else (false, lb', Bmm pi mu gamma neff old logL).
(** The loop of fit; inference/bmm.py:18-33. *)
Fixpoint em_loop (n d : nat) (x : list (list Z)) (iters : nat) (first : bool) (lb : list (list F)) (s : bmm) : bmm :=
  match iters with
  | O => s
  | S t => let '(stop, lb', s') := em_step n d x first lb s in if stop then s' else em_loop n d x t false lb' s'
  end.
(** BMM.fit; inference/bmm.py:12-33.  The attributes gamma, Neff and logL, absent when max_iter is 0, are then empty and 0. *)
Definition fit (n max_iter d : nat) (x : list (list Z)) (mu0 : list (list F)) : res bmm :=
  do! (pi, mu) <- init_params n mu0 in
  let lb := get_log_bernoullis x mu in
  Ok (em_loop n d x max_iter true lb (Bmm pi mu [] [] (log_likelihood pi lb) 0)).

(** np.argmax of a vector: the first index of a largest element. See inference/bmm.py:87-90. *)
Fixpoint fargmax_from (l : list F) (i best : nat) (v : F) : nat :=
  match l with
  | [] => best
  | y :: t => if flt FO v y then fargmax_from t (S i) i y else fargmax_from t (S i) best v
  end.
(** np.argmax; inference/bmm.py:87-90. *)
Definition fargmax (l : list F) : nat := match l with [] => O | y :: t => fargmax_from t 1 0 y end.
(** BMM.predict; inference/bmm.py:87-90. *)
Definition bmm_predict (s : bmm) (x : list (list Z)) : list nat := map fargmax (get_responsibilities (b_pi s) (get_log_bernoullis x (b_mu s))).
(** BMM.score and score_samples; inference/bmm.py:98-104. *)
Definition score (s : bmm) (x : list (list Z)) : F := log_likelihood (b_pi s) (get_log_bernoullis x (b_mu s)).
(** score samples; inference/bmm.py:98-104. *)
Definition score_samples (s : bmm) (x : list (list Z)) : list F := sample_log_likelihood (b_pi s) (get_log_bernoullis x (b_mu s)).
End Bmm.
