(** Model of inference/entropy_mle.py. *)
From Coq Require Import List ZArith Bool.
From Verif.Model Require Import Py Float InfoTheory Clustering.
Import ListNotations.

Section Emle.
Variable FO : fops.
Notation F := (F FO).

(** bsc_llr; inference/entropy_mle.py:7-14: (-1)^y log((1-p)/p).  A negative exponent is a ValueError of np.power. *)
Definition bsc_llr (p : F) (y : list Z) : res (list F) :=
  if existsb (fun b => (b <? 0)%Z) y then Err ValueError
  else Ok (map (fun b => fmul FO (fz FO (if Z.even b then 1 else -1)) (flog FO (fdiv FO (fsub FO (fz FO 1) p) p))) y).

(** The parameters of EMLE.__init__; inference/entropy_mle.py:20-34.  soft_input is not a field: it selects between
    [denoise_soft] and [denoise_hard]. *)
Record emle_conf := EmleConf { e_f : F; e_threshold : F; e_window : Z; e_center : Z; e_slope : F; e_hard : bool }.
(** The attributes that change; inference/entropy_mle.py:36-39.  model_data is kept as the list of its columns. *)
Record emle := Emle { e_size : Z; e_entropy : list F; e_p1 : list F; e_data : list (list Z) }.

(** EMLE.__init__ and EMLE.reset; inference/entropy_mle.py:36-39 and 45-50. *)
Definition emle_new : emle := Emle 0 [] [] [].
(** reset; inference/entropy_mle.py:36-39. *)
Definition emle_reset (s : emle) : emle := emle_new.

Variable c : emle_conf.

(** EMLE._model_confidence; inference/entropy_mle.py:41-43. *)
Definition confidence (size : Z) : F :=
  if (size <=? 1)%Z then fz FO 0
  else fdiv FO (fz FO 1) (fadd FO (fz FO 1) (fexp FO (fmul FO (fz FO (- (size - e_center c))) (e_slope c)))).

(** [log((1 - p1 + eps) / (p1 + eps))]; inference/entropy_mle.py:62-63. *)
Definition model_llr (p1 : F) : F := flog FO (fdiv FO (fadd FO (fsub FO (fz FO 1) p1) (feps FO)) (fadd FO p1 (feps FO))).

(** EMLE.predict; inference/entropy_mle.py:52-64.  The returned array is the argument, changed in place.  IndexError when the
    boolean index does not have the length of the array. *)
Definition predict (s : emle) (llr : list F) : res (list F) :=
  let structural := map (fun h => flt FO h (e_threshold c)) (e_entropy s) in
  if negb (existsb (fun b => b) structural) then Ok llr
  else
    let conf := confidence (e_size s) in
    if flt FO (fz FO 0) conf
    then if Nat.eqb (length llr) (length structural)
         then Ok (zip_with (fun x (sp : bool * F) => if fst sp then fadd FO x (fmul FO conf (model_llr (snd sp))) else x) llr (combine structural (e_p1 s)))
         else Err IndexError
    else Ok llr.

(** np.mean(model_data, axis=1) of [n] rows given as columns. See inference/entropy_mle.py:66-79. *)
Definition row_means (n : nat) (cols : list (list Z)) : list F :=
  map (fun i => fdiv FO (fz FO (fold_right Z.add 0%Z (map (fun col => nth i col 0%Z) cols))) (fz FO (Z.of_nat (length cols)))) (seq 0 n).

(** EMLE.update_model; inference/entropy_mle.py:66-79.  ValueError of np.append when the number of rows differs. *)
Definition update_model (s : emle) (obs : list Z) : emle * res unit :=
  let joined := match e_data s with
                | [] => Ok [obs]
                | col :: _ => if Nat.eqb (length col) 0 then Ok [obs]
                              else if Nat.eqb (length obs) (length col) then Ok (e_data s ++ [obs]) else Err ValueError
                end in
  match joined with
  | Err e => (s, Err e)
  | Ok data =>
      let data := if ((0 <? e_window c) && (e_window c <? Z.of_nat (length data)))%Z then slice_from data (- e_window c) else data in
      let v := row_means (length obs) data in
      let p1 := map (fun m => fclip FO (fdiv FO (fsub FO m (e_f c)) (fsub FO (fz FO 1) (fmul FO (fz FO 2) (e_f c)))) (fz FO 0) (fz FO 1)) v in
      let size := if ((e_size s <? e_window c) || (e_window c =? 0))%Z then (e_size s + 1)%Z else e_size s in
      match entropy FO (FMat (map (fun p => [fsub FO (fz FO 1) p; p]) p1)) 2 with
      | Err e => (Emle (e_size s) (e_entropy s) p1 data, Err e)
      | Ok h => (Emle size h p1 data, Ok tt)
      end
  end.

(** [np.array(llr < 0, dtype=int)]. See inference/entropy_mle.py:90-94. *)
Definition signs (llr : list F) : list Z := map (fun x => if flt FO x (fz FO 0) then 1%Z else 0%Z) llr.

(** Bits or log likelihood ratios; inference/entropy_mle.py:90-94. *)
Inductive answer := Bits (l : list Z) | Llr (l : list F).

(** The part of EMLE.denoise_buffer common to both kinds of input; inference/entropy_mle.py:90-94. *)
Definition denoise_with (s : emle) (llr : list F) (hard : list Z) : emle * res (answer * Z) :=
  match predict s llr with
  | Err e => (s, Err e)
  | Ok est =>
      let bits := signs est in
      match update_model s hard with
      | (s', Err e) => (s', Err e)
      | (s', Ok _) => (s', Ok (if e_hard c then Bits bits else Llr est, fold_right Z.add 0%Z (zip_with (fun a b => Z.abs (a - b)) hard bits)))
      end
  end.
(** EMLE.denoise_buffer with soft_input; inference/entropy_mle.py:81-94.  The argument is copied. *)
Definition denoise_soft (s : emle) (obs : list F) : emle * res (answer * Z) := denoise_with s obs (signs obs).
(** EMLE.denoise_buffer without soft_input, for an array of integers; inference/entropy_mle.py:81-94. *)
Definition denoise_hard (s : emle) (obs : list Z) : emle * res (answer * Z) :=
  match bsc_llr (e_f c) obs with Err e => (s, Err e) | Ok llr => denoise_with s llr obs end.

(** EMLE.denoise_sequence; inference/entropy_mle.py:96-109, given denoise_buffer. *)
Fixpoint denoise_sequence {A} (denoise : emle -> A -> emle * res (answer * Z)) (s : emle) (l : list A) : emle * res (list (answer * Z)) :=
  match l with
  | [] => (s, Ok [])
  | x :: t =>
      match denoise s x with
      | (s', Err e) => (s', Err e)
      | (s', Ok r) => let '(s'', rs) := denoise_sequence denoise s' t in (s'', do! rs <- rs in Ok (r :: rs))
      end
  end.
End Emle.
Arguments Bits {FO} l.
Arguments Llr {FO} l.
