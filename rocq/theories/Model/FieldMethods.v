(** The remaining methods of FieldModel and BufferModel: inference/statistical_models.py. *)
From Coq Require Import String Ascii List NArith ZArith Bool.
From Verif.Model Require Import Py Float Struct StatModels.
Import ListNotations.

Section Methods.
Variable FO : fops.
(** The density and the distribution function of the standard normal distribution (scipy), np.ceil as an int, and the text of a number in an f-string. *)
Variable phi : F FO -> F FO.
Variable Phi : F FO -> F FO.
Variable ceil : F FO -> Z.
Variable show : F FO -> string.

(** scipy.stats.norm.pdf(x, loc, scale) and norm.cdf (not in /repo): nan (None) unless the scale is positive. See inference/statistical_models.py:79-87. *)
Definition norm_pdf (x loc scale : F FO) : option (F FO) :=
  if flt FO (fz FO 0) scale then Some (fdiv FO (phi (fdiv FO (fsub FO x loc) scale)) scale) else None.
(** norm.cdf; inference/statistical_models.py:84-87. *)
Definition norm_cdf (x loc scale : F FO) : option (F FO) :=
  if flt FO (fz FO 0) scale then Some (Phi (fdiv FO (fsub FO x loc) scale)) else None.

(** FieldModel.pdf, FieldModel.cdf; inference/statistical_models.py:79-87.  The object after the call and the value; None is nan. *)
Definition fm_pdf (m : field_model FO) (x : F FO) : res (field_model FO * option (F FO)) :=
  do! m <- fm_refresh FO m in Ok (m, norm_pdf x (fm_mean FO m) (fm_std FO m)).
(** cdf; inference/statistical_models.py:84-87. *)
Definition fm_cdf (m : field_model FO) (x : F FO) : res (field_model FO * option (F FO)) :=
  do! m <- fm_refresh FO m in Ok (m, norm_cdf x (fm_mean FO m) (fm_std FO m)).

(** FieldModel.p_of_sign_bit; inference/statistical_models.py:98-108.  Without samples mean and std are the int 0 of the constructor, so the division
    raises; with samples they are numpy numbers, a division by 0 gives -inf (whose norm.cdf is 0) or nan.  Simplified: a field that has no samples
    never had any (the window is not negative). *)
Definition fm_p_of_sign_bit (m : field_model FO) : res (field_model FO * option (F FO)) :=
  if negb (fm_signed FO m) then Ok (m, Some (fz FO 1))
  else
    do! m <- fm_refresh FO m in
    match fm_samples FO m with
    | [] => Err ZeroDivision
    | _ => if feq FO (fm_std FO m) (fz FO 0)
           then Ok (m, if feq FO (fm_mean FO m) (fz FO 0) then None else Some (fsub FO (fz FO 1) (fz FO 0)))
           else Ok (m, Some (fsub FO (fz FO 1) (Phi (fdiv FO (fneg FO (fabs FO (fm_mean FO m))) (fm_std FO m)))))
    end.

(** FieldModel.bitwise_classify_value; inference/statistical_models.py:110-115. *)
Definition fm_bitwise_classify_value (m : field_model FO) (_ : pyval) : res (field_model FO * list (F FO)) :=
  do! m <- fm_refresh FO m in Ok (m, [fz FO 0]).

(** FieldModel.std_significant_bits; inference/statistical_models.py:117-122: int() of inf is an OverflowError, of nan (the logarithm of a negative
    number, or of -inf = 1 / -0.0) a ValueError.  Without samples the division is of ints. *)
Inductive sig_bits := SBits (k : Z) | SOverflowError | SRaises (e : exn).
(** std_significant_bits; inference/statistical_models.py:117-122. *)
Definition fm_std_significant_bits (m : field_model FO) (num_std : F FO) : sig_bits :=
  match fm_refresh FO m with
  | Err e => SRaises e
  | Ok m =>
      match fm_samples FO m with
      | [] => SRaises ZeroDivision
      | _ => let s := fmul FO num_std (fm_std FO m) in
             if flt FO num_std (fz FO 0) then SRaises ValueError
             else if feq FO s (fz FO 0) then SOverflowError
             else SBits (ceil (flog2 FO (fdiv FO (fz FO 1) s)))
      end
  end.

(** FieldModel.__str__; inference/statistical_models.py:124-125. *)
Definition fm_str (m : field_model FO) : res (field_model FO * string) :=
  do! r <- fm_get_mean FO m in
  do! q <- fm_get_std FO (fst r) in
  Ok (fst q, (fm_name FO m ++ " (" ++ fm_type FO m ++ "): " ++ show (snd r) ++ " +- " ++ show (snd q))%string).

(** BufferModel.__getitem__, __setitem__, __len__, __iter__, __contains__, fields_names, get_field_model; inference/statistical_models.py:150-166 and 180-181. *)
Definition bm_getitem (m : buffer_model FO) (key : string) : res (field_model FO) := match bm_get FO m key with Some f => Ok f | None => Err KeyError end.
(** __setitem__; inference/statistical_models.py:153-154. *)
Definition bm_setitem (m : buffer_model FO) (key : string) (value : field_model FO) : buffer_model FO := bm_set FO m key value.
(** __len__; inference/statistical_models.py:156-157. *)
Definition bm_len (m : buffer_model FO) : nat := length (bm_models FO m).
(** __iter__; inference/statistical_models.py:159-160. *)
Definition bm_iter (m : buffer_model FO) : list (field_model FO) := map snd (bm_models FO m).
(** __contains__; inference/statistical_models.py:162-163. *)
Definition bm_contains (m : buffer_model FO) (item : string) : bool := existsb (String.eqb item) (map fst (bm_models FO m)).
(** fields_names; inference/statistical_models.py:165-166. *)
Definition bm_fields_names (m : buffer_model FO) : list string := map fst (bm_models FO m).
(** get_field_model; inference/statistical_models.py:180-181. *)
Definition bm_get_field_model (m : buffer_model FO) (field_name : string) : option (field_model FO) := bm_get FO m field_name.
End Methods.
