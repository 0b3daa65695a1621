(** Notions used to state how a received word is rectified with field statistics. *)
From Coq Require Import String List ZArith NArith Reals Bool.
From Verif.Model Require Import Py Float Mavlink Segmentation StatModels DecoderBase Rectify.
From Verif.Spec Require Import RealOps Bytes Segment Stats EmleSpec DecoderSpec FlipSpec.
Import ListNotations.

(** The bits received in a word. *)
Definition received_bits (word : list R) : list bool := map (fun x => Z.eqb (sign_bit x) 1) word.

(** A bit whose field cannot have the received value: plausibility 0 (or less) and no deviation. *)
Definition impossible (v d : option R) : Prop := exists x, v = Some x /\ (x <= 0)%R /\ d = Some 0%R.

(** The weight of a bit whose field has the given plausibility: bits of plausible fields are multiplied by one factor, bits of implausible
    fields by another one, bits of no field are left alone. *)
Definition weight_of (valid_thr invalid_thr valid invalid : R) (v : option R) : R :=
  match v with
  | None => 1%R
  | Some x => ((if Rlt_dec (1 - valid_thr) x then valid else 1) * (if Rlt_dec x invalid_thr then invalid else 1))%R
  end.

(** A factor that is approached as the model grows. *)
Definition approached (c : rect_conf Rops) (factor : R) (size : Z) : R :=
  if rc_learning c then (1 + (factor - 1) * trust (rc_center c) (rc_slope c) size)%R else factor.

(** [w] is [obs] with every bit weighted, and the impossible bits set to the value of [picture] with the largest magnitude received. *)
Definition adjusted (c : rect_conf Rops) (size : Z) (vb sd : list (option R)) (picture : list bool) (obs w : list R) : Prop :=
  let valid := approached c (rc_valid_factor c) size in
  let invalid := approached c (rc_invalid_factor c) size in
  length w = length obs /\
  forall p, p < length obs ->
    (impossible (nth p vb None) (nth p sd None) ->
       forall pk, peak obs pk -> nth p w 0%R = ((if nth p picture false then -1 else 1) * pk * Rmax valid 1)%R) /\
    (~ impossible (nth p vb None) (nth p sd None) -> nth p w 0%R = (nth p obs 0 * weight_of (rc_valid_thr c) (rc_invalid_thr c) valid invalid (nth p vb None))%R).

(** The messages [s] are found in the information bytes [b] of a word. *)
Definition found text (info : list Z -> res bytes) (word : list R) (b : bytes) (s : structure) : Prop :=
  info (map sign_bit word) = Ok b /\ exists p v, segment_buffer (decode text) b = Ok (p, v, s).

(** [out] is [w], except that the bits of the messages found are reinforced; [seg] marks these bits.  Messages found in the received word
    have precedence. *)
Definition reinforced text info (valid : R) (obs w out : list R) (seg : list bool) : Prop :=
  length out = length obs /\ length seg = length obs /\
  exists b s,
    (found text info obs b s /\ s <> [] /\ (forall p, covered b s (Nat.div p 8) -> nth p out 0%R = (nth p obs 0 * 2 * valid)%R) \/
     (exists b0, found text info obs b0 []) /\ found text info w b s /\ (forall p, covered b s (Nat.div p 8) -> nth p out 0%R = (nth p w 0 * 2)%R)) /\
    (forall p, ~ covered b s (Nat.div p 8) -> nth p out 0%R = nth p w 0%R) /\
    (forall p, p < length obs -> (nth p seg false = true <-> covered b s (Nat.div p 8))).

(** The numbers, in increasing order, of the fields whose plausibility satisfies a condition. *)
Definition fields_with (ok : R -> Prop) (vf : list (option (string * R * R))) (l : list nat) : Prop :=
  Sorted.StronglySorted lt l /\ forall i, In i l <-> exists nm v d, nth_error vf i = Some (Some (nm, v, d)) /\ ok v.

(** The information bytes of a code word of [n] bits: they exist and do not exceed the code word. *)
Definition informative (n : nat) (info : list Z -> res bytes) : Prop :=
  forall l, length l = n -> exists b, info l = Ok b /\ is_bytes b /\ 8 * length b <= n.
