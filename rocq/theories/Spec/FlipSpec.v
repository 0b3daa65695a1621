(** Notions used to state how ClassifyingEntropyDecoder feeds the bit flipping LDPC decoders. *)
From Coq Require Import List ZArith Reals Bool.
From Verif.Model Require Import Py Float DecoderBase ClassDecoder.
From Verif.Spec Require Import RealOps Info Cluster Stats EmleSpec DecoderSpec WeightedSpec ClassSpec.
Import ListNotations.

(** The bit flipping decoder [d] answers (e, ok, x): the weighted one is given real samples and priors, the other one bits. *)
Definition asked {X} (d : ldpc_decoder Rops (X := X)) (samples priors : list R) (bits : list Z) (e : list Z) (ok : bool) (x : X) : Prop :=
  match d with LogSpa _ _ => False | Wbf _ f => f samples (Some priors) = Ok (e, ok, x) | GalBf _ f => f bits = Ok (e, ok, x) end.

(** The largest magnitude. *)
Definition peak (l : list R) (m : R) : Prop := largest (map Rabs l) m.

(** The sign of a number. *)
Definition sgn (x : R) : R := if Rlt_dec 0 x then 1%R else if Rlt_dec x 0 then (-1)%R else 0%R.

(** [out] is [raw], scaled down by a common factor where needed so that no magnitude exceeds either limit. *)
Definition scaled_to (limit1 limit2 : R) (raw out : list R) : Prop :=
  exists p, peak raw p /\ out = map (fun x => (x * (if Rlt_dec 0 p then Rmin 1 (Rmin (limit1 / p) (limit2 / p)) else 1))%R) raw.

(** What the decoder is given: by the reliability method, from the received word and the help of the model.  [forced] are the positions
    that method 3 overrides. *)
Definition prepared (method : Z) (degree : R) (forced : nat -> Prop) (word help samples priors : list R) (bits : list Z) : Prop :=
  exists mx hm, peak word mx /\ peak help hm /\ length help = length word /\
  let zeros := repeat 0%R (length word) in
  (hm = 0%R \/ ~ (0 <= method <= 3)%Z -> samples = word /\ priors = zeros /\ bits = map sign_bit word) /\
  ((0 < hm)%R -> method = 0%Z -> priors = zeros /\ bits = map sign_bit samples /\
     exists sum p, length sum = length word /\ (forall i, nth i sum 0%R = (nth i word 0 + Rmin 1 (mx / hm) * nth i help 0)%R) /\ peak sum p /\
       samples = map (fun x => (x * (mx / p))%R) sum) /\
  ((0 < hm)%R -> method = 1%Z \/ method = 2%Z -> samples = word /\ bits = map sign_bit word /\
     exists raw, length raw = length word /\ (forall i, nth i raw 0%R = (- sgn (nth i word 0 * nth i help 0) * Rabs (nth i help 0))%R) /\
       scaled_to mx (if Z.eqb method 1 then 1 else sqrt (mean_of (map (fun x => (x * x)%R) word)) / degree) raw priors) /\
  ((0 < hm)%R -> method = 3%Z -> priors = zeros /\ samples = map IZR bits /\ length bits = length word /\
     forall i, i < length word -> (forced i -> nth i bits 0%Z = sign_bit (nth i help 0%R)) /\ (~ forced i -> nth i bits 0%Z = sign_bit (nth i word 0%R))).

(** The positions overridden by method 3, when the model of cluster 0 has stored [size] buffers and holds [ps0]: those of which that model is
    sure, once its window is full (none if it is only sure of position 0). *)
Definition override (idx : list nat) (thr : R) (window : Z) (size : nat) (ps0 : list R) (i : nat) : Prop :=
  (window <= Z.of_nat size)%Z /\ (exists j, structural thr ps0 j /\ nth j idx 0 = i) /\ exists k, structural thr ps0 k /\ nth k idx 0 <> 0.
