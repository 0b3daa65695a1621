(** Notions used to state the properties of the decoders. *)
From Coq Require Import List ZArith NArith Reals Bool.
From Verif.Model Require Import Py Float Segmentation DecoderBase.
From Verif.Spec Require Import RealOps Info Cluster Stats EmleSpec.
Import ListNotations.

(** What a window of w buffers keeps of a history; no window keeps everything, a window that is not positive nothing. *)
Definition kept {A} (w : option Z) (l : list A) : list A := match w with None => l | Some z => last_n (Z.to_nat z) l end.

(** The bits of a word at given positions. *)
Definition picked (word : list Z) (idx : list nat) : list Z := map (fun i => nth i word 0%Z) idx.

(** Every byte of the packed bits belongs to a MAVLink message. *)
Definition recognised {D} (parser : bytes -> res D) (bits : list Z) : bool :=
  match segment_buffer parser (pack bits) with
  | Ok (parts, _, _) => forallb (fun p => negb (is_unknown p)) parts
  | Err _ => false
  end.

(** The positions of the model bits: information bits among the first n. *)
Definition info_positions (info : list bool) (n : nat) (idx : list nat) : Prop :=
  Sorted.StronglySorted lt idx /\ forall i, In i idx <-> i < n /\ nth i info false = true.

(** The entropy of a bit that is one with probability p. *)
Definition bit_entropy (p : R) : R := shannon 2 [1 - p; p]%R.
(** The largest element. *)
Definition largest (l : list R) (m : R) : Prop := In m l /\ Forall (fun x => (x <= m)%R) l.
(** A value limited to [-c, c]. *)
Definition limited (c x : R) : R := Rmin c (Rmax (- c) x).

(** [out] is [obs] where the value [r j] was added at the j-th model position when [on j], for n model positions. *)
Definition shifted (idx : list nat) (on : nat -> Prop) (r : nat -> R) (obs out : list R) : Prop :=
  length out = length obs /\
  (forall j, j < length idx -> on j -> nth (nth j idx 0%nat) out 0%R = (nth (nth j idx 0%nat) obs 0 + r j)%R) /\
  (forall j, j < length idx -> ~ on j -> nth (nth j idx 0%nat) out 0%R = nth (nth j idx 0%nat) obs 0%R) /\
  (forall p, ~ In p idx -> nth p out 0%R = nth p obs 0%R).

(** The logistic weight of a model of n buffers. *)
Definition trust (center slope : R) (n : Z) : R := if (n <=? 1)%Z then 0%R else (/ (1 + exp (- (IZR n - center) * slope)))%R.

(** Both values of a bit occur somewhere in the stored buffers. *)
Definition mixed (data : list (list Z)) : Prop := In 0%Z (concat data) /\ In 1%Z (concat data).

(** What a model knows: for each model bit the probability of a one, and its entropy. *)
Definition knows (m : entropy_model Rops) (ps : list R) : Prop :=
  em_cols m = 2 /\ em_rows m = map (fun p => [1 - p; p]%R) ps /\ em_entropy m = map bit_entropy ps.

(** What is known after storing the given buffers of n bits: the shares of ones; but if all stored bits are equal, a single column. *)
Definition describes (n : nat) (m : entropy_model Rops) (data : list (list Z)) : Prop :=
  em_data m = data /\ (em_entropy m = [] \/ length (em_entropy m) = n) /\
  (data <> [] -> (mixed data -> knows m (map (share data 1) (seq 0 n))) /\
                (~ mixed data -> em_cols m = 1 /\ em_rows m = repeat [1%R] n /\ em_entropy m = repeat 0%R n)).

(** The result of the last LDPC run of a decoding: of the plain run when it succeeds, else of the run on the prediction. *)
Definition final_run {W X} (ldpc : list W -> res (list Z * X * bool * Z)) (predict : list W -> res (list W)) (word : list W) (r : list Z * X * bool * Z) : Prop :=
  ldpc word = Ok r /\ snd (fst r) = true \/
  exists r0 w, ldpc word = Ok r0 /\ snd (fst r0) = false /\ predict word = Ok w /\ ldpc w = Ok r.

(** The estimates among the answers of a sequence of calls. *)
Definition estimates {X} (outs : list (res (list Z * X * bool * Z * nat))) : list (list Z) :=
  concat (map (fun o => match o with Ok (e, _, _, _, _) => [e] | Err _ => [] end) outs).

(** Calls made one after the other, each starting from the state the previous one left. *)
Fixpoint in_turn {S C O} (step : S -> C -> S * O) (s : S) (calls : list C) : S * list O :=
  match calls with
  | [] => (s, [])
  | c :: t => let '(s', o) := step s c in let '(s'', os) := in_turn step s' t in (s'', o :: os)
  end.

(** The MAVLink messages found in the packed bits. *)
Definition messages_in {D} (parser : bytes -> res D) (bits : list Z) (n : nat) : Prop :=
  exists parts v s, segment_buffer parser (pack bits) = Ok (parts, v, s) /\ length s = n.

(** The probability of a sent one, from the share x of received ones on a channel that flips a bit with probability f. *)
Definition unflipped (f x : R) : R := Rmin 1 (Rmax 0 ((x - f) / (1 - 2 * f))).
(** The more probable value of a bit. *)
Definition rounded (p : R) : Z := if Rlt_dec (1 / 2) p then 1%Z else 0%Z.
