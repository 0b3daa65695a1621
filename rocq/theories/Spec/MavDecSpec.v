(** Notions used to state what the MAVLink decoder learns and answers. *)
From Coq Require Import List ZArith NArith Bool.
From Verif.Model Require Import Py Float Mavlink Segmentation StatModels Clustering DecoderBase Rectify MavlinkDecoder.
From Verif.Spec Require Import Bytes Segment Stats DecoderSpec.
Import ListNotations.

(** States of a decoder: clusters of the classifier are numbered from 0, and there is a structure (or None) for each cluster. *)
Definition sane (k : classifier) : Prop := (0 <= k_uid k)%Z /\ Forall (fun x => (0 <= c_uid x)%Z) (k_clusters k).
Definition well (FO : fops) (c : md_conf FO) (s : md_state FO) : Prop := length (md_structs s) = md_clusters c /\ sane (md_classifier s).

Section MavDec.
Variable FO : fops.
Variables (f32_pack : F FO -> res N) (erf : F FO -> F FO) (text : bytes -> bytes) (info : list Z -> res bytes) (c : md_conf FO).
Context {X : Type}.
Notation answer := (list Z * list (F FO) * bool * Z * X)%type.
Variable ldpc : list (F FO) -> res answer.

Definition an_estimate (a : answer) : list Z := fst (fst (fst (fst a))).
Definition an_soft (a : answer) : list (F FO) := snd (fst (fst (fst a))).
Definition an_ok (a : answer) : bool := snd (fst (fst a)).
Definition an_iterations (a : answer) : Z := snd (fst a).

(** The cluster that a label addresses: a negative label counts from the end. *)
Definition addressed (n : nat) (label : Z) : nat := Z.to_nat (if (label <? 0)%Z then label + Z.of_nat n else label).

(** Bits as numpy booleans. *)
Definition as_bits (l : list Z) : buf_arg := BBits (map (Z.eqb 1) l).

(** What is learned from one run of the LDPC decoder: the structure known afterwards and what is added to the model. *)
Inductive learned (st : option structure) (a : answer) (channel_bits : list Z) : option structure -> list bm_event -> Prop :=
| L_fixed : rc_learning (md_rect c) = false -> learned st a channel_bits st []
| L_first b p v s : rc_learning (md_rect c) = true -> an_ok a = true -> st = None -> info (an_estimate a) = Ok b -> segment_buffer (decode text) b = Ok (p, v, s) ->
    learned st a channel_bits (Some s) [VAdd (as_bits (an_estimate a)) s]
| L_again s : rc_learning (md_rect c) = true -> an_ok a = true -> st = Some s -> learned st a channel_bits st [VAdd (as_bits (an_estimate a)) s]
| L_channel s : rc_learning (md_rect c) = true -> an_ok a = false -> st = Some s -> learned st a channel_bits st [VAdd (as_bits channel_bits) s]
| L_nothing : rc_learning (md_rect c) = true -> an_ok a = false -> st = None -> learned st a channel_bits None [].

(** One run of the LDPC decoder: the label, the word that was rectified, what was decoded, and the answer. *)
Record run := Run { r_label : Z; r_word : list (F FO); r_sent : list (F FO); r_answer : answer }.

(** Structures and additions after some runs. *)
Inductive taught (channel_bits : list Z) : list (option structure) -> list run -> list (option structure) -> list bm_event -> Prop :=
| T_nil ss : taught channel_bits ss [] ss []
| T_run ss r rs st st' adds ss' adds' : nth_error ss (addressed (length ss) (r_label r)) = Some st -> ldpc (r_sent r) = Ok (r_answer r) ->
    learned st (r_answer r) channel_bits st' adds -> taught channel_bits (set_nth ss (addressed (length ss) (r_label r)) st') rs ss' adds' ->
    taught channel_bits ss (r :: rs) ss' (adds ++ adds').

(** An operation that adds nothing. *)
Definition is_read (e : bm_event) : bool := match e with VAdd _ _ => false | _ => true end.
(** The model [m'] is what [m] became by the additions [adds] and by reading. *)
Definition grown (m : buffer_model FO) (adds : list bm_event) (m' : buffer_model FO) : Prop :=
  exists h, m' = bm_run FO f32_pack erf m h /\ filter (fun e => negb (is_read e)) h = adds.

(** The model takes the additions without raising. *)
Definition takes (m : buffer_model FO) (adds : list bm_event) : Prop := forall b s, In (VAdd b s) adds -> snd (add_buffer FO m b s) = Ok tt.

(** The runs of one call that returns after at most [n] of them.  [ss] and [m] are the structures and the model when the first run starts and
    [ss'] and [m'] when the last one is over; [word] is what the first run rectifies, [p] is the last rectification.  After a failure the next
    run rectifies the soft output. *)
Inductive works (channel_bits : list Z) : nat -> list (option structure) -> buffer_model FO -> list (F FO) -> list run -> prediction FO -> list (option structure) -> buffer_model FO -> Prop :=
| W_last n ss m word r st st' m1 p adds : an_ok (r_answer r) = true \/ n = 0 -> r_word r = word -> nth_error ss (addressed (length ss) (r_label r)) = Some st ->
    rectify FO f32_pack erf (decode text) info (md_rect c) (scale_plain FO) (forced_wrong FO) m st word = Ok (m1, p) -> r_sent r = pr_llr p ->
    ldpc (r_sent r) = Ok (r_answer r) -> learned st (r_answer r) channel_bits st' adds -> takes m1 adds ->
    works channel_bits (S n) ss m word [r] p (set_nth ss (addressed (length ss) (r_label r)) st') (bm_run FO f32_pack erf m1 adds)
| W_next n ss m word r rs st st' m1 p q adds ss' m' : an_ok (r_answer r) = false -> r_word r = word -> nth_error ss (addressed (length ss) (r_label r)) = Some st ->
    rectify FO f32_pack erf (decode text) info (md_rect c) (scale_plain FO) (forced_wrong FO) m st word = Ok (m1, p) -> r_sent r = pr_llr p ->
    ldpc (r_sent r) = Ok (r_answer r) -> learned st (r_answer r) channel_bits st' adds -> takes m1 adds ->
    works channel_bits n (set_nth ss (addressed (length ss) (r_label r)) st') (bm_run FO f32_pack erf m1 adds) (an_soft (r_answer r)) rs q ss' m' ->
    works channel_bits (S n) ss m word (r :: rs) q ss' m'.

(** Successive labels: 0 with one cluster; counting round without classifier; else what the classifier says of the known bits of the received word. *)
Inductive labels (kl : list (F FO) -> list (F FO) -> F FO) (channel_bits : list Z) : Z -> classifier -> list Z -> Z -> classifier -> Prop :=
| B_nil i k : labels kl channel_bits i k [] i k
| B_single i k l i' k' : md_clusters c <= 1 -> labels kl channel_bits i k l i' k' -> labels kl channel_bits i k (0%Z :: l) i' k'
| B_count i k l i' k' : 1 < md_clusters c -> md_cluster c = false -> labels kl channel_bits ((i + 1) mod Z.of_nat (md_clusters c)) k l i' k' ->
    labels kl channel_bits i k (((i + 1) mod Z.of_nat (md_clusters c))%Z :: l) i' k'
| B_class i k k1 bits x l i' k' : 1 < md_clusters c -> md_cluster c = true -> map Some bits = map (nth_error channel_bits) (md_idx c) -> classify FO kl k bits = (k1, Ok x) ->
    labels kl channel_bits i k1 l i' k' -> labels kl channel_bits i k (x :: l) i' k'.

(** What several calls teach: for each the received bits and its runs. *)
Inductive lessons : list (option structure) -> list (list Z * list run) -> list (option structure) -> list bm_event -> Prop :=
| S_nil ss : lessons ss [] ss []
| S_call ss bits rs ss1 adds l ss' adds' : taught bits ss rs ss1 adds -> lessons ss1 l ss' adds' -> lessons ss ((bits, rs) :: l) ss' (adds ++ adds').

(** The answer of a call with these runs: that of the last run, with the iterations of all of them. *)
Definition final (runs : list run) (r : run) : answer := (an_estimate (r_answer r), an_soft (r_answer r), an_ok (r_answer r), fold_right Z.add 0%Z (map (fun r => an_iterations (r_answer r)) runs), snd (r_answer r)).

Definition sum_iterations (rs : list run) : Z := fold_right Z.add 0%Z (map (fun r => an_iterations (r_answer r)) rs).
End MavDec.
Arguments an_estimate {FO X}.
Arguments an_soft {FO X}.
Arguments an_ok {FO X}.
Arguments an_iterations {FO X}.
Arguments Run {FO X}.
Arguments r_label {FO X}.
Arguments r_word {FO X}.
Arguments r_sent {FO X}.
Arguments r_answer {FO X}.
Arguments sum_iterations {FO X}.
Arguments grown {FO}.
Arguments final {FO X}.
Arguments takes {FO}.
