(** C47, C48, C50, C62: the decoders that learn the entropy of single bits. *)
From Coq Require Import List ZArith NArith QArith Reals Lra Bool Lia Arith Sorted.
From Verif.Model Require Import Py Float InfoTheory Mavlink Segmentation DecoderBase EntropyDecoder.
From Verif.Spec Require Import Bytes Header Frame Segment RealOps Info Cluster Stats EmleSpec DecoderSpec.
From Verif.Proofs Require Import Base ValuesP SegmentP SegStream SegMore RealP InfoP EmleP DecoderP EntropyDecP.
From Verif.Props Require Import MavlinkProps.
Import ListNotations.
Local Close Scope Q_scope.
Local Close Scope R_scope.

(** ** C47 *)

(** The model bits are the information bits among the first model_length code bits, in order. *)
Theorem c47_model_bits FO info ml thr clip min w model : info_positions info ml (ed_idx FO (fst (ed_init FO info ml thr clip min w model))).
Proof. unfold ed_init. destruct model as [[rows cols]|]; apply model_index_positions. Qed.
Print Assumptions c47_model_bits.
Example c47_ex_bits : ed_idx Qops (fst (ed_init Qops [true; false; true; true; false] 3 0%Q 0%Q 1 None None)) = [0; 2].
Proof. reflexivity. Qed.

(** A buffer counts as recovered when a segmentation of its packed bits into frames of the dialect leaves no byte over; packing puts
    eight bits into a byte, the first one on top, and fills up with zeros. *)
Theorem c47_recovered text bits : recognised (decode text) bits = true <->
  exists b s pad, pad < 8 /\ is_bytes b /\ bytes_bits b = map (fun z => negb (Z.eqb z 0)) bits ++ repeat false pad /\
    segments (fun f => exists c, frame_v1 c f) b s /\ forall j, j < length b -> covered b s j.
Proof.
  rewrite recognised_iff. split.
  - intros (parts & v & s & E & Co). destruct (pack_bits bits) as (pad & Hp & Eb). exists (pack bits), s, pad. assert (B : is_bytes (pack bits)) by apply packbits_bytes.
    split; [exact Hp|]. split; [exact B|]. split; [exact Eb|]. split; [|exact Co]. apply (segment_decode_iff text _ parts v s B) in E. apply E.
  - intros (b & s & pad & Hp & B & Eb & Sg & Co). destruct (pack_bits bits) as (pad' & Hp' & Eb').
    assert (b = pack bits).
    { assert (L : length b = length (pack bits)).
      { apply (f_equal (@length bool)) in Eb, Eb'. change (bytes_bits b) with (flat_map byte_bits b) in Eb. rewrite flat_map_byte_bits, app_length, map_length, repeat_length in Eb, Eb'. lia. }
      assert (pad = pad').
      { apply (f_equal (@length bool)) in Eb, Eb'. change (bytes_bits b) with (flat_map byte_bits b) in Eb. rewrite flat_map_byte_bits, app_length, map_length, repeat_length in Eb, Eb'. lia. }
      subst pad'. assert (E : flat_map byte_bits b = flat_map byte_bits (pack bits)) by (rewrite Eb'; exact Eb). clear - E L B. assert (B' : is_bytes (pack bits)) by apply packbits_bytes.
      revert E L B'. generalize (pack bits). intro q. revert q. induction B as [|x b Hx B IH]; intros [|y q] E L B'; cbn in L; try discriminate; [reflexivity|].
      inversion B' as [|? ? Hy Bq]; subst. cbn [flat_map] in E. assert (Ex : byte_bits x = byte_bits y /\ flat_map byte_bits b = flat_map byte_bits q) by (unfold byte_bits in *; cbn [map app] in *; inversion E; auto).
      destruct Ex as [Ex Eq]. f_equal; [|apply IH; auto]. rewrite <- (ValuesP.bits_value_byte x Hx), <- (ValuesP.bits_value_byte y Hy), Ex. reflexivity. }
    subst b. destruct (segment_decode_total text (pack bits) B) as (parts & v & s' & E). exists parts, v, s'. split; [exact E|].
    apply (segment_decode_iff text _ parts v s' B) in E. destruct E as (Sg' & _). rewrite (upto_unique (pack bits) (length (pack bits)) s' s Sg' Sg). exact Co.
Qed.
Print Assumptions c47_recovered.

(** One decoding.  The answer is the plain LDPC answer when that succeeds, else the LDPC answer for the predicted word, together with
    the number of messages found in its model bits; a given model and buffers not fully recovered leave the model as it was. *)
Theorem c47_decode {D W X} (parser : bytes -> res D) FO (c : ed_conf FO) predict (ldpc : list W -> res (list Z * X * bool * Z)) m word e l ok it parts v s :
  final_run ldpc (predict m) word (e, l, ok, it) -> Forall (fun i => i < length e) (ed_idx FO c) ->
  segment_buffer parser (pack (picked e (ed_idx FO c))) = Ok (parts, v, s) ->
  length (ed_idx FO c) = ed_length FO c ->
  exists m', ed_decode FO parser c predict ldpc m word = (m', Ok (e, l, ok, it, length s)) /\
    (ed_given FO c = true \/ recognised parser (picked e (ed_idx FO c)) = false -> m' = m).
Proof.
  intros Fr In' Sg L. rewrite (decode_final parser c predict ldpc m word _ Fr), finish_spec, Sg.
  replace (forallb (fun i => Nat.ltb i (length e)) (ed_idx FO c)) with true
    by (symmetry; apply forallb_forall; intros i Hi; apply Nat.ltb_lt; rewrite Forall_forall in In'; auto).
  destruct (recognised parser (picked e (ed_idx FO c))), (ed_given FO c); cbn [andb negb]; try (eexists; split; [reflexivity|auto]; fail).
  unfold learn_plain. replace (length (picked e (ed_idx FO c))) with (length (ed_idx FO c)) by (symmetry; apply map_length). rewrite L, Nat.eqb_refl. cbn [negb].
  unfold data_prob. rewrite InfoP.prob_mat. cbn [bind fst snd entropy]. eexists. split; [reflexivity|]. intros [Q|Q]; discriminate.
Qed.
Print Assumptions c47_decode.
(** No answer: an exception, and the model is as before. *)
Theorem c47_no_answer {D W X} (parser : bytes -> res D) FO (c : ed_conf FO) predict (ldpc : list W -> res (list Z * X * bool * Z)) m word :
  (forall r, ~ final_run ldpc (predict m) word r) -> exists x, ed_decode FO parser c predict ldpc m word = (m, Err x).
Proof. intro H. destruct (decode_cases parser c predict ldpc m word) as [(r & Fr & _)|E]; [exfalso; exact (H r Fr)|exact E]. Qed.
Print Assumptions c47_no_answer.

(** What is learned by any sequence of calls with any LDPC results, when the first model_length code bits are information bits: the
    stored data are the last window_length recovered buffers among the answers, the model holds the frequency of ones and the entropy of
    every bit. *)
Theorem c47_history {D W X} (parser : bytes -> res D) info ml thr clip min w (predict : ed_conf Rops -> entropy_model Rops -> list W -> res (list W))
  (calls : list ((list W -> res (list Z * X * bool * Z)) * list W)) c m0 m outs :
  (forall i, i < ml -> nth i info false = true) -> 1 <= ml -> ed_init Rops info ml thr clip min w None = (c, m0) ->
  in_turn (fun m call => ed_decode Rops parser c (predict c) (fst call) m (snd call)) m0 calls = (m, outs) -> Forall (Forall is_bit) (estimates outs) ->
  let data := kept w (filter (recognised parser) (map (fun e => picked e (seq 0 ml)) (estimates outs))) in
  em_data m = data /\ (data <> [] -> knows m (map (share data 1) (seq 0 ml))).
Proof.
  intros Hi Hn E T B. cbn zeta. destruct (learned parser info ml thr clip min w predict calls c m0 m outs Hi Hn E T B) as (_ & H1 & _ & H2).
  split; [exact H1|]. intro N. apply H2, N.
Qed.
Print Assumptions c47_history.

(** A given model is never changed; it is the given matrix cut to the number of model bits. *)
Theorem c47_given {D W X} (parser : bytes -> res D) FO info ml thr clip min w rows cols (predict : ed_conf FO -> entropy_model FO -> list W -> res (list W))
  (calls : list ((list W -> res (list Z * X * bool * Z)) * list W)) c m0 :
  ed_init FO info ml thr clip min w (Some (rows, cols)) = (c, m0) ->
  fst (in_turn (fun m call => ed_decode FO parser c (predict c) (fst call) m (snd call)) m0 calls) = m0 /\
  em_rows m0 = firstn (length (ed_idx FO c)) rows /\ em_cols m0 = cols.
Proof.
  intro E. unfold ed_init in E. inversion E; subst. clear E. split.
  - apply in_turn_frozen. intros [ldpc word]. apply decode_frozen. left. reflexivity.
  - cbn [em_rows em_cols ed_idx]. split; [|reflexivity]. set (k := length (model_index info ml)). destruct (Nat.le_ge_cases (length rows) k).
    + rewrite Nat.min_l by auto. rewrite firstn_all, firstn_all2 by auto. reflexivity.
    + rewrite Nat.min_r by auto. reflexivity.
Qed.
Print Assumptions c47_given.

(** Defect: when some of the first model_length code bits are not information bits, every recovered buffer makes decode_buffer raise
    IncorrectBufferLength, and nothing is ever learned. *)
Theorem c47_wrong_length_refuted {D W X} (parser : bytes -> res D) FO info ml thr clip min w (predict : ed_conf FO -> entropy_model FO -> list W -> res (list W)) c m0 i :
  ed_init FO info ml thr clip min w None = (c, m0) -> i < ml -> nth i info false = false ->
  (forall calls : list ((list W -> res (list Z * X * bool * Z)) * list W),
     fst (in_turn (fun m call => ed_decode FO parser c (predict c) (fst call) m (snd call)) m0 calls) = m0) /\
  (forall (ldpc : list W -> res (list Z * X * bool * Z)) word e l ok it,
     final_run ldpc (predict c m0) word (e, l, ok, it) -> Forall (fun i => i < length e) (ed_idx FO c) ->
     recognised parser (picked e (ed_idx FO c)) = true -> ed_decode FO parser c (predict c) ldpc m0 word = (m0, Err IncorrectBufferLength)).
Proof.
  intros E Hi Hf. unfold ed_init in E. inversion E; subst. clear E.
  assert (Ln : length (model_index info ml) <> ml).
  { intro L. assert (In i (model_index info ml)) by (rewrite (full_positions info ml _ (model_index_positions info ml) L); apply in_seq; lia).
    apply (model_index_positions info ml) in H. destruct H. congruence. }
  split.
  - intro calls. apply in_turn_frozen. intros [ldpc word]. apply decode_frozen. right. exact Ln.
  - intros ldpc word e l ok it Fr In' Rc. rewrite (decode_final parser _ _ ldpc em_new word _ Fr), finish_spec.
    replace (forallb (fun i => Nat.ltb i (length e)) _) with true
      by (symmetry; apply forallb_forall; intros j Hj; apply Nat.ltb_lt; rewrite Forall_forall in In'; auto).
    cbn [ed_idx ed_given ed_window ed_length] in *. pose proof Rc as Rc'. unfold recognised in Rc'. destruct (segment_buffer parser (pack (picked e (model_index info ml)))) as [[[parts v] s]|x]; [|discriminate].
    rewrite Rc. cbn [andb negb]. unfold learn_plain. unfold picked at 1. rewrite map_length. destruct (Nat.eqb_spec (length (model_index info ml)) ml); [contradiction|]. reflexivity.
Qed.
Print Assumptions c47_wrong_length_refuted.

(** A heartbeat is received twice (the second time after a prediction), then something else, with a window of one buffer. *)
Definition hb_bits : list Z := map (fun b : bool => if b then 1%Z else 0%Z) (bytes_bits hb).
Definition hb_info : list bool := repeat true 136 ++ repeat false 4.
Definition hb_ldpc (ok : list Z -> bool) (e : list Z) (w : list Z) : res (list Z * unit * bool * Z) := Ok (e, tt, ok w, 1%Z).
Definition hb_calls := [(hb_ldpc (fun _ => true) (hb_bits ++ repeat 0%Z 4), repeat 0%Z 140); (hb_ldpc (fun _ => false) (repeat 0%Z 140), repeat 0%Z 140);
                        (hb_ldpc (fun _ => false) (hb_bits ++ repeat 1%Z 4), repeat 0%Z 140)].
Example c47_ex : let '(c, m0) := ed_init Qops hb_info 136 (1 # 10)%Q 1%Q 1 (Some 1%Z) None in
  let '(m, outs) := in_turn (fun m call => ed_decode Qops (decode (fun b => b)) c (ed_flip Qops c) (fst call) m (snd call)) m0 hb_calls in
  em_data m = [hb_bits] /\ map (fun o => match o with Ok (_, _, _, _, n) => n | Err _ => 9 end) outs = [1; 0; 1] /\
  estimates outs = [hb_bits ++ repeat 0%Z 4; repeat 0%Z 140; hb_bits ++ repeat 1%Z 4].
Proof. vm_compute. repeat split. Qed.
Example c47_ex_recovered : recognised (decode (fun b => b)) hb_bits = true /\ recognised (decode (fun b => b)) (hb_bits ++ repeat 0%Z 8) = false.
Proof. split; vm_compute; reflexivity. Qed.

(** ** C48 *)

(** Rectification by a learned model: every model bit whose entropy lies below the threshold gets the log ratio of its frequencies, cut
    at clipping_factor times the largest value of the word, all other positions stay as they are. *)
Theorem c48_learned {D W X} (parser : bytes -> res D) info ml thr clip min w (predict : ed_conf Rops -> entropy_model Rops -> list W -> res (list W))
  (calls : list ((list W -> res (list Z * X * bool * Z)) * list W)) c m0 m outs obs mx :
  (forall i, i < ml -> nth i info false = true) -> 1 <= ml -> ed_init Rops info ml thr clip min w None = (c, m0) ->
  in_turn (fun m call => ed_decode Rops parser c (predict c) (fst call) m (snd call)) m0 calls = (m, outs) -> Forall (Forall is_bit) (estimates outs) ->
  ml <= length obs -> largest obs mx ->
  let data := kept w (filter (recognised parser) (map (fun e => picked e (seq 0 ml)) (estimates outs))) in
  (data = [] \/ (Z.of_nat (length data) < min)%Z -> ed_predict Rops c m obs = Ok obs) /\
  (data <> [] -> (min <= Z.of_nat (length data))%Z -> exists out, ed_predict Rops c m obs = Ok out /\
     shifted (seq 0 ml) (fun j => (bit_entropy (share data 1 j) < thr)%R) (fun j => limited (clip * mx) (log_ratio (share data 1 j))) obs out).
Proof.
  intros Hi Hn E T B Lo Mx. cbn zeta. destruct (learned parser info ml thr clip min w predict calls c m0 m outs Hi Hn E T B) as (-> & Em & Le & Kn). split.
  - intro H. apply predict_waits; [cbn [ed_idx]; rewrite seq_length; exact Le|]. intros [G|[G1 G2]]; [discriminate|]. cbn [ed_min] in G2. rewrite Em in G1, G2. destruct H as [H|H]; [rewrite H in G1; discriminate|lia].
  - intros N Hm. destruct (Kn N) as [Km Ne].
    destruct (predict_knows (EdConf Rops (seq 0 ml) ml thr clip min w false) m _ obs mx Km) as (out & Eo & Sh).
    { cbn [ed_idx]. rewrite map_length. reflexivity. } { apply seq_NoDup. } { apply Forall_forall. intros i H. apply in_seq in H. lia. }
    { right. rewrite Em. cbn [ed_min]. auto. } { exact Mx. }
    exists out. split; [exact Eo|]. cbn [ed_idx ed_threshold ed_clip] in Sh. destruct Sh as (S1 & S2 & S3 & S4). split; [exact S1|].
    assert (Nj : forall j, j < ml -> nth j (map (share (kept w (filter (recognised parser) (map (fun e => picked e (seq 0 ml)) (estimates outs)))) 1) (seq 0 ml)) 0%R =
                                     share (kept w (filter (recognised parser) (map (fun e => picked e (seq 0 ml)) (estimates outs)))) 1 j).
    { intros j Hj. apply PerfP.nth_map_seq. exact Hj. }
    rewrite seq_length in *. split; [|split; [|exact S4]].
    + intros j Hj On. rewrite S2; [|exact Hj|rewrite Nj; auto]. rewrite Nj by auto. reflexivity.
    + intros j Hj On. apply S3; [exact Hj|]. rewrite Nj; auto.
Qed.
Print Assumptions c48_learned.

(** The same with a given model of the model bits. *)
Theorem c48_given info ml thr clip min w ps c m0 obs mx :
  ed_init Rops info ml thr clip min w (Some (map (fun p => [1 - p; p]%R) ps, 2)) = (c, m0) -> Forall (fun p => (0 <= p <= 1)%R) ps ->
  length (ed_idx Rops c) <= length ps -> Forall (fun i => i < length obs) (ed_idx Rops c) -> largest obs mx ->
  exists out, ed_predict Rops c m0 obs = Ok out /\
     shifted (ed_idx Rops c) (fun j => (bit_entropy (nth j ps 0) < thr)%R) (fun j => limited (clip * mx) (log_ratio (nth j ps 0%R))) obs out.
Proof.
  intros E Hp Ln Lo Mx. unfold ed_init in E. inversion E; subst. clear E. cbn [ed_idx] in *. rewrite map_length. set (idx := model_index info ml) in *.
  replace (Nat.min (length ps) (length idx)) with (length idx) by lia. rewrite firstn_map.
  assert (Kn : knows (@EM Rops [] (map (fun p => [1 - p; p]%R) (firstn (length idx) ps)) 2 (map (row_entropy Rops 2) (map (fun p => [1 - p; p]%R) (firstn (length idx) ps)))) (firstn (length idx) ps)).
  { split; [reflexivity|]. split; [reflexivity|]. cbn [em_entropy]. rewrite map_map. apply map_ext_in. intros p Hi. apply shannon_bit. rewrite Forall_forall in Hp.
    apply Hp. rewrite <- (firstn_skipn (length idx) ps). apply in_or_app. left. exact Hi. }
  destruct (predict_knows (EdConf Rops idx (length idx) thr clip min w true) _ _ obs mx Kn) as (out & Eo & Sh).
  { cbn [ed_idx]. rewrite firstn_length. lia. } { apply sorted_lt_nodup, model_index_positions. } { exact Lo. } { left. reflexivity. } { exact Mx. }
  exists out. split; [exact Eo|]. cbn [ed_idx ed_threshold ed_clip] in Sh. destruct Sh as (S1 & S2 & S3 & S4). split; [exact S1|].
  assert (Nj : forall j, j < length idx -> nth j (firstn (length idx) ps) 0%R = nth j ps 0%R) by (intros j Hj; apply nth_firstn; exact Hj).
  split; [|split; [|exact S4]].
  - intros j Hj On. rewrite S2; [|exact Hj|rewrite Nj; auto]. rewrite Nj by auto. reflexivity.
  - intros j Hj On. apply S3; [exact Hj|]. rewrite Nj; auto.
Qed.
Print Assumptions c48_given.

(** There is no largest value of an empty word: it raises ValueError, if the model covers its positions. *)
Theorem c48_empty info ml thr clip min w ps c m0 :
  ed_init Rops info ml thr clip min w (Some (map (fun p => [1 - p; p]%R) ps, 2)) = (c, m0) -> length (ed_idx Rops c) <= length ps ->
  ed_predict Rops c m0 [] = Err ValueError.
Proof.
  intros E Ln. unfold ed_init in E. inversion E; subst. clear E. cbn [ed_idx] in *. unfold ed_predict. cbn [ed_idx ed_threshold ed_given orb].
  rewrite mask_index_ok; [reflexivity|]. unfold low_entropy. cbn [em_entropy]. rewrite !map_length, firstn_length, map_length. lia.
Qed.
Print Assumptions c48_empty.

(** Hence no value moves by more than the bound, and a structural bit moves towards the value the model favours (ties and a bound of 0:
    not at all); with a negative bound (no positive value in the word) every structural bit is lowered by it, whatever the model says. *)
Theorem c48_effect idx (ps : nat -> R) thr bound obs out : (forall j, j < length idx -> (0 <= ps j <= 1)%R) ->
  shifted idx (fun j => (bit_entropy (ps j) < thr)%R) (fun j => limited bound (log_ratio (ps j))) obs out ->
  ((0 <= bound)%R -> forall p, (Rabs (nth p out 0 - nth p obs 0) <= bound)%R) /\
  (forall j, j < length idx -> (bit_entropy (ps j) < thr)%R ->
     let before := nth (nth j idx 0) obs 0%R in let after := nth (nth j idx 0) out 0%R in
     ((0 < bound)%R -> (ps j < 1 / 2 -> before < after)%R /\ (1 / 2 < ps j -> after < before)%R /\ (ps j = 1 / 2 -> after = before)%R) /\
     ((bound < 0)%R -> after = before + bound)%R).
Proof.
  intros Hp (S1 & S2 & S3 & S4). split.
  - intros Hb p. destruct (in_dec Nat.eq_dec p idx) as [I|I]; [|rewrite (S4 p I), Rminus_diag_eq, Rabs_R0 by reflexivity; exact Hb].
    apply (In_nth _ _ 0) in I. destruct I as (j & Hj & <-). destruct (Rlt_dec (bit_entropy (ps j)) thr) as [On|On].
    + rewrite (S2 j Hj On). replace (_ + _ - _)%R with (limited bound (log_ratio (ps j))) by ring. apply Rabs_le. apply limited_bound. exact Hb.
    + rewrite (S3 j Hj On), Rminus_diag_eq, Rabs_R0 by reflexivity. exact Hb.
  - intros j Hj On. cbn zeta. rewrite (S2 j Hj On). destruct (log_ratio_lt (ps j) (Hp j Hj)) as (L1 & L2 & L3). split.
    + intro Hb. destruct (limited_sign bound (log_ratio (ps j)) Hb) as (M1 & M2 & M3). repeat split; intro H.
      * specialize (M1 (L1 H)). lra.
      * specialize (M2 (L2 H)). lra.
      * rewrite (M3 (L3 H)). ring.
    + intro Hb. rewrite limited_negative by exact Hb. reflexivity.
Qed.
Print Assumptions c48_effect.

(** Defect, concretely: the model is certain of a 0, the word says 1 everywhere; the rectified word says 1 more strongly. *)
Theorem c48_direction_refuted : exists c m obs out, ed_init Rops [true; false] 1 1%R 1%R 1 None (Some ([[1; 0]%R], 2)) = (c, m) /\
  ed_predict Rops c m obs = Ok out /\ (nth 0 out 0 < nth 0 obs 0 < 0)%R.
Proof.
  destruct (ed_init Rops [true; false] 1 1%R 1%R 1 None (Some ([[1; 0]%R], 2))) as [c m] eqn:E. exists c, m, [-2; -1]%R.
  assert (Ei : ed_idx Rops c = [0]) by (unfold ed_init in E; inversion E; reflexivity).
  destruct (c48_given [true; false] 1 1%R 1%R 1 None [0%R] c m [-2; -1]%R (-1)%R) as (out & Eo & Sh).
  { rewrite <- E. replace (map (fun p : R => [1 - p; p]%R) [0%R]) with [[1; 0]%R]; [reflexivity|]. cbn [map]. repeat f_equal. lra. }
  { apply Forall_cons; [lra|constructor]. } { rewrite Ei. cbn. lia. } { rewrite Ei. repeat constructor. }
  { split; [right; left; reflexivity|]. apply Forall_cons; [lra|]. apply Forall_cons; [lra|constructor]. }
  exists out. split; [reflexivity|]. split; [exact Eo|]. rewrite Ei in Sh.
  destruct (c48_effect [0] (fun j => nth j [0%R] 0%R) 1%R (1 * -1)%R [-2; -1]%R out) as (_ & H); [|exact Sh|].
  - intros [|j] Hj; cbn in *; [lra|lia].
  - assert (H0 : (bit_entropy 0 < 1)%R).
    { unfold bit_entropy, shannon. cbn. destruct (Rlt_dec 0 (1 - 0)); [|lra]. destruct (Rlt_dec 0 0); [lra|]. unfold log_in. replace (1 - 0)%R with 1%R by lra. rewrite ln_1. unfold Rdiv. lra. }
    destruct (H 0 ltac:(cbn; lia) H0) as (_ & Hn). specialize (Hn ltac:(lra)). change (nth (nth 0 [0] 0) [-2; -1]%R 0%R) with (-2)%R in Hn. change (nth 0 [-2; -1]%R 0%R) with (-2)%R. change (nth 0 [0] 0) with 0 in Hn. change (F Rops) with R in *. rewrite Hn. split; lra.
Qed.
Print Assumptions c48_direction_refuted.

(** Defect: a given model with fewer rows than model bits (but at least one) makes every prediction raise IndexError. *)
Theorem c48_short_model_refuted FO info ml thr clip min w rows cols c m0 obs :
  ed_init FO info ml thr clip min w (Some (rows, cols)) = (c, m0) -> 0 < length rows < length (ed_idx FO c) -> ed_predict FO c m0 obs = Err IndexError.
Proof.
  intros E L. unfold ed_init in E. inversion E; subst. clear E. cbn [ed_idx] in L. unfold ed_predict. cbn [ed_idx ed_threshold]. rewrite Nat.min_l by lia. rewrite firstn_all.
  rewrite mask_index_bad; [reflexivity| |].
  - unfold low_entropy. cbn [em_entropy]. rewrite !map_length. lia.
  - unfold low_entropy. cbn [em_entropy]. destruct rows; [cbn in L; lia|discriminate].
Qed.
Print Assumptions c48_short_model_refuted.
Example c48_ex_short : let '(c, m0) := ed_init Qops [true; true; false] 2 1%Q 1%Q 1 None (Some ([[1; 0]%Q], 2)) in ed_predict Qops c m0 [1; 2; 3]%Q = Err IndexError.
Proof. vm_compute. reflexivity. Qed.
(** Bits 0 and 2 are model bits, of probability 0 and 1/2; only the first is structural.  The bound 3 * 1 is below the log ratio. *)
Example c48_ex : exists c m out, ed_init Rops [true; false; true] 3 (1 / 2)%R 3%R 1 None (Some (map (fun p => [1 - p; p]%R) [0; 1 / 2]%R, 2)) = (c, m) /\
  ed_predict Rops c m [-1; 1; 1]%R = Ok out /\ (-1 < nth 0 out 0 /\ nth 1 out 0 = 1)%R.
Proof.
  destruct (ed_init Rops [true; false; true] 3 (1 / 2)%R 3%R 1 None (Some (map (fun p => [1 - p; p]%R) [0; 1 / 2]%R, 2))) as [c m] eqn:E. exists c, m.
  assert (Ei : ed_idx Rops c = [0; 2]) by (unfold ed_init in E; inversion E; reflexivity).
  destruct (c48_given [true; false; true] 3 (1 / 2)%R 3%R 1 None [0; 1 / 2]%R c m [-1; 1; 1]%R 1%R E) as (out & Eo & Sh).
  { apply Forall_cons; [lra|]. apply Forall_cons; [lra|constructor]. } { rewrite Ei. cbn. lia. } { rewrite Ei. apply Forall_cons; [cbn; lia|]. apply Forall_cons; [cbn; lia|constructor]. }
  { split; [right; left; reflexivity|]. repeat (apply Forall_cons; [lra|]). constructor. }
  exists out. split; [reflexivity|]. split; [exact Eo|]. rewrite Ei in Sh. split.
  - assert (H0 : (bit_entropy 0 < 1 / 2)%R).
    { unfold bit_entropy, shannon. cbn. destruct (Rlt_dec 0 (1 - 0)); [|lra]. destruct (Rlt_dec 0 0); [lra|]. unfold log_in. replace (1 - 0)%R with 1%R by lra. rewrite ln_1. unfold Rdiv. lra. }
    destruct (c48_effect [0; 2] (fun j => nth j [0; 1 / 2]%R 0%R) (1 / 2)%R (3 * 1)%R [-1; 1; 1]%R out) as (_ & H); [|exact Sh|].
    + intros [|[|j]] Hj; cbn in *; [lra|lra|lia].
    + destruct (H 0 ltac:(cbn; lia) H0) as (Hn & _). destruct (Hn ltac:(lra)) as (Hn' & _). change (nth (nth 0 [0; 2] 0) [-1; 1; 1]%R 0%R) with (-1)%R in Hn'. change (nth 0 [0; 2] 0) with 0 in Hn'. apply Hn'. cbn. lra.
  - destruct Sh as (_ & _ & _ & S4). apply (S4 1). intros [H|[H|[]]]; discriminate.
Qed.

(** ** C50 *)

(** The learners that correct for the channel (classifying and combined decoders): as long as all bits in the window are equal, learning
    raises IndexError after storing the buffer; else they know the corrected frequencies. *)
Theorem c50_learn w n f m h bits : f <> (1 / 2)%R -> 1 <= n -> Forall (bits_of_length n) (h ++ [bits]) -> em_data m = kept w h ->
  let data := kept w (h ++ [bits]) in
  (mixed data -> exists m', learn_corrected Rops w n f m bits = (m', Ok tt) /\ em_data m' = data /\ knows m' (map (fun i => unflipped f (share data 1 i)) (seq 0 n))) /\
  (~ mixed data -> learn_corrected Rops w n f m bits = (EM data (em_rows m) (em_cols m) (em_entropy m), Err IndexError)).
Proof. intros _. apply learn_corrected_spec. Qed.
Print Assumptions c50_learn.
(** The plain learner never raises for them, but prediction does, in both variants. *)
Theorem c50_plain w n m h bits c obs : 1 <= n -> Forall (bits_of_length n) (h ++ [bits]) -> describes n m (kept w h) -> ed_given Rops c = false ->
  length (ed_idx Rops c) = n -> obs <> [] ->
  let data := kept w (h ++ [bits]) in
  data <> [] -> ~ mixed data -> (ed_min Rops c <= Z.of_nat (length data))%Z ->
  exists m', learn_plain Rops w n m bits = (m', Ok tt) /\ ed_predict Rops c m' obs = Err IndexError /\ (forall word, ed_flip Rops c m' word = Err IndexError).
Proof.
  intros Hn H Dm G Li No. cbn zeta. intros Nd M Hm. destruct (learn_plain_describes w n m h bits Hn H Dm) as (m' & E & (Ed & Le & De)). exists m'. split; [exact E|].
  destruct (De Nd) as [_ Cn]. destruct (Cn M) as (C1 & C2 & C3).
  assert (Rd : EntropyDecP.ready c m').
  { right. rewrite Ed. split; [|exact Hm]. destruct (kept w (h ++ [bits])) as [|b t] eqn:K; [contradiction|]. cbn [em_empty]. rewrite Forall_forall in H.
    rewrite (proj1 (H b ltac:(apply (kept_incl w); rewrite K; left; reflexivity))). apply Nat.eqb_neq. lia. }
  split.
  - apply (predict_constant c m' obs n); auto. rewrite C3, repeat_length. reflexivity.
  - intro word. unfold ed_flip. destruct Rd as [Q|[R1 R2]]; [congruence|]. rewrite G, R1. cbn [negb andb orb]. replace (_ <? _)%Z with false by (symmetry; apply Z.ltb_ge; lia).
    rewrite mask_index_ok by (unfold low_entropy; rewrite map_length, C3, repeat_length; congruence). cbn [bind]. unfold Clustering.column. rewrite C1. reflexivity.
Qed.
Print Assumptions c50_plain.
(** It cannot happen to EntropyBitwiseDecoder and EntropyBitwiseFlippingDecoder through decode_buffer: what they store holds the start
    marker of a frame. *)
Theorem c50_recovered_is_mixed {D} (parser : bytes -> res D) n w h : 1 <= n -> Forall (bits_of_length n) h -> Forall (fun b => recognised parser b = true) h ->
  kept w h <> [] -> mixed (kept w h).
Proof. apply recognised_mixed. Qed.
Print Assumptions c50_recovered_is_mixed.
Example c50_ex : snd (learn_corrected Qops None 2 0%Q em_new [1; 1]%Z) = Err IndexError /\ em_data (fst (learn_corrected Qops None 2 0%Q em_new [1; 1]%Z)) = [[1; 1]%Z] /\
  snd (learn_corrected Qops None 2 0%Q (EM [[1; 1]%Z] [] 0 []) [1; 0]%Z) = Ok tt.
Proof. split; [|split]; vm_compute; reflexivity. Qed.

(** ** C62 *)

(** The flipping decoder with a learned model sets every structural bit to its more frequent value and leaves the others alone. *)
Theorem c62_learned {D W X} (parser : bytes -> res D) info ml thr clip min w (predict : ed_conf Rops -> entropy_model Rops -> list W -> res (list W))
  (calls : list ((list W -> res (list Z * X * bool * Z)) * list W)) c m0 m outs obs :
  (forall i, i < ml -> nth i info false = true) -> 1 <= ml -> ed_init Rops info ml thr clip min w None = (c, m0) ->
  in_turn (fun m call => ed_decode Rops parser c (predict c) (fst call) m (snd call)) m0 calls = (m, outs) -> Forall (Forall is_bit) (estimates outs) ->
  ml <= length obs ->
  let data := kept w (filter (recognised parser) (map (fun e => picked e (seq 0 ml)) (estimates outs))) in
  (data = [] \/ (Z.of_nat (length data) < min)%Z -> ed_flip Rops c m obs = Ok obs) /\
  (data <> [] -> (min <= Z.of_nat (length data))%Z -> exists out, ed_flip Rops c m obs = Ok out /\ length out = length obs /\
     (forall j, j < ml -> (bit_entropy (share data 1 j) < thr)%R -> nth j out 0%Z = rounded (share data 1 j)) /\
     (forall j, ~ (j < ml /\ (bit_entropy (share data 1 j) < thr)%R) -> nth j out 0%Z = nth j obs 0%Z)).
Proof.
  intros Hi Hn E T B Lo. cbn zeta. destruct (learned parser info ml thr clip min w predict calls c m0 m outs Hi Hn E T B) as (-> & Em & Le & Kn). split.
  - intro H. apply flip_waits. intros [G|[G1 G2]]; [discriminate|]. cbn [ed_min] in G2. rewrite Em in G1, G2. destruct H as [H|H]; [rewrite H in G1; discriminate|lia].
  - intros N Hm. destruct (Kn N) as [Km Ne]. set (data := kept w (filter (recognised parser) (map (fun e => picked e (seq 0 ml)) (estimates outs)))) in *.
    destruct (flip_knows (EdConf Rops (seq 0 ml) ml thr clip min w false) m _ obs Km) as (Fl & _).
    { cbn [ed_idx]. rewrite map_length. reflexivity. } { apply seq_NoDup. } { apply Forall_forall. intros i H. apply in_seq in H. lia. }
    { right. rewrite Em. cbn [ed_min]. auto. } cbn [ed_idx ed_threshold] in Fl.
    assert (Nj : forall j, j < ml -> nth j (map (share data 1) (seq 0 ml)) 0%R = share data 1 j) by (intros j Hj; apply PerfP.nth_map_seq; exact Hj).
    destruct Fl as (out & Eo & L1 & F1 & F2 & F3).
    { intros j Hj _. rewrite seq_length in Hj. rewrite map_length, seq_length, seq_nth by exact Hj. exact Hj. }
    rewrite seq_length in F1, F2. exists out. split; [exact Eo|]. split; [exact L1|]. split.
    + intros j Hj On. specialize (F1 j Hj). rewrite Nj in F1 by exact Hj. specialize (F1 On). rewrite seq_nth in F1 by exact Hj. cbn [Nat.add] in F1. rewrite Nj in F1 by exact Hj. exact F1.
    + intros j Off. destruct (Nat.lt_ge_cases j ml) as [Hj|Hj].
      * specialize (F2 j Hj). rewrite Nj in F2 by exact Hj. rewrite seq_nth in F2 by exact Hj. apply F2. tauto.
      * apply F3. intro I. apply in_seq in I. lia.
Qed.
Print Assumptions c62_learned.

(** With a given model of n model bits at code positions idx, the value of a structural position is looked up by its code position
    instead of its number among the model bits: IndexError when there is no such row. *)
Theorem c62_given info ml thr clip min w ps c m0 obs :
  ed_init Rops info ml thr clip min w (Some (map (fun p => [1 - p; p]%R) ps, 2)) = (c, m0) -> Forall (fun p => (0 <= p <= 1)%R) ps ->
  length ps = length (ed_idx Rops c) -> Forall (fun i => i < length obs) (ed_idx Rops c) ->
  let low j := (bit_entropy (nth j ps 0) < thr)%R in
  let idx := ed_idx Rops c in
  ((forall j, j < length idx -> low j -> nth j idx 0 < length ps) -> exists out, ed_flip Rops c m0 obs = Ok out /\ length out = length obs /\
    (forall j, j < length idx -> low j -> nth (nth j idx 0) out 0%Z = rounded (nth (nth j idx 0) ps 0%R)) /\
    (forall j, j < length idx -> ~ low j -> nth (nth j idx 0) out 0%Z = nth (nth j idx 0) obs 0%Z) /\
    (forall p, ~ In p idx -> nth p out 0%Z = nth p obs 0%Z)) /\
  ((exists j, j < length idx /\ low j /\ length ps <= nth j idx 0) -> ed_flip Rops c m0 obs = Err IndexError).
Proof.
  intros E Hp Ln Lo. unfold ed_init in E. inversion E; subst. clear E. cbn [ed_idx] in *. set (idx := model_index info ml) in *.
  rewrite map_length. replace (Nat.min (length ps) (length idx)) with (length ps) by lia. rewrite firstn_all2 by (rewrite map_length; lia).
  assert (Kn : knows (@EM Rops [] (map (fun p => [1 - p; p]%R) ps) 2 (map (row_entropy Rops 2) (map (fun p => [1 - p; p]%R) ps))) ps).
  { split; [reflexivity|]. split; [reflexivity|]. cbn [em_entropy]. rewrite map_map. apply map_ext_in. intros p Hi. apply shannon_bit. rewrite Forall_forall in Hp. exact (Hp p Hi). }
  apply (flip_knows (EdConf Rops idx (length ps) thr clip min w true) _ ps obs Kn); auto; [apply sorted_lt_nodup, model_index_positions|left; reflexivity].
Qed.
Print Assumptions c62_given.
(** Hence with a parity bit in front the model bits get the values of their neighbours: the model is certain that bit 1 is a one, yet it
    is set to zero. *)
Lemma sure_bit : bit_entropy 1 = 0%R.
Proof.
  unfold bit_entropy, shannon. cbn [map Rsum fold_right]. destruct (Rlt_dec 0 (1 - 1)); [lra|]. destruct (Rlt_dec 0 1); [|lra]. unfold log_in. rewrite ln_1. unfold Rdiv. lra.
Qed.
Lemma fair_bit : bit_entropy (1 / 2) = 1%R.
Proof.
  unfold bit_entropy, shannon. cbn [map Rsum fold_right]. destruct (Rlt_dec 0 (1 - 1 / 2)); [|lra]. destruct (Rlt_dec 0 (1 / 2)); [|lra]. unfold log_in.
  replace (1 - 1 / 2)%R with (1 / 2)%R by lra. assert (L : (ln (1 / 2) = - ln 2)%R). { unfold Rdiv. rewrite Rmult_1_l. apply ln_Rinv. lra. }
  assert (P : (0 < ln 2)%R) by (rewrite <- ln_1; apply ln_increasing; lra). rewrite L. field. lra.
Qed.
Theorem c62_given_refuted : exists c m0 out, ed_init Rops [false; true; true; false] 3 (1 / 2)%R 0%R 1 None (Some (map (fun p => [1 - p; p]%R) [1; 1 / 2]%R, 2)) = (c, m0) /\
  ed_flip Rops c m0 [1; 1; 1; 1]%Z = Ok out /\ nth 1 out 9%Z = 0%Z.
Proof.
  destruct (ed_init Rops [false; true; true; false] 3 (1 / 2)%R 0%R 1 None (Some (map (fun p => [1 - p; p]%R) [1; 1 / 2]%R, 2))) as [c m0] eqn:E.
  assert (Ei : ed_idx Rops c = [1; 2]) by (unfold ed_init in E; inversion E; reflexivity).
  destruct (c62_given _ _ _ _ _ _ [1; 1 / 2]%R c m0 [1; 1; 1; 1]%Z E) as (H & _).
  { apply Forall_cons; [lra|]. apply Forall_cons; [lra|constructor]. } { rewrite Ei. reflexivity. } { rewrite Ei. repeat constructor. }
  cbn zeta in H. rewrite Ei in H. destruct H as (out & Eo & Lo & H1 & _).
  { intros [|[|j]] Hj Lw; [cbn; lia| |cbn in Hj; lia]. change (nth 1 [1; 1 / 2]%R 0%R) with (1 / 2)%R in Lw. rewrite fair_bit in Lw. lra. }
  exists c, m0, out. split; [reflexivity|]. split; [exact Eo|]. specialize (H1 0 ltac:(cbn; lia)). change (nth 0 [1; 1 / 2]%R 0%R) with 1%R in H1. rewrite sure_bit in H1. specialize (H1 ltac:(lra)).
  cbn [nth] in H1 |- *. unfold rounded in H1. destruct (Rlt_dec (1 / 2) (1 / 2)); [lra|]. rewrite <- H1. apply (nth_indep out 9%Z 0%Z (n := 1)). rewrite Lo. cbn. lia.
Qed.
Print Assumptions c62_given_refuted.
Example c62_ex : let '(c, m0) := ed_init Qops [true; true; false] 2 (1 # 2)%Q 0%Q 1 None (Some ([[0; 1]; [1; 0]]%Q, 2)) in ed_flip Qops c m0 [0; 1; 1]%Z = Ok [1; 0; 1]%Z.
Proof. vm_compute. reflexivity. Qed.
