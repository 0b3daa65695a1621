(** Properties of the combined decoders, and examples. *)
From Coq Require Import String Ascii List ZArith NArith QArith Reals Bool Lia Lra Sorting.Sorted.
From Verif.Model Require Import Py Float Dialect Struct Mavlink Segmentation StatModels Clustering DecoderBase Rectify MavlinkDecoder CombinedDecoder.
From Verif.Spec Require Import RealOps Bytes Bits Header Frame Segment Stats Info Cluster EmleSpec DecoderSpec WeightedSpec ClassSpec FlipSpec RectifySpec MavDecSpec CombinedSpec.
From Verif.Proofs Require Import RectifyP MavDecP CombinedP UnifiedP.
From Verif.Props Require Import MavlinkProps StatProps RectifyProps MavDecProps.
Import ListNotations.
Local Close Scope Q_scope.
Local Close Scope R_scope.

(** C55.  A new decoder is in a proper state: no structures, empty entropy models, field statistics empty or given; the number of model bits
    is as it should be exactly when they are within the word and the information bits are not more than the model bits or come first. *)
Theorem c55_new : forall unified info_idx n ml vt it k vf inf th cl ct clu w dm ce sl db bf c s, co_new Rops unified info_idx n ml vt it k vf inf th cl ct clu w dm ce sl db bf = (c, s) ->
  co_well c s /\ md_structs (co_fields s) = repeat None k /\ md_model (co_fields s) = match dm with Some m => m | None => bm_init Rops [] w end /\ co_entropies s = repeat em_new k /\
  co_unified c = unified /\ co_length c = ml /\ md_clusters (co_md c) = k /\ co_threshold c = th /\ co_clip c = cl /\ co_window c = w /\ co_bit_flip c = bf /\ md_debug (co_md c) = db /\
  md_rect (co_md c) = RectConf vt it vf inf ce sl (match dm with Some _ => false | None => true end) /\
  forall len, fitting c len <-> 1 <= ml <= len /\ (count_occ Bool.bool_dec info_idx true <= ml \/ forall i, i < ml -> nth i info_idx false = true).
Proof.
  intros unified info_idx n ml vt it k vf inf th cl ct clu w dm ce sl db bf c s E. pose proof (co_new_well _ _ _ _ _ _ _ _ _ _ _ _ _ _ _ _ _ _ _ _ _ E) as W. split; [exact W|]. inversion E; subst.
  repeat (split; [destruct dm; reflexivity|]). intro len. unfold fitting. cbn [co_length co_md md_idx].
  split.
  - intros (A & B). apply (index_fits _ _ _ A) in B. destruct B. split; [lia|assumption].
  - intros ((A & A') & B). split; [exact A|]. apply index_fits; [exact A|]. split; assumption.
Qed.
Print Assumptions c55_new.

(** Setting the structures. *)
Theorem c55_set_structures : forall c (s : co_state Rops) l,
  (length l = md_clusters (co_md c) -> exists s', co_set_structures Rops c s l = (s', Ok tt) /\ md_structs (co_fields s') = l /\ md_model (co_fields s') = md_model (co_fields s) /\ co_entropies s' = co_entropies s /\ (co_well c s -> co_well c s')) /\
  (length l <> md_clusters (co_md c) -> co_set_structures Rops c s l = (s, Err ValueError)).
Proof.
  intros. unfold co_set_structures, md_set_structures. split; intro H.
  - rewrite (proj2 (Nat.eqb_eq _ _) H). eexists. split; [reflexivity|]. split; [reflexivity|]. split; [reflexivity|]. split; [reflexivity|]. intros ((W & K) & L & So). split; [split; [exact H|exact K]|split; assumption].
  - apply Nat.eqb_neq in H. rewrite H. destruct s. reflexivity.
Qed.
Print Assumptions c55_set_structures.

(** The answer of a call of CombinedDecoder, and what is learned.  Training calls (label -1) decode the plain word and learn nothing. *)
Theorem c55_answer : forall pack erf kl text info (c : co_conf Rops) X (ldpc : list R -> res (list Z * list R * bool * Z * X)) s word errs s' a label,
  readable info -> co_unified c = None -> co_well c s -> fitting c (length word) -> answers_bits (length word) ldpc ->
  (co_decode Rops pack erf kl (decode text) info c ldpc s word errs = (s', Ok (a, label)) <->
   MavDecSpec.labels Rops (co_md c) kl (map sign_bit word) (md_running (co_fields s)) (md_classifier (co_fields s)) [label] (md_running (co_fields s')) (md_classifier (co_fields s')) /\
   (label = (-1)%Z /\ ldpc word = Ok a /\ md_structs (co_fields s') = md_structs (co_fields s) /\ md_model (co_fields s') = md_model (co_fields s) /\ co_entropies s' = co_entropies s \/
    (0 <= label)%Z /\ labelled pack erf text info c (fun bits => bits)
      (fun _ st w => rectify Rops pack erf (decode text) info (md_rect (co_md c)) (scale_plain Rops) (forced_wrong Rops) (md_model (co_fields s)) st w) ldpc s word errs (Z.to_nat label) a s')).
Proof.
  intros pack erf kl text info c X ldpc s word errs s' a label I Hu W Fi An. rewrite (decode_iff pack erf kl text info c ldpc I s word errs s' a label W Fi An).
  unfold labelled, co_lesson, co_input. rewrite Hu. reflexivity.
Qed.
Print Assumptions c55_answer.

(** A negative label is given exactly while the classifier is trained. *)
Theorem c55_label : forall pack erf kl text info (c : co_conf Rops) X (ldpc : list R -> res (list Z * list R * bool * Z * X)) s word errs s' a label,
  readable info -> co_well c s -> fitting c (length word) -> answers_bits (length word) ldpc ->
  co_decode Rops pack erf kl (decode text) info c ldpc s word errs = (s', Ok (a, label)) ->
  (label = (-1)%Z /\ 1 < md_clusters (co_md c) /\ md_cluster (co_md c) = true /\ (k_samples (md_classifier (co_fields s)) + 1 < k_min (md_classifier (co_fields s)))%Z) \/
  (0 <= label < Z.max 1 (Z.of_nat (md_clusters (co_md c))))%Z.
Proof.
  intros pack erf kl text info c X ldpc s word errs s' a label I W Fi An E. pose proof E as E0. apply (decode_iff pack erf kl text info c ldpc I s word errs s' a label W Fi An) in E. destruct E as [L Cs].
  destruct (labels_one Rops kl _ _ _ _ _ _ _ (proj2 (proj1 W)) L) as [A|[A _]]; [left; exact A|right]. split; [exact A|]. destruct Cs as [(-> & _)|(_ & st & m1 & p & em & ps & mx & w & st' & adds & em' & P1 & _)]; [lia|].
  assert (Z.to_nat label < length (md_structs (co_fields s))) by (apply nth_error_Some; congruence). destruct W as ((Q & _) & _). rewrite Q in *. lia.
Qed.
Print Assumptions c55_label.

(** CombinedDecoder learns whole words: no call with a label answers unless the model length is the length of the word. *)
Theorem c55_length : forall pack erf kl text info (c : co_conf Rops) X (ldpc : list R -> res (list Z * list R * bool * Z * X)) s word errs s' a label,
  co_unified c = None -> co_well c s -> answers_bits (length word) ldpc -> (exists w, ldpc w = Ok a) ->
  co_decode Rops pack erf kl (decode text) info c ldpc s word errs = (s', Ok (a, label)) -> (0 <= label)%Z -> length word = co_length c.
Proof.
  intros pack erf kl text info c X ldpc s word errs s' a label Hu W An (w & Ew) E Hl. pose proof (decode_length pack erf kl text info c ldpc s word errs s' a label W E Hl) as L.
  unfold co_lesson in L. rewrite Hu in L. destruct (An w a Ew) as [L1 _]. destruct (an_ok (FO := Rops) a); [congruence|]. rewrite map_length in L. exact L.
Qed.
Print Assumptions c55_length.

(** Any history of calls of either decoder, whatever they return: the structures and the field statistics are the result of the lessons of at
    most one run for each call; everything else done to the statistics is reading; the state stays proper. *)
Theorem c55_history : forall pack erf kl text info (c : co_conf Rops) X (ldpc : list R -> res (list Z * list R * bool * Z * X)) n l s,
  readable info -> fitting c n -> answers_bits n ldpc -> Forall (fun x => length (fst x) = n) l -> co_well c s ->
  let s' := fold_left (fun s x => fst (co_decode Rops pack erf kl (decode text) info c ldpc s (fst x) (snd x))) l s in
  co_well c s' /\ exists runs adds, MavDecSpec.lessons Rops text info (co_md c) ldpc (md_structs (co_fields s)) (combine (map (fun x => map sign_bit (fst x)) l) runs) (md_structs (co_fields s')) adds /\
    length runs = length l /\ Forall (fun rs => length rs <= 1) runs /\ grown (FO := Rops) pack erf (md_model (co_fields s)) adds (md_model (co_fields s')).
Proof. intros pack erf kl text info c X ldpc n l s I Fi An Hl W. exact (co_calls_lessons pack erf kl text info c ldpc I n l Fi An Hl s W). Qed.
Print Assumptions c55_history.

(** After calls that all returned, the entropy model of each label has learned the lessons of that label: estimates of successful runs, else
    received bits. *)
Theorem c55_entropies : forall pack erf kl text info (c : co_conf Rops) X (ldpc : list R -> res (list Z * list R * bool * Z * X)) n calls s0 s outs,
  readable info -> fitting c n -> answers_bits n ldpc -> Forall (fun x => length (fst x) = n) calls -> co_well c s0 -> co_entropies s0 = repeat em_new (md_clusters (co_md c)) -> co_unified c = None ->
  in_turn (fun s x => co_decode Rops pack erf kl (decode text) info c ldpc s (fst x) (snd x)) s0 calls = (s, outs) -> Forall WeightedSpec.is_ok outs ->
  forall v, v < md_clusters (co_md c) -> after_lessons (co_window c) (co_length c) (co_bit_flip c) (buffers_of (fun bits => bits) (Z.of_nat v) (map fst calls) outs) (nth v (co_entropies s) em_new).
Proof.
  intros pack erf kl text info c X ldpc n calls s0 s outs I Fi An Hl W E0 Hu E Ok_ v Hv. destruct (co_history_taught pack erf kl text info c ldpc I n calls s0 Fi An Hl W E0 s outs E Ok_) as (_ & _ & T).
  specialize (T v Hv). unfold buffers_of, co_lesson in *. rewrite Hu in T. exact T.
Qed.
Print Assumptions c55_entropies.

(** Debugging a decoder without structures: with error positions no call with a label answers, and nothing is learned. *)
Theorem c55_debug : forall pack erf kl text info (c : co_conf Rops) X (ldpc : list R -> res (list Z * list R * bool * Z * X)) s word errs s' r,
  co_well c s -> md_debug (co_md c) = true -> Forall (fun st => st = None) (md_structs (co_fields s)) -> co_decode Rops pack erf kl (decode text) info c ldpc s word (Some errs) = (s', r) ->
  md_structs (co_fields s') = md_structs (co_fields s) /\ md_model (co_fields s') = md_model (co_fields s) /\ co_entropies s' = co_entropies s /\ co_well c s' /\
  forall a label, r = Ok (a, label) -> label = (-1)%Z.
Proof. intros pack erf kl text info c X ldpc s word errs s' r. apply (decode_debugging pack erf kl text info c ldpc). Qed.
Print Assumptions c55_debug.

(** Examples over the rationals: the structures, the number of buffers in the statistics and in the entropy models, and the answers. *)
Definition combined (unified : option bool) (idx : list bool) (ml k : nat) (debug : bool) : co_conf Qops * co_state Qops :=
  co_new Qops unified idx 144 ml (1 # 10)%Q (1 # 100)%Q k (5 # 4)%Q (1 # 2)%Q (1 # 2)%Q (1 # 1)%Q 3 false None None (40 # 1)%Q (3 # 10)%Q debug (0 # 1)%Q.
Definition after_words (cs : co_conf Qops * co_state Qops) (good : list Q -> bool) (errs : option (list Z)) (l : list (list Q)) : list (option structure) * Z * list nat * list (res (bool * Z)) :=
  let '(s, out) := fold_left (fun so llr => let '(s, r) := co_decode Qops no_pack (fun x => x) no_kl (decode (fun b => b)) word_info (fst cs) (echo good) (fst so) llr errs in
    (s, snd so ++ [match r with Ok (a, label) => Ok (an_ok a, label) | Err e => Err e end])) l (snd cs, []) in
  (md_structs (co_fields s), bm_size Qops (md_model (co_fields s)), map (fun m => length (em_data m)) (co_entropies s), out).

(** Two clusters, words in turn. *)
Example c55_ex : after_words (combined None (repeat true 144) 144 2 false) (fun _ => true) None [hb_word; hb_word; hb_word] =
  ([Some [(0, 0%N)]; Some [(0, 0%N)]], 3%Z, [2; 1], [Ok (true, 0%Z); Ok (true, 1%Z); Ok (true, 0%Z)]).
Proof. vm_compute. reflexivity. Qed.

(** A model of the information bits only: every call raises, after the structure and the field statistics were updated. *)
Theorem c55_length_refuted : exists word, after_words (combined None (repeat true 96 ++ repeat false 48) 96 1 false) (fun _ => true) None [word; word] =
  ([Some [(0, 0%N)]], 2%Z, [0], [Err IncorrectBufferLength; Err IncorrectBufferLength]).
Proof. exists hb_word. vm_compute. reflexivity. Qed.
Print Assumptions c55_length_refuted.

(** A decoder that learns and debugs never starts to learn. *)
Theorem c55_debug_refuted : exists word, after_words (combined None (repeat true 144) 144 1 true) (fun _ => true) (Some []) [word; word; word] =
  ([None], 0%Z, [0], [Err AttributeError; Err AttributeError; Err AttributeError]).
Proof. exists hb_word. vm_compute. reflexivity. Qed.
Print Assumptions c55_debug_refuted.

(** C68.  The unified decoder: the answer of a call and what is learned; the entropy model learns the first bits of a word only. *)
Theorem c68_answer : forall pack erf kl text info (c : co_conf Rops) flip X (ldpc : list R -> res (list Z * list R * bool * Z * X)) s word errs s' a label,
  readable info -> co_unified c = Some flip -> co_well c s -> fitting c (length word) -> answers_bits (length word) ldpc ->
  (co_decode Rops pack erf kl (decode text) info c ldpc s word errs = (s', Ok (a, label)) <->
   MavDecSpec.labels Rops (co_md c) kl (map sign_bit word) (md_running (co_fields s)) (md_classifier (co_fields s)) [label] (md_running (co_fields s')) (md_classifier (co_fields s')) /\
   (label = (-1)%Z /\ ldpc word = Ok a /\ md_structs (co_fields s') = md_structs (co_fields s) /\ md_model (co_fields s') = md_model (co_fields s) /\ co_entropies s' = co_entropies s \/
    (0 <= label)%Z /\ labelled pack erf text info c (firstn (co_length c))
      (fun em st w => rectify Rops pack erf (decode text) info (md_rect (co_md c)) (scale_low Rops c flip em) (forced_unified Rops c) (md_model (co_fields s)) st w) ldpc s word errs (Z.to_nat label) a s')).
Proof.
  intros pack erf kl text info c flip X ldpc s word errs s' a label I Hu W Fi An. rewrite (decode_iff pack erf kl text info c ldpc I s word errs s' a label W Fi An).
  unfold labelled, co_lesson, co_input. rewrite Hu. reflexivity.
Qed.
Print Assumptions c68_answer.

(** The rectification in these calls, for a known structure (for an unknown one see [c52_unknown]).  The entropy model is the one of the label; the
    conditions are those of C52, and a model that stores more buffers than the centre must have probabilities. *)
Theorem c68_rectify : forall text pack erf info (c : co_conf Rops) flip em ps m s obs m1 vf vb sd picture, let rc := md_rect (co_md c) in
  predict Rops erf m (BBits (received_bits obs)) s = Ok (m1, vf, vb, sd) -> Forall (fun e => e <> None) vf -> informative (length obs) info ->
  ((exists p, decided (rc_learning rc) (nth p vb None) (nth p sd None)) ->
     value_of (bitwise_model_mean Rops pack m1 (map Z.of_nat (seq 0 (8 * (length obs / 8)))) (length obs / 8) s) = Ok picture) ->
  1 <= co_length c <= 8 * (length obs / 8) -> sound c em -> ClassSpec.holds em ps -> ((rc_center rc < INR (length (em_data em)))%R -> ps <> []) ->
  exists m' p w, rectify Rops pack erf (decode text) info rc (scale_low Rops c flip em) (forced_unified Rops c) m (Some s) obs = Ok (m', p) /\
    unified c flip (length (em_data em)) ps (bm_size Rops m1) vb sd picture obs w /\ reinforced text info (approached rc (rc_valid_factor rc) (bm_size Rops m1)) obs w (pr_llr p) (pr_segmented p) /\
    fields_with (fun v => (1 - rc_valid_thr rc < v)%R) vf (pr_good_fields p) /\ fields_with (fun v => (v < rc_invalid_thr rc)%R) vf (pr_bad_fields p) /\ pr_fields p = length vf /\
    exists forced, pr_forced p = Some forced /\ StronglySorted lt forced /\ forall i, In i forced <-> decided (rc_learning rc) (nth i vb None) (nth i sd None).
Proof. exact unified_spec. Qed.
Print Assumptions c68_rectify.

Theorem c68_only_if : forall text pack erf info (c : co_conf Rops) flip em ps m s obs m' p, let rc := md_rect (co_md c) in
  rectify Rops pack erf (decode text) info rc (scale_low Rops c flip em) (forced_unified Rops c) m (Some s) obs = Ok (m', p) ->
  2 <= co_length c <= 8 * (length obs / 8) -> sound c em -> ClassSpec.holds em ps ->
  exists m1 vf vb sd picture, predict Rops erf m (BBits (received_bits obs)) s = Ok (m1, vf, vb, sd) /\ Forall (fun e => e <> None) vf /\
    ((exists p, decided (rc_learning rc) (nth p vb None) (nth p sd None)) ->
       value_of (bitwise_model_mean Rops pack m1 (map Z.of_nat (seq 0 (8 * (length obs / 8)))) (length obs / 8) s) = Ok picture) /\
    ((rc_center rc < INR (length (em_data em)))%R -> ps <> []).
Proof. exact unified_inv. Qed.
Print Assumptions c68_only_if.

(** After calls that all returned, the entropy model of each label has learned the first bits of the words of that label. *)
Theorem c68_entropies : forall pack erf kl text info (c : co_conf Rops) flip X (ldpc : list R -> res (list Z * list R * bool * Z * X)) n calls s0 s outs,
  readable info -> fitting c n -> answers_bits n ldpc -> Forall (fun x => length (fst x) = n) calls -> co_well c s0 -> co_entropies s0 = repeat em_new (md_clusters (co_md c)) -> co_unified c = Some flip ->
  in_turn (fun s x => co_decode Rops pack erf kl (decode text) info c ldpc s (fst x) (snd x)) s0 calls = (s, outs) -> Forall WeightedSpec.is_ok outs ->
  forall v, v < md_clusters (co_md c) -> after_lessons (co_window c) (co_length c) (co_bit_flip c) (buffers_of (firstn (co_length c)) (Z.of_nat v) (map fst calls) outs) (nth v (co_entropies s) em_new).
Proof.
  intros pack erf kl text info c flip X ldpc n calls s0 s outs I Fi An Hl W E0 Hu E Ok_ v Hv. destruct (co_history_taught pack erf kl text info c ldpc I n calls s0 Fi An Hl W E0 s outs E Ok_) as (_ & _ & T).
  specialize (T v Hv). unfold buffers_of, co_lesson in *. rewrite Hu in T. exact T.
Qed.
Print Assumptions c68_entropies.

(** The model length may be smaller than the word, but not larger. *)
Theorem c68_length : forall pack erf kl text info (c : co_conf Rops) flip X (ldpc : list R -> res (list Z * list R * bool * Z * X)) s word errs s' a label,
  co_unified c = Some flip -> co_well c s -> answers_bits (length word) ldpc -> (exists w, ldpc w = Ok a) ->
  co_decode Rops pack erf kl (decode text) info c ldpc s word errs = (s', Ok (a, label)) -> (0 <= label)%Z -> co_length c <= length word.
Proof.
  intros pack erf kl text info c flip X ldpc s word errs s' a label Hu W An (w & Ew) E Hl. pose proof (decode_length pack erf kl text info c ldpc s word errs s' a label W E Hl) as L.
  unfold co_lesson in L. rewrite Hu, firstn_length in L. destruct (An w a Ew) as [L1 _]. destruct (an_ok (FO := Rops) a); [rewrite L1 in L|rewrite map_length in L]; change (F Rops) with R in *; lia.
Qed.
Print Assumptions c68_length.

(** Once the entropy model of a label has probabilities, no call with that label answers unless there are as many model positions as model
    bits. *)
Theorem c68_aligned : forall pack erf kl text info (c : co_conf Rops) X (ldpc : list R -> res (list Z * list R * bool * Z * X)) s word errs s' a label em ps,
  co_well c s -> co_decode Rops pack erf kl (decode text) info c ldpc s word errs = (s', Ok (a, label)) -> (0 <= label)%Z ->
  nth_error (co_entropies s) (Z.to_nat label) = Some em -> ClassSpec.holds em ps -> ps <> [] -> length (md_idx (co_md c)) = co_length c.
Proof. intros pack erf kl text info c X ldpc. apply decode_aligned. Qed.
Print Assumptions c68_aligned.

(** One cluster, model of the first 96 bits. *)
Example c68_ex : after_words (combined (Some true) (repeat true 96 ++ repeat false 48) 96 1 false) (fun _ => true) None [hb_word; hb_word; hb_word] =
  ([Some [(0, 0%N)]], 3%Z, [3], [Ok (true, 0%Z); Ok (true, 0%Z); Ok (true, 0%Z)]).
Proof. vm_compute. reflexivity. Qed.
(** Fewer model bits than information bits, which do not come first: all but the first call raise. *)
Theorem c68_aligned_refuted : exists word, after_words (combined (Some true) (repeat false 1 ++ repeat true 143) 96 1 false) (fun _ => true) None [word; word; word] =
  ([Some [(0, 0%N)]], 1%Z, [1], [Ok (true, 0%Z); Err IndexError; Err IndexError]).
Proof. exists hb_word. vm_compute. reflexivity. Qed.
Print Assumptions c68_aligned_refuted.

(** Weights: of six bits with plausible (three) and implausible (three) fields the second and the last two are not sure, the model expects 1 for
    the first four; sure implausible bits that contradict the model are flipped. *)
Definition six : entropy_model Qops := @EM Qops (repeat [1; 1; 1; 1; 0; 0]%Z 50) (map (fun p => [1 - p; p]%Q) [9 # 10; 9 # 10; 9 # 10; 9 # 10; 1 # 10; 1 # 10]%Q) 2 [0 # 1; 1; 0 # 1; 0 # 1; 1; 1]%Q.
Definition six_conf (flip : bool) : co_conf Qops := fst (combined (Some flip) (repeat true 144) 6 1 false).
Example c68_ex_weights : match scale_low Qops (six_conf true) true six [true; true; true; false; false; false] [false; false; false; true; true; true] 2%Q 3%Q [-1; -1; 1; 1; 1; 1; 1; 1]%Q with
  | Ok (_, _, l) => forallb (fun xy => Qeq_bool (fst xy) (snd xy)) (combine l [-2; -1; 2; -3; 1; 1; 1; 1]%Q) = true /\ length l = 8
  | Err _ => False
  end.
Proof. vm_compute. split; reflexivity. Qed.

(** The hypotheses of the theorems above hold for new decoders and an LDPC decoder that answers with the received bits. *)
Example c55_ex_hypotheses : forall unified dm, exists c s, co_new Rops unified (repeat true 96 ++ repeat false 48) 144 144 (1 / 10)%R (1 / 100)%R 2 2%R 2%R 1%R 1%R 3 true (Some 5%Z) dm 40%R 1%R false 0%R = (c, s) /\
  co_well c s /\ fitting c 144 /\ readable (fun l => Ok (pack (firstn 96 l))) /\
  answers_bits 144 (fun w => if Nat.eqb (length w) 144 then Ok (map sign_bit w, w, true, 1%Z, tt) else Err ValueError).
Proof.
  intros unified dm. destruct (co_new Rops unified (repeat true 96 ++ repeat false 48) 144 144 (1 / 10)%R (1 / 100)%R 2 2%R 2%R 1%R 1%R 3 true (Some 5%Z) dm 40%R 1%R false 0%R) as [c s] eqn:E. exists c, s. split; [reflexivity|].
  pose proof (c55_new _ _ _ _ _ _ _ _ _ _ _ _ _ _ _ _ _ _ _ _ _ E) as (W & _ & _ & _ & _ & _ & _ & _ & _ & _ & _ & _ & _ & Fi). split; [exact W|]. split; [apply Fi; split; [lia|left; apply Nat.leb_le; reflexivity]|]. split.
  - intro l. eexists. split; [reflexivity|]. apply EntropyDecP.packbits_bytes.
  - intros w a Ea. destruct (Nat.eqb_spec (length w) 144) as [L|]; inversion Ea; subst. split; [cbn [an_estimate fst]; rewrite map_length; exact L|]. apply Forall_forall. intros x Hx. apply in_map_iff in Hx. destruct Hx as (y & <- & _). cbn. unfold sign_bit, is_bit. destruct (Rlt_dec y 0); auto.
Qed.
