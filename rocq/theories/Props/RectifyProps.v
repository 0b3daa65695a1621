(** Properties of the rectification of a received word with field statistics, and examples. *)
From Coq Require Import String Ascii List ZArith NArith QArith Bool Reals Lia.
From Verif.Model Require Import Py Float Dialect ProtocolMeta Struct Mavlink Segmentation StatModels DecoderBase Rectify.
From Verif.Spec Require Import RealOps Bytes Bits Header Frame Segment Stats EmleSpec DecoderSpec FlipSpec RectifySpec.
From Verif.Proofs Require Import RectifyP.
From Verif.Props Require Import MavlinkProps StatProps.
Import ListNotations.
Local Close Scope R_scope.
Local Close Scope Q_scope.

(** C52.  When no structure is known the word is returned as it came. *)
Theorem c52_unknown : forall (FO : fops) pack erf D (parser : bytes -> res D) info c scale choose m obs,
  rectify FO pack erf parser info c scale choose m None obs = Ok (m, Pred obs [] [] [] [] 0 None []).
Proof. reflexivity. Qed.
Print Assumptions c52_unknown.

(** With a structure: every bit is weighted by the plausibility of its field, impossible bits are replaced by the model's picture, and the
    bits of messages found are reinforced.  The picture is needed only when some bit is impossible. *)
Theorem c52_rectify : forall text pack erf info (c : rect_conf Rops) m s obs m1 vf vb sd picture,
  predict Rops erf m (BBits (received_bits obs)) s = Ok (m1, vf, vb, sd) -> Forall (fun e => e <> None) vf -> informative (length obs) info ->
  ((exists p, impossible (nth p vb None) (nth p sd None)) ->
     value_of (bitwise_model_mean Rops pack m1 (map Z.of_nat (seq 0 (8 * (length obs / 8)))) (length obs / 8) s) = Ok picture) ->
  exists m' p w, rectify Rops pack erf (decode text) info c (scale_plain Rops) (forced_wrong Rops) m (Some s) obs = Ok (m', p) /\
    adjusted c (bm_size Rops m1) vb sd picture obs w /\ reinforced text info (approached c (rc_valid_factor c) (bm_size Rops m1)) obs w (pr_llr p) (pr_segmented p) /\
    (length (pr_good p) = length vb /\ forall i, nth i (pr_good p) false = true <-> exists v, nth i vb None = Some v /\ (1 - rc_valid_thr c < v)%R) /\
    (length (pr_bad p) = length vb /\ forall i, nth i (pr_bad p) false = true <-> exists v, nth i vb None = Some v /\ (v < rc_invalid_thr c)%R) /\
    fields_with (fun v => (1 - rc_valid_thr c < v)%R) vf (pr_good_fields p) /\ fields_with (fun v => (v < rc_invalid_thr c)%R) vf (pr_bad_fields p) /\
    pr_fields p = length vf /\
    exists forced, pr_forced p = Some forced /\ Sorted.StronglySorted lt forced /\ forall i, In i forced <-> impossible (nth i vb None) (nth i sd None).
Proof. exact rectify_marks. Qed.
Print Assumptions c52_rectify.

(** These conditions are necessary. *)
Theorem c52_only_if : forall text pack erf info (c : rect_conf Rops) m s obs m' p,
  rectify Rops pack erf (decode text) info c (scale_plain Rops) (forced_wrong Rops) m (Some s) obs = Ok (m', p) ->
  exists m1 vf vb sd picture, predict Rops erf m (BBits (received_bits obs)) s = Ok (m1, vf, vb, sd) /\ Forall (fun e => e <> None) vf /\
    ((exists p, impossible (nth p vb None) (nth p sd None)) ->
       value_of (bitwise_model_mean Rops pack m1 (map Z.of_nat (seq 0 (8 * (length obs / 8)))) (length obs / 8) s) = Ok picture).
Proof. exact rectify_inv. Qed.
Print Assumptions c52_only_if.

(** Failures: those of predict, a field the model does not know, information bytes that exceed the word. *)
Theorem c52_predict_error : forall text pack erf info (c : rect_conf Rops) scale choose m s obs e,
  predict Rops erf m (BBits (received_bits obs)) s = Err e -> rectify Rops pack erf (decode text) info c scale choose m (Some s) obs = Err e.
Proof. exact rectify_predict_err. Qed.
Print Assumptions c52_predict_error.
Theorem c52_unknown_field : forall text pack erf info (c : rect_conf Rops) scale choose m s obs m1 vf vb sd,
  predict Rops erf m (BBits (received_bits obs)) s = Ok (m1, vf, vb, sd) -> In None vf -> rectify Rops pack erf (decode text) info c scale choose m (Some s) obs = Err TypeError.
Proof. exact rectify_unknown_field. Qed.
Print Assumptions c52_unknown_field.
Theorem c52_too_long : forall text pack erf info (c : rect_conf Rops) m s obs, (forall l b, info l = Ok b -> is_bytes b /\ length obs < 8 * length b) ->
  exists e, rectify Rops pack erf (decode text) info c (scale_plain Rops) (forced_wrong Rops) m (Some s) obs = Err e.
Proof. exact rectify_too_long. Qed.
Print Assumptions c52_too_long.

(** With positive factors a bit keeps its sign unless it is impossible. *)
Theorem c52_signs : forall text pack erf info (c : rect_conf Rops) m s obs m' p m1 vf vb sd i, (0 < rc_valid_factor c)%R -> (0 < rc_invalid_factor c)%R -> informative (length obs) info ->
  rectify Rops pack erf (decode text) info c (scale_plain Rops) (forced_wrong Rops) m (Some s) obs = Ok (m', p) ->
  predict Rops erf m (BBits (received_bits obs)) s = Ok (m1, vf, vb, sd) -> i < length obs -> ~ impossible (nth i vb None) (nth i sd None) ->
  exists k, (0 < k)%R /\ nth i (pr_llr p) 0%R = (k * nth i obs 0)%R.
Proof. exact rectify_signs. Qed.
Print Assumptions c52_signs.

(** The factors while learning: 1 up to one buffer, always between 1 and the configured factor. *)
Theorem c52_factors : forall (c : rect_conf Rops) f size,
  (Rmin 1 f <= approached c f size <= Rmax 1 f)%R /\ (rc_learning c = true -> (size <= 1)%Z -> approached c f size = 1%R) /\ (rc_learning c = false -> approached c f size = f).
Proof. exact factors. Qed.
Print Assumptions c52_factors.

(** A bit is impossible exactly when the stored samples of its field are one number and the received value is another one. *)
Theorem c52_impossible : forall pack erf w os m b s sl j x p m1 vf vb sd z l, window_ok w -> reachable Rops pack erf w os m -> holds (BBits l) b -> Forall (plain_in (length b)) s -> layout s sl ->
  predict Rops erf m (BBits l) s = Ok (m1, vf, vb, sd) -> p < 8 * length b -> nth_error sl j = Some x -> owner sl p (Z.of_nat j) -> is_number (slot_value b x) z ->
  (impossible (nth p vb None) (nth p sd None) <->
   windowed w (values_under (s_name x) (recorded os)) <> [] /\ exists y, Forall (fun v => is_number v y) (windowed w (values_under (s_name x) (recorded os))) /\ y <> z).
Proof. exact impossible_iff. Qed.
Print Assumptions c52_impossible.

(** An integer field that was [z] in all stored buffers and is received differently gets the bits of [z] (those of any buffer [b'] where it is
    [z]), at least as strong as the strongest received bit. *)
Theorem c52_forced : forall text pack erf info (c : rect_conf Rops) w os m s sl obs b b' j x p z z' m' pr,
  window_ok w -> reachable Rops pack erf w os m -> holds (BBits (received_bits obs)) b -> Forall (plain_in (length b)) s -> disjoint_structure s -> layout s sl ->
  nth_error sl j = Some x -> bit_in x p -> integer_type (s_type x) (s_width x) -> informative (length obs) info ->
  values_under (s_name x) (recorded os) <> [] -> Forall (fun v => v = VInt z) (windowed w (values_under (s_name x) (recorded os))) ->
  slot_value b x = VInt z' -> z' <> z -> is_bytes b' -> length b' = length b -> slot_value b' x = VInt z ->
  rectify Rops pack erf (decode text) info c (scale_plain Rops) (forced_wrong Rops) m (Some s) obs = Ok (m', pr) ->
  (forall b0 s0, found text info obs b0 s0 -> s0 = []) ->
  exists pk k, peak obs pk /\ (k = 1 \/ k = 2)%R /\
    nth p (pr_llr pr) 0%R = ((if bit_of b' p then -1 else 1) * pk * Rmax (approached c (rc_valid_factor c) (bm_size Rops m)) 1 * k)%R.
Proof. exact forced_bits. Qed.
Print Assumptions c52_forced.

(** Examples over the rationals: one stored heartbeat; the received word has another value of custom_mode. *)
Definition word_info (l : list Z) : res bytes := Ok (pack l).
Definition llr_word (peak : Q) (b : bytes) : list Q := match map (fun x : bool => if x then (-3 # 1)%Q else (3 # 1)%Q) (bytes_bits b) with x :: t => (x / (3 # 1) * peak)%Q :: t | [] => [] end.
Definition one_heartbeat : buffer_model Qops := bm_run Qops no_pack (fun x => x) (bm_init Qops [] None) [VAdd (BBytes (hb ++ [0%N])) [(0, 0%N)]].
Definition q_conf : rect_conf Qops := @RectConf Qops (1 # 10)%Q (1 # 100)%Q (5 # 4)%Q (1 # 2)%Q (40 # 1)%Q (3 # 10)%Q false.
Definition hit (b : bytes) : res (list Q * option (list nat) * nat * list nat * list nat) :=
  do! (_, p) <- rectify Qops no_pack (fun x => x) (decode (fun b => b)) word_info q_conf (scale_plain Qops) (forced_wrong Qops) one_heartbeat (Some [(0, 0%N)]) (llr_word 4 b) in
  Ok (pr_llr p, pr_forced p, length (filter (fun x => x) (pr_segmented p)), pr_good_fields p, pr_bad_fields p).
Definition qsame (x y : Q) : bool := Qeq_bool x y.
Example c52_ex : match hit (set_nth hb 6 77%N ++ [0%N]) with
  | Ok (l, forced, n, good, bad) =>
      forced = Some (seq 48 32) /\ n = 136 /\ good = [0; 1; 2; 3; 4; 5; 7; 8; 9; 10; 11] /\ bad = [6] /\
      map (fun i => qsame (nth i l 0%Q) (nth i [-10; -15 # 2]%Q 0%Q)) [0; 1] = [true; true] /\
      qsame (nth 53 l 0%Q) (-10 # 1)%Q = true /\ qsame (nth 120 l 0%Q) (-6 # 1)%Q = true /\ qsame (nth 136 l 0%Q) 3%Q = true /\
      map (fun x => Qle_bool 0%Q x) (firstn 136 l) = map negb (bytes_bits hb)
  | Err _ => False
  end.
Proof. vm_compute. repeat split. Qed.
(** Messages found in the received word: twice the factor, and nothing is forced. *)
Example c52_ex_found : match hit (hb ++ [0%N]) with
  | Ok (l, forced, n, good, bad) => forced = Some [] /\ n = 136 /\ bad = [] /\ qsame (nth 0 l 0%Q) (-10 # 1)%Q = true /\ qsame (nth 120 l 0%Q) (-15 # 2)%Q = true /\ qsame (nth 136 l 0%Q) 3%Q = true
  | Err _ => False
  end.
Proof. vm_compute. repeat split. Qed.

(** The messages are found at positions among the information bits, but the positions of the code word are reinforced: when the information
    bits are not the first ones, wrong bits are changed.  Here the first eight bits carry no information. *)
Definition shifted_hit (obs : list Q) : res (list Q) :=
  do! (_, p) <- rectify Qops no_pack (fun x => x) (decode (fun b => b)) (fun l => Ok (pack (skipn 8 l))) q_conf (scale_plain Qops) (forced_wrong Qops) (bm_init Qops [] None) (Some []) obs in
  Ok (pr_llr p).
Theorem c52_positions_refuted : exists obs, length obs = 144 /\ pack (skipn 8 (hard Qops obs)) = hb /\
  match shifted_hit obs with
  | Ok l => qsame (nth 0 l 0%Q) (nth 0 obs 0%Q) = false /\ qsame (nth 143 l 0%Q) (nth 143 obs 0%Q) = true
  | Err _ => False
  end.
Proof. exists (llr_word 4 ([1%N] ++ hb)). vm_compute. repeat split. Qed.
Print Assumptions c52_positions_refuted.

(** The hypotheses of the theorems about reachable models: one stored heartbeat, whose field custom_mode (number 6) is received as 77. *)
Definition hb_slots : list slot := Eval vm_compute in match get_class 0 with Some c => msg_slots 0 c | None => [] end.
Lemma hb_class : exists c, is_msg 0 c /\ no_arrays c /\ wire_size c = 9 /\ msg_slots 0 c = hb_slots.
Proof.
  destruct (get_class 0) as [c|] eqn:E; [|vm_compute in E; discriminate]. exists c. split; [apply DialectP.get_class_spec; exact E|].
  assert (H : match get_class 0 with Some c => forallb (Nat.eqb 0) (mc_array_lengths c) = true /\ wire_size c = 9 /\ msg_slots 0 c = hb_slots | None => False end) by (vm_compute; repeat split).
  rewrite E in H. destruct H as (H1 & H2 & H3). split; [|auto]. apply Forall_forall. intros n Hn. rewrite forallb_forall in H1. symmetry. apply Nat.eqb_eq, H1, Hn.
Qed.
Example c52_ex_hypotheses : forall pack erf, let b := set_nth hb 6 77%N ++ [0%N] in exists os m x,
  reachable Rops pack erf None os m /\ Forall (plain_in 18) [(0, 0%N)] /\ disjoint_structure [(0, 0%N)] /\ layout [(0, 0%N)] hb_slots /\
  nth_error hb_slots 6 = Some x /\ bit_in x 49 /\ integer_type (s_type x) (s_width x) /\ values_under (s_name x) (recorded os) <> [] /\
  Forall (fun v => v = VInt 5) (windowed None (values_under (s_name x) (recorded os))) /\ slot_value b x = VInt 77 /\ is_bytes b /\
  bit_of b 49 = true /\ bit_of (hb ++ [0%N]) 49 = false /\ slot_value (hb ++ [0%N]) x = VInt 5.
Proof.
  intros pack erf b. destruct hb_class as (c & M & Na & Ws & Ms). assert (Ly : layout [(0, 0%N)] hb_slots) by (rewrite <- Ms, <- (app_nil_r (msg_slots 0 c)); econstructor; [exact M|constructor]).
  assert (Pl : Forall (plain_in 18) [(0, 0%N)]) by (apply Forall_cons; [|apply Forall_nil]; exists c; cbn [fst snd]; rewrite Ws; split; [exact M|split; [exact Na|lia]]).
  assert (Bh : is_bytes (hb ++ [0%N])) by (unfold is_bytes; repeat constructor).
  exists [Some (map (slot_sample (hb ++ [0%N])) hb_slots)]. eexists. eexists. split; [eexists; split; [|reflexivity]; constructor; [|constructor]; apply (oc_accepted (BBytes (hb ++ [0%N])) (hb ++ [0%N]) [(0, 0%N)]); [constructor; exact Bh|exact Pl|exact Ly]|].
  split; [exact Pl|]. split; [repeat constructor|]. split; [exact Ly|]. split; [reflexivity|]. split; [unfold bit_in; cbn; lia|]. split; [eexists; split; [constructor|split; discriminate]|].
  split; [vm_compute; discriminate|]. split; [vm_compute; repeat constructor|]. split; [vm_compute; reflexivity|]. split; [unfold is_bytes; repeat constructor|]. vm_compute. repeat split.
Qed.
