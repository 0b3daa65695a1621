(** Proofs about the combined decoders. *)
From Coq Require Import String List ZArith NArith Arith Bool Reals Lia Lra Sorting.Sorted Classical_Prop.
From Verif.Model Require Import Py Float InfoTheory Dialect Struct Mavlink Segmentation StatModels Clustering DecoderBase Rectify MavlinkDecoder CombinedDecoder.
From Verif.Spec Require Import RealOps Bytes Bits Header Frame Segment Info Cluster Stats EmleSpec DecoderSpec WeightedSpec ClassSpec FlipSpec RectifySpec MavDecSpec CombinedSpec.
From Verif.Proofs Require Import Base FieldsP RealP ClusterR SegmentP SegMore SegStream StatP LayoutP ValuesP BufModelP StatTop DecoderP EntropyDecP WeightedP ClassP RectifyP MavDecP.
Import ListNotations.
Local Close Scope R_scope.

Lemma kept_kept {A} w (l : list A) x : kept w (kept w l ++ [x]) = kept w (l ++ [x]).
Proof.
  destruct w as [z|]; [|reflexivity]. unfold kept, last_n. set (n := Z.to_nat z). rewrite !app_length, skipn_length. cbn [length].
  destruct (Nat.le_gt_cases (length l) n) as [H|H].
  - replace (length l - n) with 0 by lia. cbn [skipn]. f_equal. lia.
  - replace (length l - (length l - n) + 1 - n) with 1 by lia. rewrite (skipn_app (length l + 1 - n)). replace (length l + 1 - n - length l) with (1 - n) by lia.
    rewrite (skipn_app 1), skipn_length. replace (1 - (length l - (length l - n))) with (1 - n) by lia. f_equal.
    replace (length l + 1 - n) with (1 + (length l - n)) by lia. clear. generalize (length l - n). intro k. revert k. induction l as [|a l IH]; intro k; [rewrite !skipn_nil; reflexivity|]. destruct k; [reflexivity|]. exact (IH k).
Qed.
Lemma kept_idem {A} w (l : list A) : kept w (kept w l) = kept w l.
Proof.
  destruct w as [z|]; [|reflexivity]. unfold kept, last_n. rewrite skipn_length. replace (length l - (length l - Z.to_nat z) - Z.to_nat z) with 0 by lia. reflexivity.
Qed.
Lemma kept_forall {A} (P : A -> Prop) w l : Forall P l -> Forall P (kept w l).
Proof. intro H. destruct w as [z|]; [|exact H]. unfold kept, last_n. rewrite <- (firstn_skipn (length l - Z.to_nat z) l) in H. apply Forall_app in H. apply H. Qed.

(** ** The opinion of the entropy model *)
Lemma shifted_unique idx on r obs a b : shifted idx on r obs a -> shifted idx on r obs b -> a = b.
Proof.
  intros (L1 & A1 & A2 & A3) (L2 & B1 & B2 & B3). apply nth_ext with (d := 0%R) (d' := 0%R); [congruence|]. intros p _. destruct (in_dec Nat.eq_dec p idx) as [H|H]; [|rewrite A3, B3; auto].
  apply (In_nth _ _ 0) in H. destruct H as (j & Hj & <-). destruct (classic (on j)); [rewrite A1, B1|rewrite A2, B2]; auto.
Qed.

Lemma add_advised (c : co_conf Rops) m ps channel (input : list R) mx : holds m ps -> (ps = [] \/ length ps = co_length c) -> fitting c (length input) ->
  Forall (bits_of_length (co_length c)) (em_data m) -> largest (map Rabs channel) mx ->
  exists w, co_add Rops c m channel input = Ok w /\
    advised (md_idx (co_md c)) (co_threshold c) ps (trust (rc_center (md_rect (co_md c))) (rc_slope (md_rect (co_md c))) (Z.of_nat (length (em_data m)))) (co_clip c * mx)%R input w.
Proof.
  intros K L (Hn & Li & N & Rg) Nd Mx. unfold co_add, co_opinion. rewrite (holds_low m ps _ K). set (thr := co_threshold c). set (idx := md_idx (co_md c)) in *.
  assert (L' : ps = [] \/ length ps = length idx) by (destruct L as [->|L]; [left; reflexivity|right; lia]).
  assert (Em : mask_index idx (low_mask thr ps) = Ok (sel idx (low_mask thr ps))).
  { destruct L' as [->|L']; [cbn; rewrite sel_nil; reflexivity|]. apply mask_index_ok. unfold low_mask. rewrite map_length. exact L'. }
  rewrite Em. cbn [bind]. pose proof (any_structural idx thr ps L') as A.
  destruct (any_index (sel idx (low_mask thr ps))) eqn:Ea.
  2: { eexists. split; [reflexivity|]. apply shifted_none. intros j _ (_ & _ & Q). apply A in Q. discriminate. }
  assert (Nd' : Forall (fun b : list Z => b <> []) (em_data m)) by (eapply Forall_impl; [|exact Nd]; intros b [Q _] ->; cbn in Q; lia).
  rewrite em_size_length by exact Nd'. rewrite confidence_R. set (w := trust _ _ _). cbn [flt fz Rops]. destruct (Rltb 0 w) eqn:E; [apply Rltb_spec in E|apply Rltb_false in E].
  2: { eexists. split; [reflexivity|]. apply shifted_none. intros j _ (_ & Q & _). lra. }
  destruct K as [[-> _]|[Np K]]; [exfalso; destruct (proj1 A eq_refl) as (j & [Q _] & _); cbn in Q; lia|]. destruct L' as [->|L']; [contradiction|].
  rewrite (log_ratios_R m ps K). cbn [bind]. rewrite mask_index_ok by (unfold low_mask; rewrite !map_length; reflexivity). cbn [bind]. rewrite <- !sel_map, !map_map.
  change (F Rops) with R in *. change (fabs Rops) with Rabs. rewrite (pymax_largest _ mx Mx). cbn [bind]. rewrite <- sel_map, map_map.
  set (r := map _ ps). set (mask := low_mask thr ps).
  destruct (add_selected Rops input r idx mask 0%R N Rg) as (out & Eo & Lo & H1 & H2 & H3).
  { unfold mask, low_mask. rewrite map_length. exact L'. } { unfold r. rewrite map_length. exact L'. }
  exists out. split; [exact Eo|]. split; [exact Lo|]. split; [|split; [|exact H3]].
  - intros j Hj (St & _). rewrite H1; [|exact Hj|apply low_mask_nth; exact St]. change (fadd Rops) with Rplus. f_equal. unfold r. rewrite <- L' in Hj.
    rewrite nth_map_lt with (d' := 0%R) by exact Hj. rewrite fclip_R. cbn [fneg fmul Rops]. unfold limited. rewrite Rmin_comm, Rmax_comm. reflexivity.
  - intros j Hj On. apply H2; [exact Hj|]. apply not_true_is_false. intro Q. apply On. split; [apply low_mask_nth; exact Q|]. split; [exact E|apply A; reflexivity].
Qed.

(** ** Learning *)
Lemma mixed_dec data : mixed data \/ ~ mixed data.
Proof. apply classic. Qed.
Lemma knows_unique m m' ps : em_data m = em_data m' -> knows m ps -> knows m' ps -> m = m'.
Proof. intros D (A1 & A2 & A3) (B1 & B2 & B3). destruct m, m'; cbn in *. congruence. Qed.

Lemma learn_one (c : co_conf Rops) m bits m' : 1 <= co_length c -> sound c m -> Forall is_bit bits ->
  (learn_corrected Rops (co_window c) (co_length c) (co_bit_flip c) m bits = (m', Ok tt) <-> taught_one (co_window c) (co_length c) (co_bit_flip c) m bits m').
Proof.
  intros Hn (Hb & Hk & _) Bb. unfold taught_one. cbv zeta. destruct (Nat.eq_dec (length bits) (co_length c)) as [L|L].
  - assert (Hb' : Forall (bits_of_length (co_length c)) (em_data m ++ [bits])) by (apply Forall_app; split; [exact Hb|constructor; [split; assumption|constructor]]).
    destruct (learn_corrected_spec (co_window c) (co_length c) (co_bit_flip c) m (em_data m) bits Hn Hb' Hk) as [M1 M2]. cbv zeta in M1, M2. split.
    + intro E. destruct (mixed_dec (kept (co_window c) (em_data m ++ [bits]))) as [Mx|Mx]; [|rewrite (M2 Mx) in E; discriminate]. destruct (M1 Mx) as (m2 & E2 & D2 & K2). assert (Q : (m2, Ok tt) = (m', Ok tt)) by (etransitivity; [symmetry; exact E2|exact E]). inversion Q; subst. split; [exact L|split; [exact Mx|split; assumption]].
    + intros (_ & Mx & D & K). destruct (M1 Mx) as (m2 & E2 & D2 & K2). rewrite E2. f_equal. apply (knows_unique _ _ _ (eq_trans D2 (eq_sym D)) K2 K).
  - split; [|intros (Q & _); contradiction]. unfold learn_corrected. destruct (Nat.eqb_spec (length bits) (co_length c)); [contradiction|]. discriminate.
Qed.

Lemma learn_sound (c : co_conf Rops) m bits m' r : 1 <= co_length c -> sound c m -> Forall is_bit bits ->
  learn_corrected Rops (co_window c) (co_length c) (co_bit_flip c) m bits = (m', r) -> sound c m' /\
  (m' = m /\ length bits <> co_length c \/ length bits = co_length c /\ em_data m' = kept (co_window c) (em_data m ++ [bits])).
Proof.
  intros Hn (Hb & Hk & Hp) Bb E. destruct (Nat.eq_dec (length bits) (co_length c)) as [L|L].
  - assert (Hb' : Forall (bits_of_length (co_length c)) (em_data m ++ [bits])) by (apply Forall_app; split; [exact Hb|constructor; [split; assumption|constructor]]).
    destruct (learn_corrected_spec (co_window c) (co_length c) (co_bit_flip c) m (em_data m) bits Hn Hb' Hk) as [M1 M2]. cbv zeta in M1, M2. change (F Rops) with R in *.
    assert (D : em_data m' = kept (co_window c) (em_data m ++ [bits]) /\ exists ps, holds m' ps /\ (ps = [] \/ length ps = co_length c) /\ Forall (fun p => (0 <= p <= 1)%R) ps).
    { destruct (mixed_dec (kept (co_window c) (em_data m ++ [bits]))) as [Mx|Mx].
      - destruct (M1 Mx) as (m2 & E2 & D2 & K2). rewrite E2 in E. inversion E; subst. split; [exact D2|]. eexists. split; [right; split; [|exact K2]|split; [right; rewrite map_length, seq_length; reflexivity|apply Forall_forall; intros p0 Hp0; apply in_map_iff in Hp0; destruct Hp0 as (i & <- & _); apply EntropyDecP.unflipped_unit]]. destruct (co_length c); [lia|]. discriminate.
      - rewrite (M2 Mx) in E. inversion E; subst. split; [reflexivity|]. destruct Hp as (ps & Hh & Hl). exists ps. split; [|exact Hl]. destruct Hh as [H0|[H0 H1]]; [left; exact H0|right; split; [exact H0|exact H1]]. }
    destruct D as [D P]. split; [|right; split; assumption]. split; [rewrite D; apply kept_forall; exact Hb'|]. split; [rewrite D, kept_idem; reflexivity|exact P].
  - unfold learn_corrected in E. destruct (Nat.eqb_spec (length bits) (co_length c)); [contradiction|]. cbn [negb] in E. inversion E; subst. split; [repeat split; assumption|left; auto].
Qed.

Lemma hard_is_bit (word : list R) : Forall is_bit (hard Rops word).
Proof. rewrite hard_map. apply Forall_forall. intros z Hz. apply in_map_iff in Hz. destruct Hz as (y & <- & _). apply sign_is_bit. Qed.

Lemma lesson_bits (c : co_conf Rops) l : Forall is_bit l -> Forall is_bit (co_lesson Rops c l).
Proof. intro H. unfold co_lesson. destruct (co_unified c); [|exact H]. rewrite <- (firstn_skipn (co_length c) l) in H. apply Forall_app in H. apply H. Qed.

(** ** A call *)
Section Call.
Variables (pack : R -> res N) (erf : R -> R) (kl : list R -> list R -> R) (text : bytes -> bytes) (info : list Z -> res bytes) (c : co_conf Rops).
Context {X : Type}.
Notation answer := (list Z * list R * bool * Z * X)%type.
Variable ldpc : list R -> res answer.
Hypothesis info_total : forall l, exists b, info l = Ok b /\ is_bytes b.

(** The rectification of a word by a decoder with the given field statistics, for a cluster with the given entropy model. *)
Definition co_input (m : buffer_model Rops) (em : entropy_model Rops) (st : option structure) (word : list R) : res (buffer_model Rops * prediction Rops) :=
  match co_unified c with
  | None => rectify Rops pack erf (decode text) info (md_rect (co_md c)) (scale_plain Rops) (forced_wrong Rops) m st word
  | Some flip => rectify Rops pack erf (decode text) info (md_rect (co_md c)) (scale_low Rops c flip em) (forced_unified Rops c) m st word
  end.

Lemma rectify_length scale choose m st (obs : list R) m' p : (forall g b v i l x y r, scale g b v i l = Ok (x, y, r) -> length r = length l) ->
  rectify Rops pack erf (decode text) info (md_rect (co_md c)) scale choose m st obs = Ok (m', p) -> length (pr_llr p) = length obs.
Proof.
  intros Hs E. unfold rectify in E. destruct st as [s|]; [|inversion E; subst; reflexivity]. change (F Rops) with R in *.
  match type of E with (do! _ <- ?t in _) = _ => destruct t as [[[[m1 vf] vb] sd]|] eqn:Ep end; cbn [bind] in E; [|discriminate].
  match type of E with (do! _ <- ?t in _) = _ => destruct t as [gf|] end; cbn [bind] in E; [|discriminate].
  match type of E with (do! _ <- ?t in _) = _ => destruct t as [bf|] end; cbn [bind] in E; [|discriminate].
  match type of E with (do! _ <- ?t in _) = _ => destruct t as [[[good bad] l]|] eqn:Es end; cbn [bind] in E; [|discriminate].
  match type of E with (do! _ <- ?t in _) = _ => destruct t as [[m2 l2]|] eqn:Ef end; cbn [bind] in E; [|discriminate].
  match type of E with (do! _ <- ?t in _) = _ => destruct t as [[l3 va]|] eqn:Ec end; cbn [bind] in E; [|discriminate].
  match type of E with (do! _ <- ?t in _) = _ => destruct t as [sg|] end; cbn [bind] in E; [|discriminate]. inversion E; subst m' p. cbn [pr_llr].
  apply Hs in Es. apply force_length in Ef. apply confirm_length in Ec; [|intros x b Q; destruct (info_total x) as (b' & E' & B'); congruence]. change (F Rops) with R in *. destruct Ec as [Ec _]. congruence.
Qed.
Lemma scale_plain_length g b v i (l : list R) x y r : scale_plain Rops g b v i l = Ok (x, y, r) -> length r = length l.
Proof using.
  clear. unfold scale_plain. intro E. change (F Rops) with R in *. match type of E with (do! _ <- ?t in _) = _ => destruct t as [l1|] eqn:E1 end; cbn [bind] in E; [|discriminate].
  match type of E with (do! _ <- ?t in _) = _ => destruct t as [l2|] eqn:E2 end; cbn [bind] in E; [|discriminate]. inversion E; subst. apply scale_where_length in E1. apply scale_where_length in E2. change (F Rops) with R in *. congruence.
Qed.
Lemma scale_low_length flip m g b v i (l : list R) x y r : scale_low Rops c flip m g b v i l = Ok (x, y, r) -> length r = length l.
Proof using.
  clear. unfold scale_low. intro E. change (F Rops) with R in *. match type of E with (if ?t then _ else _) = _ => destruct t end; [|inversion E; subst; reflexivity].
  match type of E with (do! _ <- ?t in _) = _ => destruct t as [g1|] end; cbn [bind] in E; [|discriminate].
  match type of E with (do! _ <- ?t in _) = _ => destruct t as [l1|] eqn:E1 end; cbn [bind] in E; [|discriminate].
  match type of E with (do! _ <- ?t in _) = _ => destruct t as [b1|] end; cbn [bind] in E; [|discriminate].
  match type of E with (do! _ <- ?t in _) = _ => destruct t as [p1|] end; cbn [bind] in E; [|discriminate].
  match type of E with (do! _ <- ?t in _) = _ => destruct t as [r1|] end; cbn [bind] in E; [|discriminate].
  match type of E with (do! _ <- ?t in _) = _ => destruct t as [w1|] end; cbn [bind] in E; [|discriminate].
  match type of E with (do! _ <- ?t in _) = _ => destruct t as [b2|] end; cbn [bind] in E; [|discriminate].
  match type of E with (do! _ <- ?t in _) = _ => destruct t as [l2|] eqn:E2 end; cbn [bind] in E; [|discriminate].
  inversion E; subst. apply scale_where_length in E1. apply scale_where_length in E2. change (F Rops) with R in *. congruence.
Qed.
Lemma input_length m em st word m1 p : co_input m em st word = Ok (m1, p) -> length (pr_llr p) = length word.
Proof. unfold co_input. destruct (co_unified c); apply rectify_length; [apply scale_low_length|apply scale_plain_length]. Qed.

Lemma rectify_ext scale scale' choose m st (obs : list R) : (forall g b v i l, scale g b v i l = scale' g b v i l) ->
  rectify Rops pack erf (decode text) info (md_rect (co_md c)) scale choose m st obs = rectify Rops pack erf (decode text) info (md_rect (co_md c)) scale' choose m st obs.
Proof using.
  clear. intro H. unfold rectify. destruct st as [s|]; [|reflexivity]. destruct (predict _ _ _ _ _) as [[[[m1 vf] vb] sd]|]; [|reflexivity]. cbn [bind]. destruct (fields_where _ _ _); [|reflexivity]. cbn [bind]. destruct (fields_where _ _ _); [|reflexivity]. cbn [bind].
  rewrite H. reflexivity.
Qed.

Lemma index_label {A} (l : list A) label x : (0 <= label)%Z -> (index_z l label = Ok x <-> nth_error l (Z.to_nat label) = Some x).
Proof using. clear. intro H. rewrite index_addressed. unfold addressed. destruct (Z.ltb_spec label 0%Z); [lia|]. split; [intros [_ Q]; exact Q|intro Q; split; [lia|exact Q]]. Qed.

Notation predict_ := (co_predict Rops pack erf (decode text) info c).
Notation update_ := (co_update Rops (decode text) info c ldpc).
Notation decode_ := (co_decode Rops pack erf kl (decode text) info c ldpc).

Lemma co_predict_iff s (obs : list R) label s' p em : (0 <= label)%Z -> nth_error (co_entropies s) (Z.to_nat label) = Some em ->
  (predict_ s obs label = (s', Ok p) <-> exists st m1, nth_error (md_structs (co_fields s)) (Z.to_nat label) = Some st /\ co_input (md_model (co_fields s)) em st obs = Ok (m1, p) /\
     s' = CoState Rops (MdState Rops (md_structs (co_fields s)) m1 (md_running (co_fields s)) (md_classifier (co_fields s))) (co_entropies s)).
Proof using.
  clear. intros Hl He. unfold co_predict. assert (Ei : forall st, (match co_unified c with
     | None => rectify Rops pack erf (decode text) info (md_rect (co_md c)) (scale_plain Rops) (forced_wrong Rops) (md_model (co_fields s)) st obs
     | Some flip => rectify Rops pack erf (decode text) info (md_rect (co_md c)) (fun good bad vf inf l => do! m <- index_z (co_entropies s) label in scale_low Rops c flip m good bad vf inf l) (forced_unified Rops c) (md_model (co_fields s)) st obs
     end) = co_input (md_model (co_fields s)) em st obs).
  { intro st. unfold co_input. destruct (co_unified c); [|reflexivity]. apply rectify_ext. intros. rewrite (proj2 (index_label _ _ em Hl) He). reflexivity. }
  split.
  - destruct (index_z (md_structs (co_fields s)) label) as [st|] eqn:Es; cbn [bind]; [|discriminate]. rewrite Ei. destruct (co_input (md_model (co_fields s)) em st obs) as [[m1 p1]|] eqn:Er; [|discriminate].
    intro E. inversion E; subst. exists st, m1. split; [apply index_label; assumption|]. split; [exact Er|reflexivity].
  - intros (st & m1 & H1 & H2 & ->). rewrite (proj2 (index_label _ _ st Hl) H1). cbn [bind]. rewrite Ei, H2. reflexivity.
Qed.

Lemma co_update_iff s llr label bits s' (a : answer) em : (0 <= label < Z.of_nat (length (md_structs (co_fields s))))%Z -> 1 <= co_length c -> nth_error (co_entropies s) (Z.to_nat label) = Some em -> sound c em ->
  Forall is_bit bits -> (forall w a, ldpc w = Ok a -> Forall is_bit (an_estimate (FO := Rops) a)) ->
  (update_ s llr label bits = (s', Ok a) <->
   exists st st' adds em', ldpc llr = Ok a /\ nth_error (md_structs (co_fields s)) (Z.to_nat label) = Some st /\ MavDecSpec.learned Rops text info (co_md c) st a bits st' adds /\ takes (md_model (co_fields s)) adds /\
     taught_one (co_window c) (co_length c) (co_bit_flip c) em (co_lesson Rops c (if an_ok (FO := Rops) a then an_estimate (FO := Rops) a else bits)) em' /\
     s' = CoState Rops (MdState Rops (set_nth (md_structs (co_fields s)) (Z.to_nat label) st') (bm_run Rops pack erf (md_model (co_fields s)) adds) (md_running (co_fields s)) (md_classifier (co_fields s)))
            (set_nth (co_entropies s) (Z.to_nat label) em')).
Proof.
  intros Hl Hn He Hs Hb Hldpc. unfold co_update. destruct (Z.ltb_spec label 0%Z); [lia|]. assert (Hr : (- Z.of_nat (length (md_structs (co_fields s))) <= label < Z.of_nat (length (md_structs (co_fields s))))%Z) by lia.
  assert (Ad : forall n, addressed n label = Z.to_nat label) by (intro n; unfold addressed; destruct (Z.ltb_spec label 0%Z); [lia|reflexivity]).
  destruct (md_update Rops (decode text) info (co_md c) ldpc (co_fields s) llr label bits) as [f r] eqn:Eu. cbn [co_entropies].
  assert (Set_ : forall m, set_z (co_entropies s) label m = set_nth (co_entropies s) (Z.to_nat label) m) by (intro m; rewrite set_z_addressed, Ad; reflexivity).
  split.
  - destruct r as [[[[[est soft] ok] it] x]|e]; [|discriminate]. change (F Rops) with R in *. rewrite (proj2 (index_label _ _ em (proj1 Hl)) He). intro E.
    match type of E with (let '(_, _) := ?t in _) = _ => destruct t as [m r] eqn:El end. destruct r as [[]|]; cbn [bind] in E; [|discriminate]. inversion E; subst a s'.
    apply (update_iff Rops pack erf kl text info (co_md c) ldpc info_total) in Eu; [|exact Hr]. destruct Eu as (st & st' & adds & E1 & E2 & E3 & E4 & ->). rewrite Ad in *.
    exists st, st', adds, m. split; [exact E1|]. split; [exact E2|]. split; [exact E3|]. split; [exact E4|]. split; [|rewrite Set_; reflexivity].
    cbn [an_ok an_estimate fst snd]. apply learn_one; [exact Hn|exact Hs| |exact El]. apply lesson_bits. destruct ok; [|exact Hb]. exact (Hldpc _ _ E1).
  - intros (st & st' & adds & em' & E1 & E2 & E3 & E4 & E5 & ->).
    assert (Q : md_update Rops (decode text) info (co_md c) ldpc (co_fields s) llr label bits = (MdState Rops (set_nth (md_structs (co_fields s)) (Z.to_nat label) st') (bm_run Rops pack erf (md_model (co_fields s)) adds) (md_running (co_fields s)) (md_classifier (co_fields s)), Ok a)).
    { apply (update_iff Rops pack erf kl text info (co_md c) ldpc info_total); [exact Hr|]. exists st, st', adds. rewrite Ad. auto. }
    rewrite Eu in Q. inversion Q; subst f r. destruct a as [[[[est soft] ok] it] x]. rewrite (proj2 (index_label _ _ em (proj1 Hl)) He). cbn [an_ok an_estimate fst snd] in E5.
    apply learn_one in E5; [|exact Hn|exact Hs|apply lesson_bits; destruct ok; [exact (Hldpc _ _ E1)|exact Hb]]. change (F Rops) with R in *. rewrite E5. cbn [bind]. rewrite Set_. reflexivity.
Qed.

Lemma analyses_iff s label st p bits errs : (0 <= label)%Z -> nth_error (md_structs (co_fields s)) (Z.to_nat label) = Some st ->
  (co_analyses Rops pack c s label p bits errs = Ok tt <-> analysed pack c st (md_model (co_fields s)) p bits errs).
Proof using.
  clear. intros Hl Hs. unfold co_analyses, analysed. destruct errs as [e|]; [|split; [intros _ e Q; discriminate|reflexivity]]. destruct (md_debug (co_md c)); [|split; [intros _ e' _ Q; discriminate|reflexivity]].
  rewrite (proj2 (index_label _ _ st Hl) Hs). cbn [bind]. split.
  - intros E e' Q _. inversion Q; subst e'. destruct (classifier_analysis _ _ _ _ _ _) as [ca|]; cbn [bind] in E; [|discriminate]. change (F Rops) with R in *. destruct (forcing_analysis Rops pack _ _ _ _ _) as [fa|]; cbn [bind] in E; [|discriminate]. split; eauto.
  - intro H. destruct (H e eq_refl eq_refl) as [[ca ->] [fa Ef]]. cbn [bind]. change (F Rops) with R in *. rewrite Ef. reflexivity.
Qed.

Lemma word_largest (word : list R) : fitting c (length word) -> exists mx, largest (map Rabs word) mx.
Proof using.
  clear. intros (Hn & Li & _ & Rg). destruct word as [|x t]; [|destruct (pymax_R (map Rabs (x :: t))) as (m & _ & H); [discriminate|eauto]].
  destruct (md_idx (co_md c)) as [|i l]; [cbn in Li; lia|]. apply Forall_inv in Rg. cbn in Rg. lia.
Qed.
Lemma holds_length m ps ps' : holds m ps -> holds m ps' -> length ps = length ps'.
Proof using. clear. intros [[-> E]|[_ (_ & _ & E)]] [[-> E']|[_ (_ & _ & E')]]; rewrite E in E'; try reflexivity; apply (f_equal (@length _)) in E'; rewrite ?map_length in E'; cbn in *; congruence. Qed.

Theorem decode_iff s word errs s' a label : co_well c s -> fitting c (length word) -> answers_bits (length word) ldpc ->
  (decode_ s word errs = (s', Ok (a, label)) <->
   MavDecSpec.labels Rops (co_md c) kl (map sign_bit word) (md_running (co_fields s)) (md_classifier (co_fields s)) [label] (md_running (co_fields s')) (md_classifier (co_fields s')) /\
   (label = (-1)%Z /\ ldpc word = Ok a /\ md_structs (co_fields s') = md_structs (co_fields s) /\ md_model (co_fields s') = md_model (co_fields s) /\ co_entropies s' = co_entropies s \/
    (0 <= label)%Z /\ labelled pack erf text info c (co_lesson Rops c) (co_input (md_model (co_fields s))) ldpc s word errs (Z.to_nat label) a s')).
Proof.
  intros ((W & K) & Le & So) Fit Ans. rewrite <- hard_map.
  assert (Hb : Forall is_bit (hard Rops word)) by apply hard_is_bit. assert (Hld : forall w a, ldpc w = Ok a -> Forall is_bit (an_estimate (FO := Rops) a)) by (intros w0 a0 Q; apply (Ans w0 a0 Q)).
  assert (Hn : 1 <= co_length c) by apply Fit. destruct (word_largest word Fit) as (mx & Mx).
  unfold co_decode. destruct (md_label Rops kl (co_md c) (co_fields s) (hard Rops word)) as [f lab] eqn:El. split.
  - intro E. destruct lab as [l|]; [|discriminate]. pose proof (proj1 (label_iff Rops kl (co_md c) _ _ _ _) El) as (Lb & S1 & M1).
    destruct (labels_one Rops kl (co_md c) _ _ _ _ _ _ K Lb) as [(-> & _)|[Hl _]].
    + cbn in E. change (F Rops) with R in *. destruct (ldpc word) as [a0|] eqn:Ea; cbn [bind] in E; [|discriminate]. inversion E; subst. split; [exact Lb|]. left. auto.
    + destruct (Z.ltb_spec l 0%Z); [lia|]. destruct (predict_ (CoState Rops f (co_entropies s)) word l) as [s1 p] eqn:Ep. change (F Rops) with R in *. destruct p as [p|]; [|discriminate].
      match type of E with context [match ?t with Ok _ => _ | Err _ => _ end] => destruct t as [input|] eqn:Ei end; [|discriminate].
      destruct (update_ s1 input l (hard Rops word)) as [s2 r] eqn:Eu. change (F Rops) with R in *. destruct r as [a0|]; cbn [bind] in E; [|discriminate]. inversion E; subst s2 a0 l.
      assert (He : exists em, nth_error (co_entropies s) (Z.to_nat label) = Some em).
      { destruct (nth_error (co_entropies s) (Z.to_nat label)) eqn:Q; [eauto|]. exfalso. apply nth_error_None in Q. unfold co_predict in Ep. cbn [co_fields] in Ep. rewrite S1 in Ep.
        destruct (index_z (md_structs (co_fields s)) label) as [st|] eqn:Es; [|discriminate]. apply index_label in Es; [|exact Hl]. apply nth_error_Some' in Es || (assert (Z.to_nat label < length (md_structs (co_fields s))) by (apply nth_error_Some; congruence); lia). }
      destruct He as (em & He). rewrite Forall_forall in So. assert (Sm : sound c em) by (apply So; eapply nth_error_In; exact He).
      apply (co_predict_iff (CoState Rops f (co_entropies s)) _ _ _ _ em Hl He) in Ep. cbn [co_fields co_entropies] in Ep. destruct Ep as (st & m1 & P1 & P2 & ->). rewrite S1 in *. rewrite M1 in P2.
      destruct (co_analyses _ _ _ _ _ _ _ _) as [[]|] eqn:Ea; cbn [bind] in Ei; [|discriminate]. apply (analyses_iff _ _ st _ _ _ Hl) in Ea; [|exact P1]. cbn [co_fields md_model] in Ea.
      cbn [co_entropies] in Ei. rewrite (proj2 (index_label _ _ em Hl) He) in Ei. cbn [bind] in Ei.
      pose proof Sm as (D1 & D2 & ps & Hp & Hlp & _). pose proof (input_length _ _ _ _ _ _ P2) as Lp. rewrite <- Lp in Fit.
      destruct (add_advised c em ps word (pr_llr p) mx Hp Hlp Fit D1 Mx) as (w & Ew & Hw). assert (input = w) by (change (F Rops) with R in *; congruence). subst input.
      apply (co_update_iff _ _ _ _ _ _ em) in Eu; cbn [co_fields md_structs co_entropies]; auto; [|split; [exact Hl|]; assert (Z.to_nat label < length (md_structs (co_fields s))) by (apply nth_error_Some; congruence); lia].
      destruct Eu as (st1 & st' & adds & em' & U1 & U2 & U3 & U4 & U5 & ->). cbn [co_fields md_structs md_model md_running md_classifier co_entropies] in *. rewrite P1 in U2. inversion U2; subst st1.
      split; [exact Lb|]. right. split; [exact Hl|]. exists st, m1, p, em, ps, mx, w, st', adds, em'. rewrite <- hard_map. cbn [co_fields md_structs md_model md_running md_classifier co_entropies].
      split; [exact P1|]. split; [exact He|]. split; [exact P2|]. split; [exact Ea|]. split; [exact Hp|]. split; [exact Mx|]. split; [exact Hw|]. split; [exact U1|]. split; [exact U3|]. split; [exact U4|]. split; [exact U5|]. auto.
  - intros (Lb & H).
    assert (El' : md_label Rops kl (co_md c) (co_fields s) (hard Rops word) = (MdState Rops (md_structs (co_fields s)) (md_model (co_fields s)) (md_running (co_fields s')) (md_classifier (co_fields s')), Ok label)).
    { apply label_iff. cbn. auto. }
    rewrite El in El'. inversion El'; subst f lab. destruct H as [(-> & E1 & E2 & E3 & E4)|(Hl & H)].
    + cbn. change (F Rops) with R in *. rewrite E1. cbn [bind]. f_equal. destruct s' as [[? ? ? ?] ?]. cbn in *. congruence.
    + destruct (Z.ltb_spec label 0%Z); [lia|]. destruct H as (st & m1 & p & em & ps & mx' & w & st' & adds & em' & P1 & He & P2 & Ea & Hp & Mx' & Hw & U1 & U3 & U4 & U5 & R1 & R2 & R3). rewrite <- hard_map in *.
      rewrite Forall_forall in So. assert (Sm : sound c em) by (apply So; eapply nth_error_In; exact He).
      destruct (predict_ _ word label) as [s1 p1] eqn:Ep. match type of Ep with predict_ ?x _ _ = _ => set (s0 := x) in * end.
      assert (Ep' : predict_ s0 word label = (CoState Rops (MdState Rops (md_structs (co_fields s)) m1 (md_running (co_fields s')) (md_classifier (co_fields s'))) (co_entropies s), Ok p)).
      { apply (co_predict_iff s0 _ _ _ _ em Hl He). exists st, m1. cbn. auto. }
      rewrite Ep in Ep'. inversion Ep'; subst s1 p1. clear Ep Ep'. set (s1 := CoState Rops _ (co_entropies s)).
      rewrite (proj2 (analyses_iff s1 label st p (hard Rops word) errs Hl P1) Ea). cbn [bind]. change (co_entropies s1) with (co_entropies s). rewrite (proj2 (index_label _ _ em Hl) He). cbn [bind].
      pose proof Sm as (D1 & D2 & ps' & Hp' & Hlp' & _). pose proof (input_length _ _ _ _ _ _ P2) as Lp. change (F Rops) with R in *. rewrite <- Lp in Fit. pose proof (holds_length em ps ps' Hp Hp') as Lps.
      assert (Hlp : ps = [] \/ length ps = co_length c) by (destruct Hlp' as [->|Q]; [left; destruct ps; [reflexivity|discriminate]|right; congruence]).
      destruct (add_advised c em ps word (pr_llr p) mx' Hp Hlp Fit D1 Mx') as (w' & Ew & Hw'). assert (w' = w) by (eapply shifted_unique; eassumption). subst w'. change (F Rops) with R in *. rewrite Ew.
      assert (Eu : update_ s1 w label (hard Rops word) = (s', Ok a)).
      { apply (co_update_iff s1 _ _ _ _ _ em); auto; [split; [exact Hl|]; assert (Z.to_nat label < length (md_structs (co_fields s))) by (apply nth_error_Some; congruence); cbn; lia|].
        exists st, st', adds, em'. cbn [s1 co_fields md_structs md_model md_running md_classifier co_entropies]. split; [exact U1|]. split; [exact P1|]. split; [exact U3|]. split; [exact U4|]. split; [exact U5|]. destruct s' as [[? ? ? ?] ?]. cbn in *. congruence. }
      rewrite Eu. reflexivity.
Qed.

(** Any call, whatever it returns. *)
Lemma run_well (s : co_state Rops) f bits runs adds : co_well c s -> MavDecSpec.taught Rops text info (co_md c) ldpc bits (md_structs (co_fields s)) runs (md_structs f) adds -> sane (md_classifier f) -> co_well c (CoState Rops f (co_entropies s)).
Proof using.
  clear. intros ((W & K) & Le & So) T Sk. split; [|split; assumption]. split; [|exact Sk]. cbn [co_fields]. rewrite <- W. clear W K Le So Sk. remember (md_structs (co_fields s)) as a. remember (md_structs f) as b. clear Heqa Heqb. induction T; [reflexivity|]. rewrite IHT, length_set_nth. reflexivity.
Qed.

Lemma decode_any s word errs s' r : co_well c s -> fitting c (length word) -> answers_bits (length word) ldpc -> decode_ s word errs = (s', r) ->
  co_well c s' /\ exists runs adds, MavDecSpec.taught Rops text info (co_md c) ldpc (map sign_bit word) (md_structs (co_fields s)) runs (md_structs (co_fields s')) adds /\
    grown (FO := Rops) pack erf (md_model (co_fields s)) adds (md_model (co_fields s')) /\ length runs <= 1 /\
    (runs = [] -> co_entropies s' = co_entropies s).
Proof.
  intros Wl Fit Ans E. pose proof Wl as ((W & K) & Le & So). rewrite <- hard_map.
  assert (Hb : Forall is_bit (hard Rops word)) by apply hard_is_bit. assert (Hld : forall w a, ldpc w = Ok a -> Forall is_bit (an_estimate (FO := Rops) a)) by (intros w0 a0 Q; apply (Ans w0 a0 Q)).
  assert (Hn : 1 <= co_length c) by apply Fit. unfold co_decode in E. destruct (md_label Rops kl (co_md c) (co_fields s) (hard Rops word)) as [f lab] eqn:El.
  pose proof (label_inv Rops kl (co_md c) _ _ _ _ El) as [S1 M1]. destruct (label_range Rops kl (co_md c) _ _ _ _ (conj W K) El) as [[W1 K1] Rg].
  assert (Same : forall m, grown (FO := Rops) pack erf (md_model (co_fields s)) [] m -> forall es, es = co_entropies s -> let s1 := CoState Rops (MdState Rops (md_structs f) m (md_running f) (md_classifier f)) es in co_well c s1 /\ exists runs adds, MavDecSpec.taught Rops text info (co_md c) ldpc (hard Rops word) (md_structs (co_fields s)) runs (md_structs (co_fields s1)) adds /\
    grown (FO := Rops) pack erf (md_model (co_fields s)) adds (md_model (co_fields s1)) /\ length runs <= 1 /\ (runs = [] -> co_entropies s1 = co_entropies s)).
  { intros m G es ->. cbn. split; [split; [split; [exact W1|exact K1]|split; assumption]|]. exists [], []. rewrite S1. split; [constructor|]. split; [exact G|]. split; [cbn; lia|reflexivity]. }
  assert (Same1 : s' = CoState Rops f (co_entropies s) -> co_well c s' /\ exists runs adds, MavDecSpec.taught Rops text info (co_md c) ldpc (hard Rops word) (md_structs (co_fields s)) runs (md_structs (co_fields s')) adds /\
    grown (FO := Rops) pack erf (md_model (co_fields s)) adds (md_model (co_fields s')) /\ length runs <= 1 /\ (runs = [] -> co_entropies s' = co_entropies s)).
  { intros ->. destruct f as [fs fm fr fk]. apply (Same fm); [cbn in M1; rewrite M1; apply grown_refl|reflexivity]. }
  destruct lab as [l|e]; [|inversion E; subst; apply Same1; reflexivity]. destruct (Rg l eq_refl) as [Hge _].
  destruct (Z.ltb_spec l 0%Z) as [Hl|Hl].
  { unfold co_update in E. destruct (Z.ltb_spec l 0%Z); [|lia]. inversion E; subst. apply Same1. reflexivity. }
  destruct (predict_ (CoState Rops f (co_entropies s)) word l) as [s1 p] eqn:Ep. unfold co_predict in Ep. cbn [co_fields co_entropies] in Ep.
  match type of Ep with context [match ?t with Ok _ => _ | Err _ => _ end] => destruct t as [[m1 p1]|e] eqn:Er end; inversion Ep; subst s1 p; clear Ep; [|inversion E; subst; apply Same1; reflexivity].
  destruct (index_z (md_structs f) l) as [st|] eqn:Es; cbn [bind] in Er; [|discriminate]. apply index_label in Es; [|exact Hl].
  assert (G : grown (FO := Rops) pack erf (md_model (co_fields s)) [] m1).
  { rewrite <- M1. destruct (co_unified c); eapply rectify_grown; exact Er. }
  destruct (Same m1 G (co_entropies s) eq_refl) as (Wl1 & Nothing). set (s1 := CoState Rops (MdState Rops (md_structs f) m1 (md_running f) (md_classifier f)) (co_entropies s)) in *.
  match type of E with context [match ?t with Ok _ => _ | Err _ => _ end] => destruct t as [input|e] eqn:Ei end; [|inversion E; subst; split; assumption].
  destruct (update_ s1 input l (hard Rops word)) as [s2 r2] eqn:Eu. inversion E; subst s2. clear E.
  unfold co_update in Eu. destruct (Z.ltb_spec l 0%Z); [lia|]. destruct (md_update Rops (decode text) info (co_md c) ldpc (co_fields s1) input l (hard Rops word)) as [f2 r1] eqn:Em.
  assert (Lt : Z.to_nat l < length (md_structs f)) by (apply nth_error_Some; congruence).
  assert (Ad : forall n, addressed n l = Z.to_nat l) by (intro n; unfold addressed; destruct (Z.ltb_spec l 0%Z); [lia|reflexivity]).
  apply (update_spec Rops pack erf kl text info (co_md c) ldpc info_total) in Em; [|cbn [s1 co_fields md_structs]; lia]. cbn [s1 co_fields md_structs md_model md_running md_classifier] in Em. destruct Em as (R1 & K2 & [(-> & e & -> & _)|(a & st1 & st' & adds & U1 & U2 & U3 & U4 & U5 & U6 & U7)]).
  { inversion Eu; subst. split; assumption. }
  rewrite Ad in *. rewrite S1 in *. rewrite Es in U2. inversion U2; subst st1.
  assert (T : MavDecSpec.taught Rops text info (co_md c) ldpc (hard Rops word) (md_structs (co_fields s)) [Run l word input a] (md_structs f2) (adds ++ [])).
  { eapply T_run with (r := Run l word input a) (st := st) (st' := st'); cbn [r_label r_sent r_answer]; rewrite ?Ad; [exact Es|exact U1|exact U3|]. rewrite <- U4. constructor. }
  assert (G2 : grown (FO := Rops) pack erf (md_model (co_fields s)) (adds ++ []) (md_model f2)).
  { rewrite U5, app_nil_r. change adds with ([] ++ adds). eapply grown_trans; [exact G|]. apply grown_adds. exact U6. }
  assert (Wl2 : co_well c (CoState Rops f2 (co_entropies s))) by (eapply run_well; [exact Wl|exact T|rewrite K2; exact K1]).
  assert (Done : forall es, length es = md_clusters (co_md c) -> Forall (sound c) es -> s' = CoState Rops f2 es -> co_well c s' /\ exists runs adds, MavDecSpec.taught Rops text info (co_md c) ldpc (hard Rops word) (md_structs (co_fields s)) runs (md_structs (co_fields s')) adds /\
    grown (FO := Rops) pack erf (md_model (co_fields s)) adds (md_model (co_fields s')) /\ length runs <= 1 /\ (runs = [] -> co_entropies s' = co_entropies s)).
  { intros es L1 L2 ->. split; [split; [apply Wl2|split; assumption]|]. eexists _, _. split; [exact T|]. split; [exact G2|]. split; [cbn; lia|discriminate]. }
  destruct r1 as [[[[[est soft] ok] it] x]|e]; [|inversion Eu; subst; eapply Done; [exact Le|exact So|reflexivity]]. cbn [co_entropies s1] in Eu.
  assert (a = (est, soft, ok, it, x)) by (destruct U7 as [Q|[e Q]]; inversion Q; reflexivity). subst a.
  destruct (index_z (co_entropies s) l) as [em|] eqn:Ee; [|inversion Eu; subst; eapply Done; [exact Le|exact So|reflexivity]]. apply index_label in Ee; [|exact Hl].
  destruct (learn_corrected Rops (co_window c) (co_length c) (co_bit_flip c) em (co_lesson Rops c (if ok then est else hard Rops word))) as [m r3] eqn:Eln. inversion Eu; subst. eapply Done; [| |reflexivity].
  - rewrite set_z_addressed, length_set_nth. exact Le.
  - rewrite set_z_addressed. apply forall_set_nth; [exact So|]. rewrite Forall_forall in So. eapply learn_sound; [exact Hn|apply So; eapply nth_error_In; exact Ee| |exact Eln]. apply lesson_bits. destruct ok; [exact (Hld _ _ U1)|exact Hb].
Qed.

(** Histories. *)
Definition co_calls (s : co_state Rops) (l : list (list R * option (list Z))) : co_state Rops := fold_left (fun s x => fst (decode_ s (fst x) (snd x))) l s.
Lemma co_calls_lessons n l : fitting c n -> answers_bits n ldpc -> Forall (fun x => length (fst x) = n) l -> forall s, co_well c s ->
  co_well c (co_calls s l) /\ exists runs adds, MavDecSpec.lessons Rops text info (co_md c) ldpc (md_structs (co_fields s)) (combine (map (fun x => map sign_bit (fst x)) l) runs) (md_structs (co_fields (co_calls s l))) adds /\
    length runs = length l /\ Forall (fun rs => length rs <= 1) runs /\ grown (FO := Rops) pack erf (md_model (co_fields s)) adds (md_model (co_fields (co_calls s l))).
Proof.
  intros Fit Ans. induction l as [|[word errs] l IH]; intros Hl s W.
  - split; [exact W|]. exists [], []. split; [constructor|]. split; [reflexivity|]. split; [constructor|]. apply grown_refl.
  - pose proof (Forall_inv Hl) as Hw. apply Forall_inv_tail in Hl. cbn [fst] in Hw. cbn [co_calls fold_left fst snd]. destruct (decode_ s word errs) as [s1 r] eqn:E. rewrite <- Hw in Fit, Ans.
    destruct (decode_any _ _ _ _ _ W Fit Ans E) as (W1 & rs & a1 & T & G & Lr & _). rewrite Hw in Fit, Ans. cbn [fst]. destruct (IH Hl s1 W1) as (I5 & runs & adds & I1 & I2 & I3 & I4). split; [exact I5|].
    exists (rs :: runs), (a1 ++ adds). split; [cbn [map combine]; econstructor; [exact T|exact I1]|]. split; [cbn; congruence|]. split; [constructor; assumption|]. eapply grown_trans; eassumption.
Qed.

(** The entropy models after calls that all returned. *)
Lemma buffers_snoc lesson v words (outs : list (res (answer * Z))) w o : length words = length outs ->
  buffers_of lesson v (words ++ [w]) (outs ++ [o]) = buffers_of lesson v words outs ++
    match o with Ok (a, label) => if Z.eqb label v then [lesson (if an_ok (FO := Rops) a then an_estimate (FO := Rops) a else map sign_bit w)] else [] | Err _ => [] end.
Proof using.
  clear. intro L. unfold buffers_of. revert outs L. induction words as [|x words IH]; intros [|y outs] L; cbn in L; try discriminate; [cbn; rewrite app_nil_r; reflexivity|].
  cbn [app combine flat_map]. rewrite IH by lia. rewrite app_assoc. reflexivity.
Qed.
Lemma co_history_taught n (calls : list (list R * option (list Z))) s0 : fitting c n -> answers_bits n ldpc -> Forall (fun x => length (fst x) = n) calls -> co_well c s0 ->
  co_entropies s0 = repeat em_new (md_clusters (co_md c)) -> forall s outs, in_turn (fun s x => decode_ s (fst x) (snd x)) s0 calls = (s, outs) -> Forall is_ok outs ->
  co_well c s /\ length outs = length calls /\
  forall v, v < md_clusters (co_md c) -> after_lessons (co_window c) (co_length c) (co_bit_flip c) (buffers_of (co_lesson Rops c) (Z.of_nat v) (map fst calls) outs) (nth v (co_entropies s) em_new).
Proof.
  intros Fit Ans. induction calls as [|[w errs] calls IH] using rev_ind; intros Hl W0 E0 s outs E Ok_.
  - inversion E; subst. split; [exact W0|]. split; [reflexivity|]. intros v Hv. rewrite E0, nth_repeat. cbn. unfold after_lessons, buffers_of. cbn [combine flat_map]. rewrite kept_nil. split; [reflexivity|]. split; [reflexivity|congruence].
  - rewrite history_snoc in E. destruct (in_turn (fun s x => decode_ s (fst x) (snd x)) s0 calls) as [s1 os] eqn:E1. cbn [fst snd] in E. change (F Rops) with R in *. destruct (decode_ s1 w errs) as [s2 o] eqn:E2. inversion E; subst s2 outs.
    apply Forall_app in Hl. destruct Hl as [Hl Hw]. apply Forall_inv in Hw. cbn [fst] in Hw. apply Forall_app in Ok_. destruct Ok_ as [Oa Ob]. apply Forall_inv in Ob. destruct (IH Hl W0 E0 s1 os eq_refl Oa) as (W1 & Lo & T).
    destruct o as [[a label]|]; [|destruct Ob]. subst n. destruct (decode_any _ _ _ _ _ W1 Fit Ans E2) as [W2 _]. split; [exact W2|]. split; [rewrite !app_length; cbn [length]; f_equal; exact Lo|].
    apply (decode_iff _ _ _ _ _ _ W1 Fit Ans) in E2. destruct E2 as (Lb & Cs). intros v Hv. rewrite map_app. cbn [map fst]. rewrite buffers_snoc by (rewrite map_length; symmetry; exact Lo). specialize (T v Hv).
    destruct Cs as [(-> & _ & _ & _ & ->)|(Hlb & st & m1 & p & em & ps & mx & w' & st' & adds & em' & P1 & He & P2 & Ea & Hp & Mx & Hw & U1 & U3 & U4 & U5 & R1 & R2 & R3)].
    + destruct (Z.eqb_spec (-1) (Z.of_nat v)); [lia|]. rewrite app_nil_r. exact T.
    + rewrite R3. rewrite Base.nth_set_nth. destruct (Z.eqb_spec label (Z.of_nat v)) as [Q|Q].
      * subst label. rewrite Nat2Z.id in *. rewrite Nat.eqb_refl. cbn [andb]. assert (v < length (co_entropies s1)) by (apply nth_error_Some; congruence). destruct (Nat.ltb_spec v (length (co_entropies s1))); [|lia].
        rewrite (nth_error_nth _ _ em_new He) in T. destruct T as (D & _ & _). destruct U5 as (_ & Mx5 & D5 & K5). set (ln := co_lesson Rops c _) in *. set (h := buffers_of _ _ _ _) in *.
        rewrite D, kept_kept in *. split; [exact D5|]. split; [intro Q; destruct h; discriminate|]. intros _. split; assumption.
      * rewrite app_nil_r. destruct (Nat.eqb_spec v (Z.to_nat label)); [lia|]. cbn [andb]. exact T.
Qed.

(** ** Lengths *)
Lemma decode_length s word errs s' a label : co_well c s -> decode_ s word errs = (s', Ok (a, label)) -> (0 <= label)%Z ->
  length (co_lesson Rops c (if an_ok (FO := Rops) a then an_estimate (FO := Rops) a else map sign_bit word)) = co_length c.
Proof.
  intros ((W & K) & Le & So) E Hl. rewrite <- hard_map. unfold co_decode in E. destruct (md_label Rops kl (co_md c) (co_fields s) (hard Rops word)) as [f lab] eqn:El.
  destruct lab as [l|e]; [|discriminate]. destruct (Z.ltb_spec l 0%Z) as [Hl0|Hl0].
  { match type of E with (let '(_, _) := ?t in _) = _ => destruct t as [s1 r1] end. change (F Rops) with R in *. destruct r1; cbn [bind] in E; [|discriminate]. inversion E; subst. lia. }
  destruct (predict_ (CoState Rops f (co_entropies s)) word l) as [s1 p] eqn:Ep. change (F Rops) with R in *. destruct p as [p|]; [|discriminate].
  match type of E with context [match ?t with Ok _ => _ | Err _ => _ end] => destruct t as [input|] end; [|discriminate]. destruct (update_ s1 input l (hard Rops word)) as [s2 r] eqn:Eu. change (F Rops) with R in *.
  destruct r as [a0|]; cbn [bind] in E; [|discriminate]. inversion E; subst s2 a0 l. unfold co_update in Eu. destruct (Z.ltb_spec label 0%Z); [lia|].
  destruct (md_update Rops (decode text) info (co_md c) ldpc (co_fields s1) input label (hard Rops word)) as [f2 r1]. change (F Rops) with R in *. destruct r1 as [[[[[est soft] ok] it] x]|]; [|discriminate].
  match type of Eu with context [match ?t with Ok _ => _ | Err _ => _ end] => destruct t as [em|] end; [|discriminate]. unfold learn_corrected in Eu.
  match type of Eu with context [negb ?t] => destruct t eqn:Q end; [apply Nat.eqb_eq in Q|discriminate].
  match type of Eu with (let '(_, _) := ?t in _) = _ => destruct t as [m r3] end. destruct r3; cbn [bind] in Eu; [|discriminate]. inversion Eu; subst. cbn [an_ok an_estimate fst snd]. exact Q.
Qed.

(** ** Debugging without structures *)
Lemma decode_debugging s word errs s' r : co_well c s -> md_debug (co_md c) = true -> Forall (fun st => st = None) (md_structs (co_fields s)) -> decode_ s word (Some errs) = (s', r) ->
  md_structs (co_fields s') = md_structs (co_fields s) /\ md_model (co_fields s') = md_model (co_fields s) /\ co_entropies s' = co_entropies s /\ co_well c s' /\ forall a label, r = Ok (a, label) -> label = (-1)%Z.
Proof using.
  clear info_total.
  intros ((W & K) & Le & So) Hd Hn E. unfold co_decode in E. destruct (md_label Rops kl (co_md c) (co_fields s) (hard Rops word)) as [f lab] eqn:El.
  pose proof (label_inv Rops kl (co_md c) _ _ _ _ El) as [S1 M1]. destruct (label_range Rops kl (co_md c) _ _ _ _ (conj W K) El) as [W1 Rg].
  assert (Same : s' = CoState Rops f (co_entropies s) -> (forall a label, r = Ok (a, label) -> label = (-1)%Z) -> md_structs (co_fields s') = md_structs (co_fields s) /\ md_model (co_fields s') = md_model (co_fields s) /\ co_entropies s' = co_entropies s /\ co_well c s' /\ forall a label, r = Ok (a, label) -> label = (-1)%Z).
  { intros -> H. cbn [co_fields co_entropies]. repeat split; try assumption; apply W1. }
  destruct lab as [l|e]; [|inversion E; subst; apply Same; [reflexivity|discriminate]]. destruct (Rg l eq_refl) as [Hge _]. destruct (Z.ltb_spec l 0%Z) as [Hl|Hl].
  { unfold co_update in E. destruct (Z.ltb_spec l 0%Z); [|lia]. inversion E; subst. apply Same; [reflexivity|]. intros a label Q. change (F Rops) with R in *. destruct (ldpc word); cbn [bind] in Q; inversion Q; subst. lia. }
  unfold co_predict in E. cbn [co_fields co_entropies] in E. destruct (index_z (md_structs f) l) as [st|] eqn:Es; cbn [bind] in E; [|inversion E; subst; apply Same; [reflexivity|discriminate]].
  pose proof Es as Es'. apply index_label in Es; [|exact Hl]. assert (st = None) by (rewrite Forall_forall in Hn; apply Hn; rewrite <- S1; eapply nth_error_In; exact Es). subst st.
  assert (Ei : (match co_unified c with
     | None => rectify Rops pack erf (decode text) info (md_rect (co_md c)) (scale_plain Rops) (forced_wrong Rops) (md_model f) None word
     | Some flip => rectify Rops pack erf (decode text) info (md_rect (co_md c)) (fun good bad vf inf l0 => do! m <- index_z (co_entropies s) l in scale_low Rops c flip m good bad vf inf l0) (forced_unified Rops c) (md_model f) None word
     end) = Ok (md_model f, Pred word [] [] [] [] 0 None [])) by (destruct (co_unified c); reflexivity).
  change (F Rops) with R in *. rewrite Ei in E. unfold co_analyses in E. rewrite Hd in E. cbn [co_fields md_structs] in E. rewrite Es' in E. cbn [bind classifier_analysis forcing_analysis] in E. inversion E; subst. destruct f. apply Same; [reflexivity|discriminate].
Qed.
End Call.
