(** Lemmas about the entropy decoders. *)
From Coq Require Import List ZArith NArith Reals Lra Bool Lia Arith Sorted.
From Verif.Model Require Import Py Float InfoTheory Clustering Segmentation DecoderBase EntropyDecoder.
From Verif.Spec Require Import Bytes Header Segment RealOps Info Cluster Stats EmleSpec DecoderSpec.
From Verif.Proofs Require Import Base SegmentP SegMore RealP InfoP EntropyP PerfP ClusterP ClusterH ClusterR EmleP TurboP DecoderP.
Import ListNotations.
Local Close Scope R_scope.

(** ** The distribution of the stored buffers *)
Lemma in_data_rows n data v : Forall (fun b => length b = n) data -> In v (concat (data_rows n data)) <-> In v (concat data).
Proof.
  intro H. rewrite Forall_forall in H. unfold data_rows. rewrite !in_concat. split.
  - intros (row & Hr & Hv). apply in_map_iff in Hr. destruct Hr as (i & <- & Hi). apply in_seq in Hi. apply in_map_iff in Hv. destruct Hv as (b & <- & Hb).
    exists b. split; [exact Hb|]. apply nth_In. rewrite (H b Hb). lia.
  - intros (b & Hb & Hv). apply (In_nth _ _ 0%Z) in Hv. destruct Hv as (i & Hi & <-). exists (map (fun col => nth i col 0%Z) data). split.
    + apply in_map_iff. exists i. split; [reflexivity|]. apply in_seq. rewrite <- (H b Hb). lia.
    + apply in_map_iff. exists b. auto.
Qed.
Lemma occurrences_votes n data i v : Forall (fun b => length b = n) data -> i < n -> occurrences (map (fun col => nth i col 0%Z) data) v = votes data v i.
Proof.
  intros H Hi. induction H as [|b t Hb H IH]; [reflexivity|]. unfold occurrences, votes in *. cbn [map count_occ filter].
  rewrite (nth_indep b (-1)%Z 0%Z) by lia. destruct (Z.eq_dec (nth i b 0%Z) v) as [E|E]; [apply Z.eqb_eq in E|apply Z.eqb_neq in E]; rewrite E; cbn [length]; rewrite IH; reflexivity.
Qed.
Lemma frequencies_row n data i a : Forall (fun b => length b = n) data -> i < n ->
  divide Rops (length data) (map (occurrences (map (fun col => nth i col 0%Z) data)) a) = map (fun v => share data v i) a.
Proof.
  intros H Hi. replace (length data) with (length (map (fun col => nth i col 0%Z) data)) at 1 by apply map_length.
  rewrite divide_freq. unfold frequencies. apply map_ext. intro v. rewrite (occurrences_votes n) by auto. rewrite map_length. reflexivity.
Qed.
Lemma data_prob_R n data : Forall (fun b => length b = n) data ->
  data_prob Rops n data = Ok (map (fun i => map (fun v => share data v i) (unique (concat (data_rows n data)))) (seq 0 n), length (unique (concat (data_rows n data)))).
Proof.
  intro H. unfold data_prob. rewrite prob_mat. cbn [bind fst snd]. f_equal. f_equal. unfold data_rows at 2. rewrite map_map. apply map_ext_in. intros i Hi. apply in_seq in Hi.
  apply (frequencies_row n); auto. lia.
Qed.
Lemma bits_concat n data v : Forall (bits_of_length n) data -> In v (concat data) -> v = 0%Z \/ v = 1%Z.
Proof. intros H Hv. apply in_concat in Hv. destruct Hv as (b & Hb & Hv). rewrite Forall_forall in H. destruct (H b Hb) as [_ F]. rewrite Forall_forall in F. exact (F v Hv). Qed.
Lemma bits_lengths n data : Forall (bits_of_length n) data -> Forall (fun b => length b = n) data.
Proof. intro H. eapply Forall_impl; [|exact H]. intros b [E _]. exact E. Qed.
Lemma unique_mixed n data : Forall (bits_of_length n) data -> mixed data -> unique (concat (data_rows n data)) = [0; 1]%Z.
Proof.
  intros H [M0 M1]. symmetry. apply alphabet_fun. split; [repeat constructor|]. intro v. rewrite (in_data_rows n) by (apply bits_lengths, H). split.
  - intros [<-|[<-|[]]]; auto.
  - intro Hv. destruct (bits_concat n data v H Hv); subst; cbn; auto.
Qed.
Lemma unique_constant n data : Forall (bits_of_length n) data -> data <> [] -> 1 <= n -> ~ mixed data -> exists v, (forall x, In x (concat data) -> x = v) /\ is_bit v /\ unique (concat (data_rows n data)) = [v].
Proof.
  intros H N Hn M. destruct data as [|b t]; [contradiction|]. pose proof (Forall_inv H) as [Lb Fb].
  assert (Hb : In (nth 0 b 0%Z) (concat (b :: t))). { cbn [concat]. apply in_or_app. left. apply nth_In. lia. }
  set (v := nth 0 b 0%Z) in *. assert (A : forall x, In x (concat (b :: t)) -> x = v).
  { intros x Hx. destruct (bits_concat n _ x H Hx) as [->| ->], (bits_concat n _ v H Hb) as [E|E]; rewrite E in *; auto; exfalso; apply M; split; auto. }
  exists v. split; [exact A|]. split; [exact (bits_concat n _ v H Hb)|]. symmetry. apply alphabet_fun. split; [repeat constructor|]. intro x.
  rewrite (in_data_rows n) by (apply bits_lengths, H). split; [intros [<-|[]]; exact Hb|]. intro Hx. left. symmetry. exact (A x Hx).
Qed.
Lemma votes_all data v i : (forall b, In b data -> nth i b (-1)%Z = v) -> votes data v i = length data.
Proof. unfold votes. induction data as [|b t IH]; intro H; [reflexivity|]. cbn [filter]. rewrite (H b) by (left; auto). rewrite Z.eqb_refl. cbn [length]. rewrite IH by (intros; apply H; right; auto). reflexivity. Qed.
Lemma share_complement n data i : data <> [] -> Forall (bits_of_length n) data -> i < n -> share data 0 i = (1 - share data 1 i)%R.
Proof. intros N H Hi. destruct (share_distribution n data i N H Hi) as [_ E]. cbn in E. lra. Qed.
Lemma share_unit n data i : data <> [] -> Forall (bits_of_length n) data -> i < n -> (0 <= share data 1 i <= 1)%R.
Proof. intros N H Hi. destruct (share_distribution n data i N H Hi) as [F E]. cbn in E. inversion F as [|? ? F0 F']; subst. inversion F'; subst. lra. Qed.
Lemma shannon_bit p : (0 <= p <= 1)%R -> row_entropy Rops 2 [1 - p; p]%R = bit_entropy p.
Proof.
  intro H. unfold bit_entropy. rewrite row_entropy_R. rewrite distribution_normalised; [reflexivity|]. split; [|cbn; lra].
  apply Forall_cons; [lra|]. apply Forall_cons; [lra|constructor].
Qed.
Lemma shannon_sure : row_entropy Rops 2 [1%R] = 0%R.
Proof.
  rewrite row_entropy_R. rewrite distribution_normalised.
  - unfold shannon. cbn. destruct (Rlt_dec 0 1); [|lra]. unfold log_in. rewrite ln_1. unfold Rdiv. lra.
  - split; [|cbn; lra]. apply Forall_cons; [lra|constructor].
Qed.

Lemma map_const_R {A B} (c : B) (l : list A) : map (fun _ => c) l = repeat c (length l).
Proof. induction l as [|x t IH]; [reflexivity|]. cbn [map length repeat]. rewrite IH. reflexivity. Qed.

(** ** Learning *)
Lemma learn_plain_describes w n m h bits : 1 <= n -> Forall (bits_of_length n) (h ++ [bits]) -> describes n m (kept w h) ->
  exists m', learn_plain Rops w n m bits = (m', Ok tt) /\ describes n m' (kept w (h ++ [bits])).
Proof.
  intros Hn H (E & _). unfold learn_plain. assert (Hb : bits_of_length n bits) by (rewrite Forall_forall in H; apply H, in_or_app; right; left; reflexivity).
  rewrite (proj1 Hb), Nat.eqb_refl. cbn [negb]. rewrite E.
  assert (Hl : Forall (fun b : list Z => length b = n) h). { apply Forall_app in H. apply bits_lengths, H. }
  rewrite (append_buffer_kept w h bits n) by auto. set (data := kept w (h ++ [bits])).
  assert (Hd : Forall (bits_of_length n) data). { apply Forall_forall. intros b Hi. rewrite Forall_forall in H. apply H, (kept_incl w), Hi. }
  pose proof (data_prob_R n data (bits_lengths _ _ Hd)) as P. change (F Rops) with R in *. rewrite P. cbn [entropy]. eexists. split; [reflexivity|].
  unfold describes, knows. cbn [em_data em_cols em_rows em_entropy]. split; [reflexivity|]. split; [right; rewrite !map_length, seq_length; reflexivity|]. intro N. split.
  - intro M. rewrite (unique_mixed n) by auto. split; [reflexivity|]. cbn [map]. split.
    + rewrite map_map. apply map_ext_in. intros i Hi. apply in_seq in Hi. rewrite (share_complement n) by (auto; lia). reflexivity.
    + rewrite !map_map. apply map_ext_in. intros i Hi. apply in_seq in Hi. rewrite (share_complement n) by (auto; lia). apply shannon_bit, (share_unit n); auto. lia.
  - intro M. destruct (unique_constant n data Hd N Hn M) as (v & A & Bv & ->). split; [reflexivity|]. cbn [map length].
    assert (R1 : map (fun i => [share data v i]) (seq 0 n) = repeat [1%R] n).
    { rewrite <- (seq_length n 0) at 2. rewrite <- (map_const_R [1%R] (seq 0 n)). apply map_ext_in. intros i Hi. apply in_seq in Hi. f_equal. unfold share. rewrite votes_all.
      - apply Rinv_r. destruct data; [contradiction|]. cbn [length]. apply not_0_INR. lia.
      - intros b Hb'. apply A. apply in_concat. exists b. split; [exact Hb'|]. apply nth_In. rewrite Forall_forall in Hd. rewrite (proj1 (Hd b Hb')). lia. }
    change (F Rops) with R in *. rewrite R1. split; [reflexivity|]. clear. induction n as [|n IH]; [reflexivity|]. cbn [repeat map]. rewrite IH. f_equal. apply shannon_sure.
Qed.

(** ** Decoding *)
Section Decode.
Context {FO : fops} {D W X : Type} (parser : bytes -> res D) (c : ed_conf FO).

Lemma recognised_parts bits parts v s : segment_buffer parser (pack bits) = Ok (parts, v, s) -> recognised parser bits = negb (existsb is_unknown parts).
Proof.
  intro E. unfold recognised. rewrite E. clear. induction parts as [|p t IH]; [reflexivity|]. cbn [forallb existsb]. rewrite IH, negb_orb. reflexivity.
Qed.
Lemma finish_spec m (e : list Z) (l : X) ok it : ed_finish FO parser c m (e, l, ok, it) =
  if forallb (fun i => Nat.ltb i (length e)) (ed_idx FO c) then
    match segment_buffer parser (pack (picked e (ed_idx FO c))) with
    | Err x => (m, Err x)
    | Ok (_, _, s) =>
        if (recognised parser (picked e (ed_idx FO c)) && negb (ed_given FO c))%bool
        then let '(m', u) := learn_plain FO (ed_window FO c) (ed_length FO c) m (picked e (ed_idx FO c)) in
             (m', do! _ <- u in Ok (e, l, ok, it, length s))
        else (m, Ok (e, l, ok, it, length s))
    end
  else (m, Err IndexError).
Proof.
  unfold ed_finish. rewrite (take_total e (ed_idx FO c) 0%Z). destruct (forallb _ (ed_idx FO c)); [|reflexivity]. cbn [bind]. fold (picked e (ed_idx FO c)).
  destruct (segment_buffer parser (pack (picked e (ed_idx FO c)))) as [[[parts v] s]|x] eqn:E; cbn [bind]; [|reflexivity].
  rewrite (recognised_parts _ _ _ _ E). unfold ed_update. destruct (negb (existsb is_unknown parts)); cbn [andb]; [|reflexivity].
  destruct (ed_given FO c); cbn [negb]; reflexivity.
Qed.
Lemma decode_final predict (ldpc : list W -> res (list Z * X * bool * Z)) m word r : final_run ldpc (predict m) word r ->
  ed_decode FO parser c predict ldpc m word = ed_finish FO parser c m r.
Proof.
  intros [[E S1]|(r0 & w & E0 & S0 & P & E)]; unfold ed_decode; rewrite ?E.
  - destruct r as [[[e l] ok] it]. cbn in S1. subst. reflexivity.
  - rewrite E0. destruct r0 as [[[e0 l0] ok0] it0]. cbn in S0. subst. rewrite P. cbn [bind]. rewrite E. reflexivity.
Qed.
Lemma decode_cases predict (ldpc : list W -> res (list Z * X * bool * Z)) m word : let d := ed_decode FO parser c predict ldpc m word in
  (exists r, final_run ldpc (predict m) word r /\ d = ed_finish FO parser c m r) \/ (exists x, d = (m, Err x)).
Proof.
  cbn zeta. destruct (ldpc word) as [r0|x] eqn:E0.
  - destruct r0 as [[[e0 l0] ok0] it0]. destruct ok0.
    + left. eexists. split; [left; split; [exact E0|reflexivity]|]. unfold ed_decode. rewrite E0. reflexivity.
    + destruct (predict m word) as [w|x] eqn:P.
      * destruct (ldpc w) as [r|x] eqn:E.
        -- left. exists r. split; [right; do 2 eexists; repeat split; eauto|]. unfold ed_decode. rewrite E0, P. cbn [bind]. rewrite E. reflexivity.
        -- right. exists x. unfold ed_decode. rewrite E0, P. cbn [bind]. rewrite E. reflexivity.
      * right. exists x. unfold ed_decode. rewrite E0, P. reflexivity.
  - right. exists x. unfold ed_decode. rewrite E0. reflexivity.
Qed.
(** A decoder with a given model, and one whose model length is not the number of its model bits, never learns. *)
Lemma decode_frozen predict (ldpc : list W -> res (list Z * X * bool * Z)) m word :
  ed_given FO c = true \/ length (ed_idx FO c) <> ed_length FO c -> fst (ed_decode FO parser c predict ldpc m word) = m.
Proof.
  intro H. destruct (decode_cases predict ldpc m word) as [([[[e l] ok] it] & _ & ->)|(x & ->)]; [|reflexivity]. rewrite finish_spec.
  destruct (forallb _ _); [|reflexivity]. destruct (segment_buffer _ _) as [[[parts v] s]|x]; [|reflexivity].
  destruct (recognised _ _); cbn [andb]; [|reflexivity]. destruct (ed_given FO c); cbn [negb]; [reflexivity|]. destruct H as [H|H]; [discriminate|].
  unfold learn_plain. replace (length (picked e (ed_idx FO c))) with (length (ed_idx FO c)) by (symmetry; apply map_length).
  destruct (Nat.eqb_spec (length (ed_idx FO c)) (ed_length FO c)); [contradiction|]. reflexivity.
Qed.
End Decode.

Lemma in_turn_frozen {A B O} (step : A -> B -> A * O) s calls : (forall x, fst (step s x) = s) -> fst (in_turn step s calls) = s.
Proof. intro H. induction calls as [|x t IH]; [reflexivity|]. cbn [in_turn]. specialize (H x). destruct (step s x) as [s' o]. cbn [fst] in H. subst. destruct (in_turn step s t). exact IH. Qed.

Lemma history_describes {D W X} (parser : bytes -> res D) (c : ed_conf Rops) (predict : entropy_model Rops -> list W -> res (list W)) :
  ed_given Rops c = false -> length (ed_idx Rops c) = ed_length Rops c -> 1 <= ed_length Rops c ->
  forall (calls : list ((list W -> res (list Z * X * bool * Z)) * list W)) m h m' outs,
  Forall (bits_of_length (ed_length Rops c)) h -> describes (ed_length Rops c) m (kept (ed_window Rops c) h) ->
  in_turn (fun m call => ed_decode Rops parser c predict (fst call) m (snd call)) m calls = (m', outs) -> Forall (Forall is_bit) (estimates outs) ->
  describes (ed_length Rops c) m' (kept (ed_window Rops c) (h ++ filter (recognised parser) (map (fun e => picked e (ed_idx Rops c)) (estimates outs)))).
Proof.
  intros G L N1. induction calls as [|[ldpc word] t IH]; intros m h m' outs Hh Hm E B.
  - inversion E; subst. cbn [estimates map concat filter]. rewrite app_nil_r. exact Hm.
  - cbn [in_turn fst snd] in E. destruct (ed_decode Rops parser c predict ldpc m word) as [m1 o] eqn:E1.
    destruct (in_turn _ m1 t) as [m2 os] eqn:E2. inversion E; subst. clear E. unfold estimates in B |- *. cbn [map concat] in B |- *.
    destruct (decode_cases parser c predict ldpc m word) as [([[[e l] ok] it] & _ & E)|(x & E)]; rewrite E in E1; clear E.
    2: { inversion E1; subst. cbn [app] in *. apply (IH m1 h m' os); auto. }
    rewrite finish_spec in E1. destruct (forallb _ _) eqn:R.
    2: { inversion E1; subst. cbn [app] in *. apply (IH m1 h m' os); auto. }
    destruct (segment_buffer _ _) as [[[parts v] s]|x] eqn:Sg.
    2: { inversion E1; subst. cbn [app] in *. apply (IH m1 h m' os); auto. }
    rewrite G in E1. cbn [negb] in E1. rewrite andb_true_r in E1. destruct (recognised parser (picked e (ed_idx Rops c))) eqn:K.
    + assert (Be : Forall is_bit e).
      { destruct (learn_plain Rops (ed_window Rops c) (ed_length Rops c) m (picked e (ed_idx Rops c))) as [mm u] eqn:Lp. inversion E1; subst.
        unfold learn_plain in Lp. unfold picked in Lp. rewrite map_length, L, Nat.eqb_refl in Lp. cbn [negb] in Lp.
        unfold data_prob in Lp. rewrite prob_mat in Lp. cbn [bind fst snd entropy] in Lp. inversion Lp; subst. cbn [bind] in B. exact (Forall_inv B). }
      assert (Hb : bits_of_length (ed_length Rops c) (picked e (ed_idx Rops c))).
      { split; [unfold picked; rewrite map_length; exact L|]. unfold picked. apply Forall_forall. intros z Hz. apply in_map_iff in Hz. destruct Hz as (i & <- & Hi).
        rewrite forallb_forall in R. specialize (R i Hi). apply Nat.ltb_lt in R. rewrite Forall_forall in Be. apply Be, nth_In, R. }
      destruct (learn_plain_describes (ed_window Rops c) (ed_length Rops c) m h (picked e (ed_idx Rops c)) N1) as (mm & Lp & Dm); auto.
      { apply Forall_app. auto. }
      change (F Rops) with R in *. rewrite Lp in E1. inversion E1; subst. cbn [bind app map filter] in B |- *. rewrite K. inversion B; subst.
      match goal with |- context [?a :: filter ?g ?k] => change (a :: filter g k) with ([a] ++ filter g k) end.
      rewrite app_assoc. apply (IH m1 (h ++ [picked e (ed_idx Rops c)]) m' os); auto. apply Forall_app. auto.
    + inversion E1; subst. cbn [app map filter] in B |- *. rewrite K. inversion B; subst. apply (IH m1 h m' os); auto.
Qed.

(** ** Packing *)
Lemma packbits_nil f : packbits f [] = [].
Proof. destruct f; reflexivity. Qed.
Definition on (z : Z) : bool := negb (Z.eqb z 0).
Lemma byte_bits_value a b c d e f g h : byte_bits (bits_value [a; b; c; d; e; f; g; h]) = [a; b; c; d; e; f; g; h].
Proof. destruct a, b, c, d, e, f, g, h; vm_compute; reflexivity. Qed.
Lemma list8 {A} (l : list A) : length l = 8 -> exists a b c d e f g h, l = [a; b; c; d; e; f; g; h].
Proof. intro H. do 9 (destruct l as [|? l]; try discriminate). repeat eexists. Qed.
Lemma packbits_bits : forall f l, length l <= f -> exists pad, pad < 8 /\ flat_map byte_bits (packbits f l) = map on l ++ repeat false pad.
Proof.
  induction f as [|f IH]; intros l H.
  - destruct l; [|cbn in H; lia]. exists 0. split; [lia|reflexivity].
  - destruct l as [|x t]; [exists 0; split; [lia|reflexivity]|]. set (l := x :: t) in *. change (packbits (S f) l) with (bits_value (map on (firstn 8 (l ++ repeat 0%Z 7))) :: packbits f (skipn 8 l)).
    destruct (IH (skipn 8 l)) as (pad & Hp & E). { rewrite skipn_length. unfold l in *. cbn [length] in *. lia. }
    assert (L : length (map on (firstn 8 (l ++ repeat 0%Z 7))) = 8). { rewrite map_length, firstn_length, app_length, repeat_length. unfold l. cbn [length]. lia. }
    cbn [flat_map]. rewrite E. destruct (list8 _ L) as (a & b & c & d & e & f' & g & h & Eb). rewrite Eb, byte_bits_value, <- Eb.
    destruct (Nat.le_gt_cases 8 (length l)) as [G|G].
    + exists pad. split; [exact Hp|]. rewrite firstn_app. replace (8 - length l) with 0 by lia. rewrite firstn_O, app_nil_r, app_assoc, <- map_app, firstn_skipn. reflexivity.
    + exists (8 - length l). split; [unfold l; cbn [length]; lia|]. rewrite skipn_all2 in E by lia. rewrite skipn_all2 by lia. rewrite packbits_nil in E. cbn [flat_map map app] in E.
      assert (pad = 0) by (destruct pad; [reflexivity|discriminate E]). subst pad. change (repeat false 0) with (@nil bool). rewrite !app_nil_r, firstn_app, (firstn_all2 (n := 8) l) by lia. rewrite map_app. f_equal.
      assert (E7 : repeat 0%Z 7 = repeat 0%Z (8 - length l) ++ repeat 0%Z (length l - 1)). { rewrite <- repeat_app. f_equal. unfold l in *. cbn [length] in *. lia. }
      rewrite E7, firstn_app, repeat_length, Nat.sub_diag, firstn_O, app_nil_r.
      rewrite firstn_all2 by (rewrite repeat_length; lia). generalize (8 - length l). clear. intro k. induction k as [|k IH]; [reflexivity|]. cbn [repeat map]. rewrite IH. reflexivity.
Qed.
Lemma pack_bits l : exists pad, pad < 8 /\ flat_map byte_bits (pack l) = map on l ++ repeat false pad.
Proof. apply packbits_bits. lia. Qed.

(** ** Prediction *)
Lemma pymax_fold l : forall x, let m := fold_left (fun m y => if Rltb m y then y else m) l x in (m = x \/ In m l) /\ (x <= m)%R /\ Forall (fun y => (y <= m)%R) l.
Proof.
  induction l as [|y t IH]; intro x; cbn [fold_left]; [split; [auto|split; [lra|constructor]]|].
  specialize (IH (if Rltb x y then y else x)). cbn zeta in IH. destruct IH as (I & Lx & Fa). destruct (Rltb x y) eqn:E.
  - apply (proj1 (Rltb_spec _ _)) in E. split; [destruct I as [->|I]; cbn; auto|]. split; [lra|constructor; auto].
  - apply (proj1 (Rltb_false _ _)) in E. split; [destruct I as [->|I]; cbn; auto|]. split; [lra|constructor; auto; lra].
Qed.
Lemma largest_unique l a b : largest l a -> largest l b -> a = b.
Proof. intros [Ha Fa] [Hb Fb]. rewrite Forall_forall in Fa, Fb. apply Rle_antisym; auto. Qed.
Lemma pymax_R l : l <> [] -> exists m, pymax Rops l = Ok m /\ largest l m.
Proof.
  destruct l as [|x t]; [contradiction|]. intros _. cbn [pymax]. eexists. split; [reflexivity|]. destruct (pymax_fold t x) as (I & Lx & Fa).
  split; [destruct I as [E|I]; [left; symmetry; exact E|right; exact I]|constructor; auto].
Qed.
Lemma pymax_largest l m : largest l m -> pymax Rops l = Ok m.
Proof. intro H. destruct (pymax_R l) as (m' & E & H'); [destruct H as [I _]; destruct l; [destruct I|discriminate]|]. rewrite E. f_equal. apply (largest_unique l); auto. Qed.
Lemma log_ratios_R m ps : knows m ps -> log_ratios Rops m = Ok (map log_ratio ps).
Proof.
  intros (C & Rw & _). unfold log_ratios, column. rewrite C, Rw. cbn [Nat.ltb Nat.leb bind]. rewrite !map_map. cbn [nth].
  rewrite broadcast_same by (rewrite !map_length; reflexivity). f_equal. unfold zip_with. clear. induction ps as [|p t IH]; [reflexivity|]. cbn [map combine fst snd]. rewrite IH.
  f_equal. unfold log_ratio, feps. cbn [flog fdiv fadd fz Rops]. f_equal. f_equal; lra.
Qed.
Lemma low_entropy_R m ps t : knows m ps -> low_entropy Rops t m = map (fun p => Rltb (bit_entropy p) t) ps.
Proof. intros (_ & _ & E). unfold low_entropy. change (F Rops) with R in *. rewrite E, map_map. reflexivity. Qed.
Definition ready (c : ed_conf Rops) (m : entropy_model Rops) : Prop :=
  ed_given Rops c = true \/ em_empty (em_data m) = false /\ (ed_min Rops c <= Z.of_nat (length (em_data m)))%Z.
Lemma ready_spec c m : ready c m <-> (ed_given Rops c || (negb (em_empty (em_data m)) && (ed_min Rops c <=? Z.of_nat (length (em_data m)))%Z))%bool = true.
Proof. unfold ready. rewrite orb_true_iff, andb_true_iff, negb_true_iff, Z.leb_le. tauto. Qed.
Lemma predict_knows c m ps obs mx : knows m ps -> length ps = length (ed_idx Rops c) -> NoDup (ed_idx Rops c) -> Forall (fun i => i < length obs) (ed_idx Rops c) ->
  ready c m -> largest obs mx ->
  exists out, ed_predict Rops c m obs = Ok out /\
    shifted (ed_idx Rops c) (fun j => (bit_entropy (nth j ps 0) < ed_threshold Rops c)%R) (fun j => limited (ed_clip Rops c * mx) (log_ratio (nth j ps 0%R))) obs out.
Proof.
  intros K L N R Rd Mx. unfold ed_predict. rewrite (low_entropy_R m ps _ K). rewrite mask_index_ok by (rewrite map_length; exact L). cbn [bind].
  rewrite (proj1 (ready_spec c m) Rd). rewrite (pymax_largest obs mx Mx). cbn [bind]. rewrite (log_ratios_R m ps K). cbn [bind].
  rewrite mask_index_ok by (rewrite !map_length; reflexivity). cbn [bind].
  set (mask := map (fun p => Rltb (bit_entropy p) (ed_threshold Rops c)) ps). set (cl := fmul Rops (ed_clip Rops c) mx). rewrite map_map.
  set (r := map (fun p => fclip Rops (log_ratio p) (fneg Rops cl) cl) ps).
  destruct (add_selected Rops obs r (ed_idx Rops c) mask 0%R N R) as (out & E & Lo & H1 & H2 & H3).
  { unfold mask. rewrite map_length. exact L. } { unfold r. rewrite map_length. exact L. }
  exists out. split; [exact E|]. split; [exact Lo|].
  assert (Mj : forall j, j < length (ed_idx Rops c) -> nth j mask false = Rltb (bit_entropy (nth j ps 0%R)) (ed_threshold Rops c)).
  { intros j Hj. unfold mask. rewrite <- L in Hj. rewrite (nth_indep _ false (Rltb (bit_entropy 0%R) (ed_threshold Rops c))) by (rewrite map_length; exact Hj). apply (map_nth (fun p => Rltb (bit_entropy p) (ed_threshold Rops c))). }
  split; [|split].
  - intros j Hj On. rewrite H1; [|exact Hj|rewrite Mj by exact Hj; apply Rltb_spec; exact On]. change (fadd Rops) with Rplus. f_equal. unfold r. rewrite <- L in Hj.
    rewrite (nth_indep _ 0%R (fclip Rops (log_ratio 0%R) (fneg Rops cl) cl)) by (rewrite map_length; exact Hj).
    rewrite (map_nth (fun p => fclip Rops (log_ratio p) (fneg Rops cl) cl)). rewrite fclip_R. unfold limited, cl. cbn [fneg fmul Rops]. rewrite Rmin_comm, Rmax_comm. reflexivity.
  - intros j Hj On. apply H2; [exact Hj|]. rewrite Mj by exact Hj. apply Rltb_false. lra.
  - exact H3.
Qed.
Lemma predict_waits c m obs : (em_entropy m = [] \/ length (em_entropy m) = length (ed_idx Rops c)) -> ~ ready c m -> ed_predict Rops c m obs = Ok obs.
Proof.
  intros L Rd. unfold ed_predict.
  assert (E : exists s, mask_index (ed_idx Rops c) (low_entropy Rops (ed_threshold Rops c) m) = Ok s).
  { destruct L as [L|L]; unfold low_entropy; [rewrite L; eexists; reflexivity|]. eexists. apply mask_index_ok. rewrite map_length. exact L. }
  destruct E as [s ->]. cbn [bind]. destruct (_ || _)%bool eqn:E; [apply ready_spec in E; contradiction|reflexivity].
Qed.
Lemma log_ratio_lt p : (0 <= p <= 1)%R -> (p < 1 / 2 -> 0 < log_ratio p)%R /\ (1 / 2 < p -> log_ratio p < 0)%R /\ (p = 1 / 2 -> log_ratio p = 0)%R.
Proof.
  intros H. unfold log_ratio. set (e := (/ 4503599627370496)%R). assert (He : (0 < e)%R) by (apply Rinv_0_lt_compat; lra).
  assert (P : (0 < / (p + e))%R) by (apply Rinv_0_lt_compat; lra). repeat split; intro Hp.
  - rewrite <- ln_1. apply ln_increasing; [lra|]. apply (Rmult_lt_reg_r (p + e)); [lra|]. unfold Rdiv. rewrite Rmult_assoc, Rinv_l by lra. lra.
  - rewrite <- ln_1. apply ln_increasing; [apply Rmult_lt_0_compat; lra|]. apply (Rmult_lt_reg_r (p + e)); [lra|]. unfold Rdiv. rewrite Rmult_assoc, Rinv_l by lra. lra.
  - subst. replace ((1 - 1 / 2 + e) / (1 / 2 + e))%R with 1%R by (field; lra). apply ln_1.
Qed.
Lemma limited_bound c x : (0 <= c)%R -> (- c <= limited c x <= c)%R.
Proof. intro H. unfold limited. unfold Rmin, Rmax. destruct (Rle_dec (- c) x); destruct (Rle_dec c _); lra. Qed.
Lemma limited_negative c x : (c < 0)%R -> limited c x = c.
Proof. intro H. unfold limited, Rmin, Rmax. destruct (Rle_dec (- c) x); destruct (Rle_dec c _); lra. Qed.
Lemma limited_sign c x : (0 < c)%R -> (0 < x -> 0 < limited c x)%R /\ (x < 0 -> limited c x < 0)%R /\ (x = 0 -> limited c x = 0)%R.
Proof. intro H. unfold limited, Rmin, Rmax. repeat split; intro; destruct (Rle_dec (- c) x); destruct (Rle_dec c _); lra. Qed.

(** ** Constant data *)
Lemma predict_constant c m obs n : em_cols m = 1 -> length (em_entropy m) = n -> length (ed_idx Rops c) = n -> ready c m -> obs <> [] -> ed_predict Rops c m obs = Err IndexError.
Proof.
  intros C L Li Rd Ne. unfold ed_predict. rewrite mask_index_ok by (unfold low_entropy; rewrite map_length; congruence). cbn [bind]. rewrite (proj1 (ready_spec c m) Rd).
  destruct (pymax_R obs Ne) as (mx & E & _). change (F Rops) with R in *. rewrite E. cbn [bind]. unfold log_ratios, column. rewrite C. reflexivity.
Qed.
Lemma unflipped_unit f x : (0 <= unflipped f x <= 1)%R.
Proof. unfold unflipped, Rmin, Rmax. set (y := ((x - f) / (1 - 2 * f))%R). destruct (Rle_dec 0 y); destruct (Rle_dec 1 _); lra. Qed.
Lemma corrected_R f x : corrected Rops f x = unflipped f x.
Proof. unfold corrected, unflipped. rewrite fclip_R. cbn [fsub fdiv fmul fz Rops]. rewrite Rmin_comm, Rmax_comm. reflexivity. Qed.
Lemma pymin_fold l : forall x, let m := fold_left (fun m y => if Rltb y m then y else m) l x in (m = x \/ In m l).
Proof.
  induction l as [|y t IH]; intro x; cbn [fold_left]; [auto|]. specialize (IH (if Rltb y x then y else x)). cbn zeta in IH. destruct IH as [->|I]; [|right; right; exact I].
  destruct (Rltb y x); cbn; auto.
Qed.
Lemma check_unit l : l <> [] -> Forall (fun x => (0 <= x <= 1)%R) l -> check_probability Rops l = Ok tt.
Proof.
  intros N H. unfold check_probability. destruct (pymax_R l N) as (mx & E & (Im & _)). change (F Rops) with R in *. rewrite E. cbn [bind].
  rewrite Forall_forall in H. assert (E1 : flt Rops (fz Rops 1) mx = false). { apply Rltb_false. specialize (H mx Im). cbn [fz Rops]. lra. } rewrite E1.
  destruct l as [|x t]; [contradiction|]. cbn [pymin bind].
  match goal with |- (if flt Rops ?a _ then _ else _) = _ => assert (E2 : (0 <= a)%R) end.
  { destruct (pymin_fold t x) as [I|I].
    - change (fold_left (fun m y : R => if Rltb y m then y else m) t x) with (fold_left (fun m y : F Rops => if flt Rops y m then y else m) t x) in I. rewrite I. apply H. left. reflexivity.
    - apply H. right. exact I. }
  match goal with |- (if ?b then _ else _) = _ => replace b with false by (symmetry; apply Rltb_false; cbn [fz Rops]; lra) end. reflexivity.
Qed.
(** What the learners that correct for the channel know. *)
Definition describes_corrected (n : nat) (f : R) (m : entropy_model Rops) (data : list (list Z)) : Prop :=
  em_data m = data /\ (data <> [] -> mixed data -> knows m (map (fun i => unflipped f (share data 1 i)) (seq 0 n))).
Lemma learn_corrected_spec w n f m h bits : 1 <= n -> Forall (bits_of_length n) (h ++ [bits]) -> em_data m = kept w h ->
  let data := kept w (h ++ [bits]) in
  (mixed data -> exists m', learn_corrected Rops w n f m bits = (m', Ok tt) /\ em_data m' = data /\ knows m' (map (fun i => unflipped f (share data 1 i)) (seq 0 n))) /\
  (~ mixed data -> learn_corrected Rops w n f m bits = (EM data (em_rows m) (em_cols m) (em_entropy m), Err IndexError)).
Proof.
  intros Hn H E. cbn zeta. unfold learn_corrected. assert (Hb : bits_of_length n bits) by (rewrite Forall_forall in H; apply H, in_or_app; right; left; reflexivity).
  rewrite (proj1 Hb), Nat.eqb_refl. cbn [negb]. rewrite E.
  assert (Hl : Forall (fun b : list Z => length b = n) h). { apply Forall_app in H. apply bits_lengths, H. }
  rewrite (append_buffer_kept w h bits n) by auto. set (data := kept w (h ++ [bits])).
  assert (Hd : Forall (bits_of_length n) data). { apply Forall_forall. intros b Hi. rewrite Forall_forall in H. apply H, (kept_incl w), Hi. }
  pose proof (data_prob_R n data (bits_lengths _ _ Hd)) as P. change (F Rops) with R in *. rewrite P. cbn [bind fst snd]. split.
  - intro M. rewrite (unique_mixed n) by auto. cbn [length]. unfold column. cbn [Nat.ltb Nat.leb]. rewrite !map_map. cbn [map nth].
    assert (Ec : map (fun i => corrected Rops f (share data 1 i)) (seq 0 n) = map (fun i => unflipped f (share data 1 i)) (seq 0 n)) by (apply map_ext; intro; apply corrected_R).
    change (F Rops) with R in *. rewrite Ec. set (ps := map (fun i => unflipped f (share data 1 i)) (seq 0 n)).
    assert (Hp : Forall (fun x => (0 <= x <= 1)%R) ps). { apply Forall_forall. intros x Hx. apply in_map_iff in Hx. destruct Hx as (i & <- & _). apply unflipped_unit. }
    pose proof (check_unit ps) as Ck. change (F Rops) with R in *. rewrite Ck; [|unfold ps; destruct n; [lia|discriminate]|exact Hp]. cbn [bind entropy].
    eexists. split; [reflexivity|]. split; [reflexivity|]. unfold knows. cbn [em_cols em_rows em_entropy]. split; [reflexivity|].
    assert (Er : map (fun i => [(1 - corrected Rops f (share data 1 i))%R; corrected Rops f (share data 1 i)]) (seq 0 n) = map (fun p => [(1 - p)%R; p]) ps).
    { unfold ps. rewrite map_map. apply map_ext. intro i. rewrite corrected_R. reflexivity. }
    split; [exact Er|]. etransitivity; [apply (f_equal (map (row_entropy Rops 2)) Er)|]. rewrite map_map. apply map_ext_in. intros p Hi. apply shannon_bit. rewrite Forall_forall in Hp. exact (Hp p Hi).
  - intro M. destruct data as [|b t] eqn:Ed.
    + assert (E0 : data_rows n [] = repeat [] n). { unfold data_rows. cbn [map]. rewrite map_const_R, seq_length. reflexivity. }
      rewrite E0. assert (E1 : concat (repeat (@nil Z) n) = []) by (clear; induction n; [reflexivity|cbn; auto]). rewrite E1. reflexivity.
    + destruct (unique_constant n (b :: t) Hd ltac:(discriminate) Hn M) as (v & _ & _ & ->). reflexivity.
Qed.

(** ** The flipping decoder *)
Lemma put_selected {A} (obs r : list A) idx mask d : NoDup idx -> Forall (fun i => i < length obs) idx -> length mask = length idx -> length r = length idx ->
  exists out, put obs (sel idx mask) (sel r mask) = Ok out /\ length out = length obs /\
    (forall j, j < length idx -> nth j mask false = true -> nth (nth j idx 0) out d = nth j r d) /\
    (forall j, j < length idx -> nth j mask false = false -> nth (nth j idx 0) out d = nth (nth j idx 0) obs d) /\
    (forall p, ~ In p idx -> nth p out d = nth p obs d).
Proof.
  intros N R Lm Lr. set (s := sel idx mask). assert (Hs : forall i, In i s -> In i idx).
  { intros i Hi. apply (sel_in idx mask i 0 Lm) in Hi. destruct Hi as (j & Hj & _ & <-). apply nth_In. exact Hj. }
  assert (Rs : Forall (fun i => i < length obs) s). { apply Forall_forall. intros i Hi. rewrite Forall_forall in R. auto. }
  assert (Lv : length s = length (sel r mask)) by (apply sel_length; lia).
  rewrite put_ok by auto. eexists. split; [reflexivity|].
  assert (Ns : NoDup (map fst (combine s (sel r mask)))) by (rewrite map_fst_combine by exact Lv; apply sel_nodup, N).
  split; [apply fold_set_length|]. split; [|split].
  - intros j Hj Hm. apply fold_set_in; [exact Ns| |rewrite Forall_forall in R; apply R, nth_In, Hj].
    unfold s. rewrite sel_combine by lia. apply (sel_in (combine idx r) mask _ (0, d)). { rewrite combine_length. lia. }
    exists j. rewrite combine_length. split; [lia|]. split; [exact Hm|]. apply combine_nth. lia.
  - intros j Hj Hm. apply fold_set_out. rewrite map_fst_combine by exact Lv. intro Hi. apply (sel_in idx mask _ 0 Lm) in Hi.
    destruct Hi as (k & Hk & Mk & E). apply (proj1 (NoDup_nth idx 0) N) in E; auto. subst. congruence.
  - intros p Hp. apply fold_set_out. rewrite map_fst_combine by exact Lv. intro Hi. apply Hp, Hs, Hi.
Qed.
Lemma flip_knows c m ps obs : knows m ps -> length ps = length (ed_idx Rops c) -> NoDup (ed_idx Rops c) -> Forall (fun i => i < length obs) (ed_idx Rops c) -> ready c m ->
  let low j := (bit_entropy (nth j ps 0) < ed_threshold Rops c)%R in
  let idx := ed_idx Rops c in
  ((forall j, j < length idx -> low j -> nth j idx 0 < length ps) -> exists out, ed_flip Rops c m obs = Ok out /\ length out = length obs /\
    (forall j, j < length idx -> low j -> nth (nth j idx 0) out 0%Z = rounded (nth (nth j idx 0) ps 0%R)) /\
    (forall j, j < length idx -> ~ low j -> nth (nth j idx 0) out 0%Z = nth (nth j idx 0) obs 0%Z) /\
    (forall p, ~ In p idx -> nth p out 0%Z = nth p obs 0%Z)) /\
  ((exists j, j < length idx /\ low j /\ length ps <= nth j idx 0) -> ed_flip Rops c m obs = Err IndexError).
Proof.
  intros K L N Rg Rd. cbn zeta. unfold ed_flip.
  assert (Er : (negb (ed_given Rops c) && (em_empty (em_data m) || (Z.of_nat (length (em_data m)) <? ed_min Rops c)%Z))%bool = false).
  { destruct Rd as [G|[G1 G2]]; [rewrite G; reflexivity|]. rewrite G1. cbn [orb]. replace (_ <? _)%Z with false by (symmetry; apply Z.ltb_ge; lia). apply andb_false_r. }
  rewrite Er. rewrite (low_entropy_R m ps _ K). rewrite mask_index_ok by (rewrite map_length; exact L). cbn [bind].
  destruct K as (Cc & Rw & _). unfold column. rewrite Cc, Rw. cbn [Nat.ltb Nat.leb bind]. rewrite !map_map. cbn [nth].
  set (mask := map (fun p => Rltb (bit_entropy p) (ed_threshold Rops c)) ps).
  assert (Ev : map (fun p : R => if flt Rops (fdiv Rops (fz Rops 1) (fz Rops 2)) p then 1%Z else 0%Z) ps = map rounded ps).
  { apply map_ext. intro p. unfold rounded. cbn [flt fdiv fz Rops]. unfold Rltb. destruct (Rlt_dec (1 / 2) p); reflexivity. }
  change (F Rops) with R in *. rewrite Ev.
  assert (Mj : forall j, j < length (ed_idx Rops c) -> nth j mask false = Rltb (bit_entropy (nth j ps 0%R)) (ed_threshold Rops c)).
  { intros j Hj. unfold mask. rewrite <- L in Hj. rewrite (nth_indep _ false (Rltb (bit_entropy 0%R) (ed_threshold Rops c))) by (rewrite map_length; exact Hj). apply (map_nth (fun p => Rltb (bit_entropy p) (ed_threshold Rops c))). }
  assert (Lm : length mask = length (ed_idx Rops c)) by (unfold mask; rewrite map_length; exact L).
  split.
  - intro Hin.
    rewrite (take_ok _ _ (rounded 0%R)).
    2: { apply Forall_forall. intros i Hi. rewrite map_length. apply (sel_in _ mask i 0 Lm) in Hi. destruct Hi as (j & Hj & M & <-). apply Hin; auto. rewrite Mj in M by auto. apply Rltb_spec in M. exact M. }
    cbn [bind]. rewrite <- sel_map.
    destruct (put_selected obs (map (fun i => nth i (map rounded ps) (rounded 0%R)) (ed_idx Rops c)) (ed_idx Rops c) mask 0%Z N Rg Lm) as (out & E & Lo & H1 & H2 & H3). { rewrite map_length. reflexivity. }
    exists out. split; [exact E|]. split; [exact Lo|]. split; [|split; [|exact H3]].
    + intros j Hj On. rewrite H1; [|exact Hj|rewrite Mj by exact Hj; apply Rltb_spec; exact On].
      rewrite (nth_indep _ 0%Z (nth 0 (map rounded ps) (rounded 0%R))) by (rewrite map_length; exact Hj).
      rewrite (map_nth (fun i => nth i (map rounded ps) (rounded 0%R)) (ed_idx Rops c) 0 j). apply map_nth.
    + intros j Hj On. apply H2; [exact Hj|]. rewrite Mj by exact Hj. apply Rltb_false. lra.
  - intros (j & Hj & On & Big). rewrite take_bad; [reflexivity|]. apply Exists_exists. exists (nth j (ed_idx Rops c) 0). split.
    + apply (sel_in _ mask _ 0 Lm). exists j. split; [exact Hj|]. split; [|reflexivity]. rewrite Mj by exact Hj. apply Rltb_spec. exact On.
    + rewrite map_length. exact Big.
Qed.
Lemma flip_waits c m obs : ~ ready c m -> ed_flip Rops c m obs = Ok obs.
Proof.
  intro Rd. unfold ed_flip. destruct (_ && _)%bool eqn:E; [reflexivity|]. exfalso. apply Rd. apply andb_false_iff in E. destruct E as [E|E].
  - left. apply negb_false_iff in E. exact E.
  - right. apply orb_false_iff in E. destruct E as [E1 E2]. apply Z.ltb_ge in E2. auto.
Qed.

(** ** Recovered buffers hold both bit values *)
Lemma bits_value_8 l : length l = 8 -> (bits_value l < 256)%N.
Proof. intro H. destruct (list8 l H) as (a & b & c & d & e & f & g & h & ->). destruct a, b, c, d, e, f, g, h; vm_compute; reflexivity. Qed.
Lemma packbits_bytes : forall f l, is_bytes (packbits f l).
Proof.
  induction f as [|f IH]; intro l; [constructor|]. destruct l as [|x t]; [constructor|]. cbn [packbits]. constructor; [|apply IH]. apply bits_value_8.
  rewrite map_length, firstn_length, app_length, repeat_length. cbn [length]. lia.
Qed.
Lemma flat_map_byte_bits l : length (flat_map byte_bits l) = 8 * length l.
Proof. induction l as [|x t IH]; [reflexivity|]. cbn [flat_map]. rewrite app_length, IH. unfold byte_bits. rewrite map_length. cbn [length]. lia. Qed.
Lemma pack_length l : exists pad, pad < 8 /\ 8 * length (pack l) = length l + pad.
Proof. destruct (pack_bits l) as (pad & Hp & E). exists pad. split; [exact Hp|]. apply (f_equal (@length bool)) in E. rewrite flat_map_byte_bits, app_length, map_length, repeat_length in E. exact E. Qed.
Lemma recognised_iff {D} (parser : bytes -> res D) bits : recognised parser bits = true <->
  exists parts v s, segment_buffer parser (pack bits) = Ok (parts, v, s) /\ forall j, j < length (pack bits) -> covered (pack bits) s j.
Proof.
  unfold recognised. assert (B : is_bytes (pack bits)) by apply packbits_bytes. destruct (segment_buffer parser (pack bits)) as [[[parts v] s]|x] eqn:E.
  2: { split; [discriminate|]. intros (p & v & s & Q & _). discriminate. }
  destruct (segment_parts parser (pack bits) parts v s B E) as [[Lp Cl] _]. rewrite forallb_forall. split.
  - intro H. exists parts, v, s. split; [reflexivity|]. intros j Hj. destruct (Cl j Hj) as (_ & _ & _ & U). destruct (covered_dec (pack bits) s j) as [C|C]; [exact C|].
    apply U in C. assert (Hn : In (nth j parts UNKNOWN) parts) by (apply nth_In; lia). specialize (H _ Hn). rewrite C in H. discriminate.
  - intros (p & v' & s' & Q & Co). inversion Q; subst. intros x Hx. apply (In_nth _ _ UNKNOWN) in Hx. destruct Hx as (j & Hj & <-). rewrite Lp in Hj.
    destruct (Cl j Hj) as (_ & _ & _ & U). destruct (nth j p UNKNOWN) eqn:Ej; try reflexivity. exfalso. apply (proj1 U eq_refl). apply Co. exact Hj.
Qed.
Lemma recognised_both {D} (parser : bytes -> res D) n bits : 1 <= n -> bits_of_length n bits -> recognised parser bits = true -> In 0%Z bits /\ In 1%Z bits.
Proof.
  intros Hn [L Fb] H. apply recognised_iff in H. destruct H as (parts & v & s & E & Co). assert (B : is_bytes (pack bits)) by apply packbits_bytes.
  destruct (pack_length bits) as (pad & Hp & Pl). destruct (Co 0) as (k & i & Hk & Hr); [lia|]. assert (k = 0) by lia. subst k.
  apply (segment_ok_iff parser (pack bits) B parts v s) in E. destruct E as ((Fr & _) & _). destruct (Fr 0 i Hk) as (_ & (H8 & V) & _).
  change (skipn 0 (pack bits)) with (pack bits) in V. destruct (pack bits) as [|b0 t] eqn:Eb; [cbn in H8; lia|]. inversion V as [ln q sy co id Pn Ev].
  destruct (pack_bits bits) as (pad' & _ & Ep). rewrite Eb in Ep. cbn [flat_map] in Ep.
  assert (b0 = 254%N) by (cbn [firstn] in Ev; congruence). subst b0.
  assert (L8 : 8 <= length bits) by (cbn [length] in *; lia).
  assert (On : forall j, j < 8 -> on (nth j bits 0%Z) = nth j (byte_bits 254) false).
  { intros j Hj. rewrite <- (app_nth1 (byte_bits 254) (flat_map byte_bits t)) by (cbn; lia). rewrite Ep. rewrite app_nth1 by (rewrite map_length; lia).
    change false with (on 0%Z). symmetry. apply map_nth. }
  rewrite Forall_forall in Fb. split.
  - specialize (On 7 ltac:(lia)). replace 0%Z with (nth 7 bits 0%Z); [apply nth_In; lia|]. vm_compute (nth 7 _ false) in On. unfold on in On. apply negb_false_iff, Z.eqb_eq in On. exact On.
  - specialize (On 0 ltac:(lia)). replace 1%Z with (nth 0 bits 0%Z); [apply nth_In; lia|]. vm_compute (nth 0 (byte_bits _) false) in On. unfold on in On. apply negb_true_iff, Z.eqb_neq in On.
    destruct (Fb (nth 0 bits 0%Z)); [apply nth_In; lia|contradiction|auto].
Qed.
Lemma recognised_mixed {D} (parser : bytes -> res D) n w h : 1 <= n -> Forall (bits_of_length n) h -> Forall (fun b => recognised parser b = true) h ->
  kept w h <> [] -> mixed (kept w h).
Proof.
  intros Hn Fb Fr N. destruct (kept w h) as [|b t] eqn:K; [contradiction|]. assert (Hb : In b h) by (apply (kept_incl w); rewrite K; left; reflexivity).
  rewrite Forall_forall in Fb, Fr. destruct (recognised_both parser n b Hn (Fb b Hb) (Fr b Hb)). split; cbn [concat]; apply in_or_app; left; assumption.
Qed.

(** ** Learned models *)
Lemma full_info info ml : (forall i, i < ml -> nth i info false = true) -> model_index info ml = seq 0 ml.
Proof.
  intro H. destruct (model_index_positions info ml) as [Sr In']. apply sorted_lt_ext; [exact Sr|apply seq_sorted|]. intro v. rewrite In', in_seq. split; [intros []; lia|].
  intros [_ Hv]. split; [exact Hv|auto].
Qed.
Lemma learned {D W X} (parser : bytes -> res D) info ml thr clip min w (predict : ed_conf Rops -> entropy_model Rops -> list W -> res (list W))
  (calls : list ((list W -> res (list Z * X * bool * Z)) * list W)) c m0 m outs :
  (forall i, i < ml -> nth i info false = true) -> 1 <= ml -> ed_init Rops info ml thr clip min w None = (c, m0) ->
  in_turn (fun m call => ed_decode Rops parser c (predict c) (fst call) m (snd call)) m0 calls = (m, outs) -> Forall (Forall is_bit) (estimates outs) ->
  let data := kept w (filter (recognised parser) (map (fun e => picked e (seq 0 ml)) (estimates outs))) in
  c = EdConf Rops (seq 0 ml) ml thr clip min w false /\ em_data m = data /\ (em_entropy m = [] \/ length (em_entropy m) = ml) /\
  (data <> [] -> knows m (map (share data 1) (seq 0 ml)) /\ em_empty data = false).
Proof.
  intros Hi Hn E T B. cbn zeta. unfold ed_init in E. rewrite (full_info info ml Hi) in E. inversion E; subst c m0. clear E. split; [reflexivity|].
  pose proof (history_describes parser (EdConf Rops (seq 0 ml) ml thr clip min w false) (predict (EdConf Rops (seq 0 ml) ml thr clip min w false)) eq_refl (seq_length ml 0) Hn calls em_new [] m outs (Forall_nil _)) as H.
  cbn [ed_idx ed_window ed_length app] in H. assert (K0 : kept w (@nil (list Z)) = []) by (destruct w; reflexivity). rewrite K0 in H.
  assert (D0 : describes ml em_new []) by (split; [reflexivity|split; [left; reflexivity|intro N; contradiction]]). specialize (H D0 T B).
  destruct H as (E1 & E2 & E3). split; [exact E1|]. split; [exact E2|]. intro N. set (h := filter (recognised parser) (map (fun e => picked e (seq 0 ml)) (estimates outs))) in *.
  assert (Fb : Forall (fun b => length b = ml) h).
  { apply Forall_forall. intros b Hb. apply filter_In in Hb. destruct Hb as [Hb _]. apply in_map_iff in Hb. destruct Hb as (e & <- & _). unfold picked. rewrite map_length, seq_length. reflexivity. }
  assert (Be : Forall (bits_of_length ml) h).
  { apply Forall_forall. intros b Hb. split; [rewrite Forall_forall in Fb; auto|]. apply filter_In in Hb. destruct Hb as [Hb _]. apply in_map_iff in Hb. destruct Hb as (e & <- & He).
    rewrite Forall_forall in B. specialize (B e He). apply Forall_forall. intros z Hz. apply in_map_iff in Hz. destruct Hz as (i & <- & _).
    destruct (Nat.lt_ge_cases i (length e)); [rewrite Forall_forall in B; apply B, nth_In; auto|rewrite nth_overflow by auto; left; reflexivity]. }
  assert (Fr : Forall (fun b => recognised parser b = true) h) by (apply Forall_forall; intros b Hb; apply filter_In in Hb; tauto).
  destruct (E3 N) as [Km _]. split; [apply Km, (recognised_mixed parser ml); auto|].
  destruct (kept w h) as [|b t] eqn:K; [contradiction|]. cbn [em_empty]. rewrite Forall_forall in Fb. rewrite (Fb b) by (apply (kept_incl w); rewrite K; left; reflexivity).
  apply Nat.eqb_neq. lia.
Qed.
