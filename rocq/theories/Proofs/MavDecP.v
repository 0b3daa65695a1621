(** Proofs about the MAVLink decoder. *)
From Coq Require Import String List ZArith NArith Arith Bool Lia Sorting.Sorted.
From Verif.Model Require Import Py Float Dialect Struct Mavlink Segmentation StatModels Clustering DecoderBase Rectify MavlinkDecoder.
From Verif.Spec Require Import Bytes Bits Header Frame Segment Stats DecoderSpec MavDecSpec.
From Verif.Proofs Require Import Base SegmentP SegMore SegStream StatP LayoutP ValuesP BufModelP StatTop.
Import ListNotations.

Section P.
Variable FO : fops.
Variables (f32_pack : F FO -> res N) (erf : F FO -> F FO) (kl : list (F FO) -> list (F FO) -> F FO) (text : bytes -> bytes) (info : list Z -> res bytes) (c : md_conf FO).
Context {X : Type}.
Notation answer := (list Z * list (F FO) * bool * Z * X)%type.
Variable ldpc : list (F FO) -> res answer.
Hypothesis info_total : forall l, exists b, info l = Ok b /\ is_bytes b.

Notation learned := (learned FO text info c).
Notation taught := (taught FO text info c ldpc).
Notation works := (works FO f32_pack erf text info c ldpc).
Notation grown := (grown f32_pack erf).
Notation label_ := (md_label FO kl c).
Notation update_ := (md_update FO (decode text) info c ldpc).
Notation predict_ := (md_predict FO f32_pack erf (decode text) info c).
Notation loop_ := (md_loop FO f32_pack erf kl (decode text) info c ldpc).

Lemma index_addressed {A} (l : list A) i x : index_z l i = Ok x <-> (- Z.of_nat (length l) <= i)%Z /\ nth_error l (addressed (length l) i) = Some x.
Proof.
  unfold index_z, addressed. set (j := if (i <? 0)%Z then (i + Z.of_nat (length l))%Z else i).
  destruct (Z.ltb_spec j 0%Z) as [H|H]; cbn [orb].
  - split; [discriminate|]. intros [H1 H2]. exfalso. unfold j in H. destruct (Z.ltb_spec i 0%Z); lia.
  - destruct (Z.leb_spec (Z.of_nat (length l)) j) as [H1|H1]; cbn [orb].
    + split; [discriminate|]. intros [_ H2]. assert (Z.to_nat j < length l) by (apply nth_error_Some; rewrite H2; discriminate). lia.
    + destruct (nth_error l (Z.to_nat j)) eqn:E.
      * split; [intro Q; inversion Q; subst; split; [unfold j in *; destruct (Z.ltb_spec i 0%Z); lia|reflexivity]|]. intros [_ Q]. inversion Q. reflexivity.
      * split; [discriminate|intros [_ Q]; discriminate].
Qed.
Lemma set_z_addressed {A} (l : list A) i v : set_z l i v = set_nth l (addressed (length l) i) v.
Proof. reflexivity. Qed.

Lemma grown_refl m : grown m [] m.
Proof. exists []. split; reflexivity. Qed.
Lemma grown_trans m a m' a' m'' : grown m a m' -> grown m' a' m'' -> grown m (a ++ a') m''.
Proof. intros (h & -> & <-) (h' & -> & <-). exists (h ++ h'). unfold bm_run. rewrite fold_left_app, filter_app. split; reflexivity. Qed.
Lemma grown_adds m adds : Forall (fun e => is_read e = false) adds -> grown m adds (bm_run FO f32_pack erf m adds).
Proof.
  intro H. exists adds. split; [reflexivity|]. induction H as [|e t A B IH]; [reflexivity|]. cbn [filter]. rewrite A. cbn [negb]. f_equal. exact IH.
Qed.
Lemma grown_reads m h : Forall (fun e => is_read e = true) h -> grown m [] (bm_run FO f32_pack erf m h).
Proof.
  intro H. exists h. split; [reflexivity|]. induction H as [|e t A B IH]; [reflexivity|]. cbn [filter]. rewrite A. exact IH.
Qed.

(** A rectification only reads the model. *)
Lemma rectify_grown D (parser : bytes -> res D) scale choose m st obs m' p : rectify FO f32_pack erf parser info (md_rect c) scale choose m st obs = Ok (m', p) -> grown m [] m'.
Proof.
  intro E. unfold rectify in E. destruct st as [s|]; [|inversion E; subst; apply grown_refl].
  destruct (predict FO erf m (BBits (map (Z.eqb 1) (hard FO obs))) s) as [[[[m1 vf] vb] sd]|] eqn:Ep; cbn [bind] in E; [|discriminate].
  match type of E with (do! _ <- ?t in _) = _ => destruct t as [gf|] end; cbn [bind] in E; [|discriminate].
  match type of E with (do! _ <- ?t in _) = _ => destruct t as [bf|] end; cbn [bind] in E; [|discriminate].
  match type of E with (do! _ <- ?t in _) = _ => destruct t as [[[good bad] l]|] eqn:Es end; cbn [bind] in E; [|discriminate].
  match type of E with (do! _ <- ?t in _) = _ => destruct t as [[m2 l2]|] eqn:Ef end; cbn [bind] in E; [|discriminate].
  match type of E with (do! _ <- ?t in _) = _ => destruct t as [[l3 va]|] eqn:Ec end; cbn [bind] in E; [|discriminate].
  match type of E with (do! _ <- ?t in _) = _ => destruct t as [sg|] end; cbn [bind] in E; [|discriminate]. inversion E; subst m' p.
  assert (G1 : grown m [] m1).
  { replace m1 with (bm_run FO f32_pack erf m [VPredict (BBits (map (Z.eqb 1) (hard FO obs))) s]); [apply grown_reads; repeat constructor|]. cbn [bm_run fold_left bm_event_step]. rewrite Ep. reflexivity. }
  assert (G2 : grown m1 [] m2).
  { unfold force in Ef. destruct (choose vb sd) as [|f ft]; [inversion Ef; subst; apply grown_refl|].
    match type of Ef with (do! _ <- bitwise_model_mean _ _ _ ?idx ?n _ in _) = _ => destruct (bitwise_model_mean FO f32_pack m1 idx n s) as [[m3 bits]|] eqn:Em;
      [replace m2 with (bm_run FO f32_pack erf m1 [VMean idx n s]); [apply grown_reads; repeat constructor|]|] end; cbn [bind] in Ef; [|discriminate].
    cbn [bm_run fold_left bm_event_step]. rewrite Em. destruct (pymax FO (map (fabs FO) obs)) as [mx|]; cbn [bind] in Ef; [|discriminate].
    match type of Ef with (do! _ <- ?t in _) = _ => destruct t as [l4|] end; cbn [bind] in Ef; [|discriminate]. inversion Ef; reflexivity. }
  exact (grown_trans _ _ _ _ _ G1 G2).
Qed.

(** Learning. *)
Lemma learn_spec m st ok estimate soft it x channel_bits : rc_learning (md_rect c) = true ->
  match learn_fields FO (decode text) info (md_rect c) m st ok estimate channel_bits with
  | (st', m', r) => exists adds, learned st (estimate, soft, ok, it, x : X) channel_bits st' adds /\ m' = bm_run FO f32_pack erf m adds /\ Forall (fun e => is_read e = false) adds
  end.
Proof.
  intro Hl. unfold learn_fields. rewrite Hl. destruct ok.
  - destruct st as [s|].
    + destruct (add_buffer FO m (BBits (map (Z.eqb 1) estimate)) s) as [m' r] eqn:E. eexists. split; [apply L_again with (s := s); auto|]. split; [|repeat constructor].
      cbn [bm_run fold_left bm_event_step an_estimate fst as_bits]. unfold as_bits. rewrite E. reflexivity.
    + destruct (info_total estimate) as (b & Eb & Bb). rewrite Eb. cbn [bind]. destruct (segment_decode_total text b Bb) as (p & v & s & Es). rewrite Es. cbn [bind].
      destruct (add_buffer FO m (BBits (map (Z.eqb 1) estimate)) s) as [m' r] eqn:E. eexists. split; [eapply L_first; eauto|]. split; [|repeat constructor].
      cbn [bm_run fold_left bm_event_step an_estimate fst]. unfold as_bits. rewrite E. reflexivity.
  - destruct st as [s|].
    + destruct (add_buffer FO m (BBits (map (Z.eqb 1) channel_bits)) s) as [m' r] eqn:E. eexists. split; [apply L_channel with (s := s); auto|]. split; [|repeat constructor].
      cbn [bm_run fold_left bm_event_step]. unfold as_bits. rewrite E. reflexivity.
    + eexists. split; [apply L_nothing; auto|]. split; [reflexivity|constructor].
Qed.

(** The runs of decode_and_update_model. *)
Lemma update_spec s llr label channel_bits s' r : (- Z.of_nat (length (md_structs s)) <= label < Z.of_nat (length (md_structs s)))%Z -> update_ s llr label channel_bits = (s', r) ->
  md_running s' = md_running s /\ md_classifier s' = md_classifier s /\
  (s' = s /\ (exists e, r = Err e /\ ldpc llr = Err e) \/
   exists a st st' adds, ldpc llr = Ok a /\ nth_error (md_structs s) (addressed (length (md_structs s)) label) = Some st /\ learned st a channel_bits st' adds /\
     md_structs s' = set_nth (md_structs s) (addressed (length (md_structs s)) label) st' /\ md_model s' = bm_run FO f32_pack erf (md_model s) adds /\ Forall (fun e => is_read e = false) adds /\
     (r = Ok a \/ exists e, r = Err e)).
Proof.
  intros Hl E. unfold md_update in E. destruct (ldpc llr) as [[[[[est soft] ok] it] x]|e] eqn:El; [|inversion E; subst; split; [reflexivity|split; [reflexivity|left; eauto]]].
  assert (Hn : exists st, nth_error (md_structs s) (addressed (length (md_structs s)) label) = Some st).
  { destruct (nth_error (md_structs s) (addressed (length (md_structs s)) label)) eqn:En; [eauto|]. apply nth_error_None in En. unfold addressed in En. destruct (Z.ltb_spec label 0%Z); lia. }
  destruct Hn as (st & Hn). destruct (rc_learning (md_rect c)) eqn:Hlr.
  - assert (Hi : index_z (md_structs s) label = Ok st) by (apply index_addressed; split; [lia|exact Hn]). rewrite Hi in E.
    pose proof (learn_spec (md_model s) st ok est soft it x channel_bits Hlr) as G. destruct (learn_fields FO (decode text) info (md_rect c) (md_model s) st ok est channel_bits) as [[st' m'] r'].
    destruct G as (adds & G1 & G2 & G3). inversion E; subst s' r. cbn [md_running md_classifier md_structs md_model]. split; [reflexivity|]. split; [reflexivity|]. right. exists (est, soft, ok, it, x), st, st', adds.
    split; [reflexivity|]. split; [exact Hn|]. split; [exact G1|]. split; [reflexivity|]. split; [exact G2|]. split; [exact G3|]. destruct r' as [[]|e]; cbn [bind]; [left; reflexivity|right; eauto].
  - inversion E; subst s' r. split; [reflexivity|]. split; [reflexivity|]. right. exists (est, soft, ok, it, x), st, st, []. split; [reflexivity|]. split; [exact Hn|].
    split; [apply L_fixed; exact Hlr|]. split; [|split; [reflexivity|split; [constructor|left; reflexivity]]]. clear - Hn. revert Hn. generalize (addressed (length (md_structs s)) label). generalize (md_structs s).
    induction l as [|y l IH]; intros [|n] H; cbn in *; try discriminate; [inversion H; reflexivity|]. f_equal. auto.
Qed.

Lemma predict_inv s obs label s' r : predict_ s obs label = (s', r) ->
  md_running s' = md_running s /\ md_classifier s' = md_classifier s /\ md_structs s' = md_structs s /\ grown (md_model s) [] (md_model s') /\
  match r with
  | Ok p => exists st, (- Z.of_nat (length (md_structs s)) <= label)%Z /\ nth_error (md_structs s) (addressed (length (md_structs s)) label) = Some st /\
      rectify FO f32_pack erf (decode text) info (md_rect c) (scale_plain FO) (forced_wrong FO) (md_model s) st obs = Ok (md_model s', p)
  | Err _ => s' = s
  end.
Proof.
  intro E. unfold md_predict in E. destruct (index_z (md_structs s) label) as [st|] eqn:Ei; cbn [bind] in E; [|inversion E; subst; repeat (split; [reflexivity|]); split; [apply grown_refl|reflexivity]].
  destruct (rectify FO f32_pack erf (decode text) info (md_rect c) (scale_plain FO) (forced_wrong FO) (md_model s) st obs) as [[m p]|] eqn:Er;
    [|inversion E; subst; repeat (split; [reflexivity|]); split; [apply grown_refl|reflexivity]].
  inversion E; subst. cbn [md_running md_classifier md_structs md_model]. repeat (split; [reflexivity|]). split; [eapply rectify_grown; exact Er|]. apply index_addressed in Ei. destruct Ei. eauto.
Qed.

Lemma label_inv s channel_bits s' r : label_ s channel_bits = (s', r) -> md_structs s' = md_structs s /\ md_model s' = md_model s.
Proof.
  unfold md_label. destruct (Nat.ltb 1 (md_clusters c)); [|intro E; inversion E; auto]. destruct (md_cluster c); [|intro E; inversion E; auto].
  destruct (take channel_bits (md_idx c)) as [bits|]; [|intro E; inversion E; auto]. destruct (classify FO kl (md_classifier s) bits) as [k r']. intro E; inversion E; auto.
Qed.

Lemma forall_set_nth {A} (P : A -> Prop) l i x : Forall P l -> P x -> Forall P (set_nth l i x).
Proof using. clear. intros H Hx. revert i. induction H as [|y l A0 B IH]; intros [|i]; cbn; constructor; auto. Qed.
Lemma forall_skip {A} (P : A -> Prop) l j : Forall P l -> Forall P (firstn j l ++ skipn (S j) l).
Proof using. clear. intro H. rewrite Forall_forall in *. intros x Hx. apply H. apply in_app_iff in Hx. destruct Hx as [Hx|Hx]; [rewrite <- (firstn_skipn j l)|rewrite <- (firstn_skipn (S j) l)]; apply in_app_iff; auto. Qed.
Lemma merge_loop_uid kk md ws fuel : forall cs pair, Forall (fun x => (0 <= c_uid x)%Z) cs -> Forall (fun x => (0 <= c_uid x)%Z) (fst (merge_loop FO kl fuel kk md ws cs pair)).
Proof using.
  clear. induction fuel as [|f IH]; intros cs pair H; cbn [merge_loop]; [exact H|]. destruct (kk <? Z.of_nat (length cs))%Z; [|exact H].
  destruct (best_pair FO kl md ws cs (pairs (length cs)) None) as [b|]; [|exact H]. set (pr := match b with Some (_, p) => Some p | None => pair end). destruct pr as [[i j]|]; [|exact H].
  destruct (nth_error cs j) as [c'|] eqn:Ej; [|exact H]. cbv zeta. pose proof (forall_skip _ _ j H) as H2. destruct (nth_error (firstn j cs ++ skipn (S j) cs) i) as [x|] eqn:Ei; [|exact H2].
  destruct (merge_cluster x c') as [mm|] eqn:Em; [|exact H2]. apply IH. apply forall_set_nth; [exact H2|]. unfold merge_cluster in Em. destruct (_ && _)%bool in Em; [|discriminate].
  inversion Em; subst. cbn [c_uid]. rewrite Forall_forall in H2. apply H2. eapply nth_error_In. exact Ei.
Qed.
Lemma add_sample_uid x b x' r : Clustering.add_sample x b = (x', r) -> c_uid x' = c_uid x.
Proof using. clear. unfold Clustering.add_sample. repeat match goal with |- (match ?t with _ => _ end) = _ -> _ => destruct t end; intro E; inversion E; reflexivity. Qed.
Lemma classify_sane k b : sane k -> sane (fst (classify FO kl k b)) /\ forall l, snd (classify FO kl k b) = Ok l -> if (k_samples k + 1 <? k_min k)%Z then l = (-1)%Z else (0 <= l)%Z.
Proof using.
  clear. intros [U C]. unfold classify. cbn [k_samples k_min k_uid k_clusters k_init]. destruct (k_samples k + 1 <? k_min k)%Z eqn:Ht.
  - destruct (new_cluster b (k_uid k)) as [x|] eqn:En; [|split; [split; assumption|discriminate]]. cbn [fst snd]. split; [|intros l E; inversion E; reflexivity].
    split; cbn [k_uid k_clusters]; [lia|]. apply Forall_app. split; [exact C|]. constructor; [|constructor]. unfold new_cluster in En. destruct (map_res _ b) as [rows|]; cbn [bind] in En; [|discriminate]. inversion En. cbn. exact U.
  - assert (G : forall cs uid, Forall (fun x => (0 <= c_uid x)%Z) cs -> forall P : classifier * res Z,
      P = (let s := Classifier (k_min k) (k_k k) cs true uid (k_samples k + 1) (k_classify k) (k_merge k) (k_weight k) in
           match closest_index FO s b with
           | Err e => (s, Err e)
           | Ok i => match nth_error (k_clusters s) i with
                     | None => (s, Err IndexError)
                     | Some c0 => match Clustering.add_sample c0 b with
                              | (c1, r) => (Classifier (k_min k) (k_k k) (set_nth (k_clusters s) i c1) true (k_uid s) (k_samples k + 1) (k_classify k) (k_merge k) (k_weight k), do! _ <- r in Ok (c_uid c1))
                              end
                     end
           end) -> (0 <= uid)%Z -> sane (fst P) /\ forall l, snd P = Ok l -> (0 <= l)%Z).
    { intros cs uid H P -> Hu. cbv zeta. destruct (closest_index _ _ b) as [i|]; [|split; [split; assumption|discriminate]]. cbn [k_clusters].
      destruct (nth_error cs i) as [x|] eqn:Ei; [|split; [split; assumption|discriminate]]. destruct (Clustering.add_sample x b) as [x' r] eqn:Ea. pose proof (add_sample_uid _ _ _ _ Ea) as Ux.
      assert (Px : (0 <= c_uid x')%Z) by (rewrite Ux; rewrite Forall_forall in H; apply H; eapply nth_error_In; exact Ei). cbn [fst snd]. split; [split; cbn [k_uid k_clusters]; [exact Hu|apply forall_set_nth; assumption]|].
      intros l E. destruct r as [[]|]; cbn [bind] in E; [inversion E; lia|discriminate]. }
    destruct (k_init k).
    + eapply G; [|reflexivity|]; cbn; assumption.
    + unfold merge_clusters. cbn [k_clusters k_k k_merge k_weight k_min k_init k_uid k_samples k_classify]. pose proof (merge_loop_uid (k_k k) (k_merge k) (k_weight k) (S (length (k_clusters k))) (k_clusters k) None C) as M.
      destruct (merge_loop FO kl (S (length (k_clusters k))) (k_k k) (k_merge k) (k_weight k) (k_clusters k) None) as [cs [r|e]]; cbn [fst] in M; [|split; [split; [exact U|exact M]|discriminate]].
      eapply G; [|reflexivity|exact U]. cbn [k_clusters]. clear. apply Forall_forall. intros x Hx. apply (In_nth _ _ (Cluster [] 0 0%Z 0%Z)) in Hx. destruct Hx as (n & Hn & <-).
      assert (Gz : forall (a : list nat) (bb : list cluster) n, n < length (zip_with (fun i c => Cluster (c_rows c) (c_cols c) (Z.of_nat i) (c_n c)) a bb) -> (0 <= c_uid (nth n (zip_with (fun i c => Cluster (c_rows c) (c_cols c) (Z.of_nat i) (c_n c)) a bb) (Cluster [] 0 0 0)))%Z).
      { induction a as [|x a IH]; intros [|y bb] [|n']; cbn; intro; try lia. apply IH. apply Nat.succ_lt_mono. assumption. }
      apply Gz. exact Hn.
Qed.

Notation well := (well FO c).
Lemma label_range s channel_bits s' r : well s -> label_ s channel_bits = (s', r) -> well s' /\ forall l, r = Ok l -> (-1 <= l)%Z /\ (l < 0 -> 1 < Z.of_nat (md_clusters c))%Z.
Proof using.
  clear. intros [W K] E. unfold md_label in E. destruct (Nat.ltb_spec 1 (md_clusters c)) as [H|H]; [|inversion E; subst; split; [split; assumption|]; intros l Q; inversion Q; lia].
  destruct (md_cluster c).
  - destruct (take channel_bits (md_idx c)) as [bits|]; [|inversion E; subst; split; [split; assumption|discriminate]]. destruct (classify_sane (md_classifier s) bits K) as [S1 S2].
    destruct (classify FO kl (md_classifier s) bits) as [k r']. inversion E; subst. cbn [fst snd] in *. split; [split; assumption|]. intros l Q. split; [specialize (S2 l Q); destruct (_ <? _)%Z; lia|lia].
  - inversion E; subst. split; [split; assumption|]. intros l Q. inversion Q. pose proof (Z.mod_pos_bound (md_running s + 1) (Z.of_nat (md_clusters c))). lia.
Qed.

(** What a call teaches. *)
Lemma loop_taught channel channel_bits : forall rounds s input it last s' r, well s -> loop_ rounds channel channel_bits s input it last = (s', r) ->
  exists runs adds, taught channel_bits (md_structs s) runs (md_structs s') adds /\ grown (md_model s) adds (md_model s') /\ length runs <= rounds /\ well s'.
Proof.
  induction rounds as [|n IH]; intros s input it last s' r W E; cbn [md_loop] in E.
  - inversion E; subst. exists [], []. split; [constructor|]. split; [apply grown_refl|]. auto.
  - destruct (label_ s channel_bits) as [s1 lab] eqn:El. destruct (label_inv s channel_bits s1 lab El) as [S1 M1]. destruct (label_range s channel_bits s1 lab W El) as [W1 Rg].
    assert (Done : s' = s1 -> exists runs adds, taught channel_bits (md_structs s) runs (md_structs s') adds /\ grown (md_model s) adds (md_model s') /\ length runs <= S n /\ well s').
    { intros ->. exists [], []. rewrite S1, M1. split; [constructor|]. split; [apply grown_refl|]. split; [cbn; lia|exact W1]. }
    destruct lab as [label|e]; [|inversion E; subst; apply Done; reflexivity]. destruct (Rg label eq_refl) as [Hge Hneg].
    destruct (Z.ltb_spec label 0%Z) as [Hl|Hl].
    + destruct (update_ s1 channel label channel_bits) as [s2 r2] eqn:Eu. inversion E; subst s' r. destruct W1 as [W1a W1b].
      destruct (update_spec s1 channel label channel_bits s2 r2) as (U1 & U2 & U3); [lia|exact Eu|]. destruct U3 as [[-> _]|(a & st & st' & adds & A1 & A2 & A3 & A4 & A5 & A6 & _)]; [apply Done; reflexivity|].
      exists [Run label channel channel a], (adds ++ []). split; [|split; [|split; [cbn; lia|]]].
      * rewrite <- S1. eapply T_run with (st := st) (st' := st'); cbn [r_label r_sent r_answer]; [exact A2|exact A1|exact A3|]. rewrite A4. constructor.
      * rewrite A5, app_nil_r, M1. apply grown_adds. exact A6.
      * split; [rewrite A4, length_set_nth; exact W1a|rewrite U2; exact W1b].
    + destruct (predict_ s1 input label) as [s2 p] eqn:Ep. destruct (predict_inv s1 input label s2 p Ep) as (P1 & P2 & P3 & P4 & P5). destruct p as [p|e]; [|inversion E; subst s' r; apply Done; exact P5].
      destruct P5 as (st0 & P6 & P7 & P8). destruct (update_ s2 (pr_llr p) label channel_bits) as [s3 r3] eqn:Eu. destruct W1 as [W1a W1b].
      assert (Hin : (label < Z.of_nat (length (md_structs s2)))%Z).
      { rewrite P3. assert (Q : addressed (length (md_structs s1)) label < length (md_structs s1)) by (apply nth_error_Some; rewrite P7; discriminate). unfold addressed in Q. destruct (Z.ltb_spec label 0%Z); lia. }
      destruct (update_spec s2 (pr_llr p) label channel_bits s3 r3) as (U1 & U2 & U3); [lia|exact Eu|].
      assert (W2 : well s2) by (split; [rewrite P3; exact W1a|rewrite P2; exact W1b]).
      destruct U3 as [[-> (e & -> & _)]|(a & st & st' & adds & A1 & A2 & A3 & A4 & A5 & A6 & A7)].
      { inversion E; subst s' r. exists [], []. rewrite P3, S1. split; [constructor|]. split; [rewrite <- M1; exact P4|]. split; [cbn; lia|exact W2]. }
      assert (W3 : well s3) by (split; [rewrite A4, length_set_nth; apply W2|rewrite U2; apply W2]).
      assert (G3 : grown (md_model s) adds (md_model s3)).
      { rewrite <- M1. change adds with ([] ++ adds). eapply grown_trans; [exact P4|]. rewrite A5. apply grown_adds. exact A6. }
      assert (T3 : forall rs ss' adds', taught channel_bits (md_structs s3) rs ss' adds' -> taught channel_bits (md_structs s) (Run label input (pr_llr p) a :: rs) ss' (adds ++ adds')).
      { intros rs ss' adds' H. rewrite <- S1, <- P3. eapply T_run with (st := st) (st' := st'); cbn [r_label r_sent r_answer]; [exact A2|exact A1|exact A3|]. rewrite <- A4. exact H. }
      destruct r3 as [[[[[est soft] ok] its] xx]|e].
      2:{ inversion E; subst s' r. exists [Run label input (pr_llr p) a], (adds ++ []). split; [apply T3; constructor|]. rewrite app_nil_r. split; [exact G3|]. split; [cbn; lia|exact W3]. }
      destruct ok.
      * inversion E; subst s' r. exists [Run label input (pr_llr p) a], (adds ++ []). split; [apply T3; constructor|]. rewrite app_nil_r. split; [exact G3|]. split; [cbn; lia|exact W3].
      * destruct (IH _ _ _ _ _ _ W3 E) as (runs & adds' & I1 & I2 & I3 & I4). exists (Run label input (pr_llr p) a :: runs), (adds ++ adds'). split; [apply T3; exact I1|].
        split; [eapply grown_trans; [exact G3|exact I2]|]. split; [cbn; lia|exact I4].
Qed.

(** What a call answers. *)
Lemma take_iff {A} (l : list A) idx bits : take l idx = Ok bits <-> map Some bits = map (nth_error l) idx.
Proof using.
  clear. unfold take. revert bits. induction idx as [|i idx IH]; intro bits; cbn [map_res map].
  - split; [intro E; inversion E; reflexivity|]. destruct bits; [reflexivity|discriminate].
  - unfold index at 1. destruct (nth_error l i) as [x|]; cbn [bind]; [|split; [discriminate|destruct bits; discriminate]].
    destruct (map_res (index l) idx) as [y|] eqn:E; cbn [bind].
    + split.
      * intro Q. inversion Q. cbn [map]. f_equal. apply IH. reflexivity.
      * destruct bits as [|b bits]; [discriminate|]. intro Q. inversion Q. f_equal. f_equal. apply IH in H1. inversion H1. reflexivity.
    + split; [discriminate|]. destruct bits as [|b bits]; [discriminate|]. intro Q. inversion Q. apply IH in H1. discriminate.
Qed.
Lemma set_nth_same {A} (l : list A) i x : nth_error l i = Some x -> set_nth l i x = l.
Proof using. clear. revert i. induction l as [|y l IH]; intros [|n] H; cbn in *; try discriminate; [inversion H; reflexivity|]. f_equal. auto. Qed.
Lemma state_eta (s : md_state FO) : s = MdState FO (md_structs s) (md_model s) (md_running s) (md_classifier s).
Proof using. destruct s; reflexivity. Qed.

Lemma add_accepted m b s m' r : add_buffer FO m b s = (m', r) -> (takes m [VAdd b s] <-> r = Ok tt).
Proof using.
  intro E. split.
  - intro H. specialize (H b s (or_introl eq_refl)). rewrite E in H. exact H.
  - intros -> b0 s0 [Q|[]]. inversion Q; subst. rewrite E. reflexivity.
Qed.
Lemma none_accepted (m : buffer_model FO) : takes m [].
Proof using. intros b s []. Qed.
Lemma learn_iff m st (a : answer) channel_bits st' m' : rc_learning (md_rect c) = true ->
  (learn_fields FO (decode text) info (md_rect c) m st (an_ok a) (an_estimate a) channel_bits = (st', m', Ok tt) <->
   exists adds, learned st a channel_bits st' adds /\ m' = bm_run FO f32_pack erf m adds /\ takes m adds).
Proof.
  intro Hl. unfold learn_fields. rewrite Hl. split.
  - intro E. destruct (an_ok a) eqn:Ho.
    + destruct st as [s|].
      * destruct (add_buffer FO m (BBits (map (Z.eqb 1) (an_estimate a))) s) as [m2 r] eqn:Ea. inversion E; subst. eexists. split; [apply L_again with (s := s); auto|].
        split; [cbn [bm_run fold_left bm_event_step]; unfold as_bits; rewrite Ea; reflexivity|]. apply (add_accepted _ _ _ _ _ Ea). reflexivity.
      * destruct (info (an_estimate a)) as [b|] eqn:Eb; cbn [bind] in E; [|discriminate]. destruct (segment_buffer (decode text) b) as [[[p v] s]|] eqn:Es; cbn [bind] in E; [|discriminate].
        destruct (add_buffer FO m (BBits (map (Z.eqb 1) (an_estimate a))) s) as [m2 r] eqn:Ea. inversion E; subst. eexists. split; [eapply L_first; eauto|].
        split; [cbn [bm_run fold_left bm_event_step]; unfold as_bits; rewrite Ea; reflexivity|]. apply (add_accepted _ _ _ _ _ Ea). reflexivity.
    + destruct st as [s|].
      * destruct (add_buffer FO m (BBits (map (Z.eqb 1) channel_bits)) s) as [m2 r] eqn:Ea. inversion E; subst. eexists. split; [apply L_channel with (s := s); auto|].
        split; [cbn [bm_run fold_left bm_event_step]; unfold as_bits; rewrite Ea; reflexivity|]. apply (add_accepted _ _ _ _ _ Ea). reflexivity.
      * inversion E; subst. eexists. split; [apply L_nothing; auto|]. split; [reflexivity|apply none_accepted].
  - intros (adds & L & -> & A). destruct L as [Hf|b p v s _ Ho -> Eb Es|s _ Ho ->|s _ Ho ->|_ Ho ->]; try (rewrite Ho); [congruence| | | |reflexivity].
    + rewrite Eb. cbn [bind]. rewrite Es. cbn [bind]. cbn [bm_run fold_left bm_event_step]. unfold as_bits in *. destruct (add_buffer FO m (BBits (map (Z.eqb 1) (an_estimate a))) s) as [m2 r] eqn:Ea. apply (add_accepted _ _ _ _ _ Ea) in A. subst. reflexivity.
    + cbn [bm_run fold_left bm_event_step]. unfold as_bits in *. destruct (add_buffer FO m (BBits (map (Z.eqb 1) (an_estimate a))) s) as [m2 r] eqn:Ea. apply (add_accepted _ _ _ _ _ Ea) in A. subst. reflexivity.
    + cbn [bm_run fold_left bm_event_step]. unfold as_bits in *. destruct (add_buffer FO m (BBits (map (Z.eqb 1) channel_bits)) s) as [m2 r] eqn:Ea. apply (add_accepted _ _ _ _ _ Ea) in A. subst. reflexivity.
Qed.

Lemma update_iff s llr label channel_bits s' (a : answer) : (- Z.of_nat (length (md_structs s)) <= label < Z.of_nat (length (md_structs s)))%Z ->
  (update_ s llr label channel_bits = (s', Ok a) <->
   exists st st' adds, ldpc llr = Ok a /\ nth_error (md_structs s) (addressed (length (md_structs s)) label) = Some st /\ learned st a channel_bits st' adds /\ takes (md_model s) adds /\
     s' = MdState FO (set_nth (md_structs s) (addressed (length (md_structs s)) label) st') (bm_run FO f32_pack erf (md_model s) adds) (md_running s) (md_classifier s)).
Proof.
  intros Hl. assert (Hn : exists st, nth_error (md_structs s) (addressed (length (md_structs s)) label) = Some st).
  { destruct (nth_error (md_structs s) (addressed (length (md_structs s)) label)) eqn:En; [eauto|]. apply nth_error_None in En. unfold addressed in En. destruct (Z.ltb_spec label 0%Z); lia. }
  destruct Hn as (st & Hn). assert (Hi : index_z (md_structs s) label = Ok st) by (apply index_addressed; split; [lia|exact Hn]).
  unfold md_update. split.
  - destruct (ldpc llr) as [[[[[est soft] ok] it] x]|e] eqn:El; [|discriminate]. intro E. destruct (rc_learning (md_rect c)) eqn:Hlr.
    + rewrite Hi in E. destruct (learn_fields FO (decode text) info (md_rect c) (md_model s) st ok est channel_bits) as [[st' m'] r'] eqn:Ef.
      destruct r' as [[]|]; cbn [bind] in E; [|discriminate]. inversion E; subst. apply (learn_iff (md_model s) st (est, soft, ok, it, x) channel_bits st' m' Hlr) in Ef. destruct Ef as (adds & L1 & -> & L3).
      exists st, st', adds. auto.
    + inversion E; subst. exists st, st, []. split; [reflexivity|]. split; [exact Hn|]. split; [apply L_fixed; exact Hlr|]. split; [apply none_accepted|].
      rewrite set_nth_same by exact Hn. destruct s'; reflexivity.
  - intros (st0 & st' & adds & El & Hn' & L & A & ->). rewrite Hn in Hn'. inversion Hn'; subst st0. rewrite El. destruct a as [[[[est soft] ok] it] x]. destruct (rc_learning (md_rect c)) eqn:Hlr.
    + rewrite Hi. pose proof (proj2 (learn_iff (md_model s) st (est, soft, ok, it, x) channel_bits st' _ Hlr) (ex_intro _ adds (conj L (conj eq_refl A)))) as E. cbn [an_ok an_estimate fst snd] in E. rewrite E. reflexivity.
    + destruct L; try congruence. rewrite set_nth_same by exact Hn. cbn [bm_run fold_left]. destruct s; reflexivity.
Qed.

Lemma label_iff s channel_bits s1 x : label_ s channel_bits = (s1, Ok x) <->
  labels FO c kl channel_bits (md_running s) (md_classifier s) [x] (md_running s1) (md_classifier s1) /\ md_structs s1 = md_structs s /\ md_model s1 = md_model s.
Proof using.
  clear. unfold md_label. destruct (Nat.ltb_spec 1 (md_clusters c)) as [H|H].
  - destruct (md_cluster c) eqn:Hc.
    + split.
      * destruct (take channel_bits (md_idx c)) as [bits|] eqn:Et; [|discriminate]. destruct (classify FO kl (md_classifier s) bits) as [k r] eqn:Ek. intro E. inversion E; subst. split; [|split; reflexivity].
        cbn [md_running md_classifier]. eapply B_class; [exact H|exact Hc|apply take_iff; exact Et|exact Ek|constructor].
      * intros (L & S1 & S2). inversion L; subst; [lia|congruence|]. match goal with Ht : map Some _ = _, Hk : classify _ _ _ _ = _ |- _ => apply take_iff in Ht; rewrite Ht, Hk end. match goal with Hn : labels _ _ _ _ _ _ [] _ _ |- _ => inversion Hn; subst end. destruct s1. cbn in *. congruence.
    + split.
      * intro E. inversion E; subst. split; [|split; reflexivity]. cbn [md_running md_classifier]. apply B_count; [exact H|exact Hc|constructor].
      * intros (L & S1 & S2). inversion L; subst; [lia| |congruence]. match goal with Hn : labels _ _ _ _ _ _ [] _ _ |- _ => inversion Hn; subst end. destruct s1. cbn in *. congruence.
  - split.
    + intro E. inversion E; subst. split; [|split; reflexivity]. apply B_single; [lia|constructor].
    + intros (L & S1 & S2). inversion L; subst; [|lia|lia]. match goal with Hn : labels _ _ _ _ _ _ [] _ _ |- _ => inversion Hn; subst end. destruct s, s1. cbn in *. congruence.
Qed.
Lemma labels_cons channel_bits i k x l i' k' : labels FO c kl channel_bits i k (x :: l) i' k' <-> exists i1 k1, labels FO c kl channel_bits i k [x] i1 k1 /\ labels FO c kl channel_bits i1 k1 l i' k'.
Proof using.
  clear. split.
  - intro H. inversion H; subst; eexists; eexists; (split; [|eassumption]); econstructor; try eassumption; constructor.
  - intros (i1 & k1 & H1 & H2). inversion H1; subst; match goal with H : labels _ _ _ _ _ _ [] _ _ |- _ => inversion H; subst end; econstructor; eassumption.
Qed.

Lemma predict_iff s obs label s' p : (0 <= label)%Z ->
  (predict_ s obs label = (s', Ok p) <-> exists st m1, nth_error (md_structs s) (addressed (length (md_structs s)) label) = Some st /\
      rectify FO f32_pack erf (decode text) info (md_rect c) (scale_plain FO) (forced_wrong FO) (md_model s) st obs = Ok (m1, p) /\ s' = MdState FO (md_structs s) m1 (md_running s) (md_classifier s)).
Proof.
  intro Hl. unfold md_predict. split.
  - destruct (index_z (md_structs s) label) as [st|] eqn:Ei; cbn [bind]; [|discriminate]. apply index_addressed in Ei. destruct Ei as [_ Ei].
    destruct (rectify FO f32_pack erf (decode text) info (md_rect c) (scale_plain FO) (forced_wrong FO) (md_model s) st obs) as [[m1 p1]|] eqn:Er; [|discriminate]. intro E; inversion E; subst. exists st, m1. auto.
  - intros (st & m1 & H1 & H2 & ->). assert (Hi : index_z (md_structs s) label = Ok st) by (apply index_addressed; split; [lia|exact H1]). rewrite Hi. cbn [bind]. rewrite H2. reflexivity.
Qed.

(** The answer of a call whose last run is [r]. *)
Definition final_it (it : Z) (runs : list (@run FO X)) (r : @run FO X) : answer :=
  (an_estimate (r_answer r), an_soft (r_answer r), an_ok (r_answer r), (it + sum_iterations runs)%Z, snd (r_answer r)).
Lemma final_cons it r runs r1 : final_it (it + an_iterations (r_answer r1)) runs r = final_it it (r1 :: runs) r.
Proof using. clear. unfold final_it, sum_iterations. cbn [map fold_right]. rewrite Z.add_assoc. reflexivity. Qed.
Lemma in_range (s : md_state FO) label st : (0 <= label)%Z -> nth_error (md_structs s) (addressed (length (md_structs s)) label) = Some st -> (- Z.of_nat (length (md_structs s)) <= label < Z.of_nat (length (md_structs s)))%Z.
Proof using.
  clear. intros H E. assert (Q : addressed (length (md_structs s)) label < length (md_structs s)) by (apply nth_error_Some; rewrite E; discriminate). unfold addressed in Q. destruct (Z.ltb_spec label 0%Z); lia.
Qed.

Definition one_run (channel_bits : list Z) (s : md_state FO) (input : list (F FO)) (r : @run FO X) (p : prediction FO) (s3 : md_state FO) : Prop :=
  labels FO c kl channel_bits (md_running s) (md_classifier s) [r_label r] (md_running s3) (md_classifier s3) /\ (0 <= r_label r)%Z /\ r_word r = input /\
  exists st st' m1 adds, nth_error (md_structs s) (addressed (length (md_structs s)) (r_label r)) = Some st /\
    rectify FO f32_pack erf (decode text) info (md_rect c) (scale_plain FO) (forced_wrong FO) (md_model s) st input = Ok (m1, p) /\ r_sent r = pr_llr p /\
    ldpc (r_sent r) = Ok (r_answer r) /\ learned st (r_answer r) channel_bits st' adds /\ takes m1 adds /\
    md_structs s3 = set_nth (md_structs s) (addressed (length (md_structs s)) (r_label r)) st' /\ md_model s3 = bm_run FO f32_pack erf m1 adds.
Lemma loop_step n channel channel_bits s input it last s' p a label :
  loop_ (S n) channel channel_bits s input it last = (s', Ok (Left FO p a label)) <->
  exists r p1 s3, one_run channel_bits s input r p1 s3 /\
    (if an_ok (r_answer r) then s' = s3 /\ p = p1 /\ label = r_label r /\ a = final_it it [r] r
     else loop_ n channel channel_bits s3 (an_soft (r_answer r)) (it + an_iterations (r_answer r)) (Some (Left FO p1 (final_it it [r] r) (r_label r))) = (s', Ok (Left FO p a label))).
Proof.
  cbn [md_loop]. split.
  - intro E. destruct (label_ s channel_bits) as [s1 [lab|]] eqn:El; [|discriminate]. apply label_iff in El. destruct El as (L & S1 & M1).
    destruct (Z.ltb_spec lab 0%Z) as [Hl|Hl]. { destruct (update_ s1 channel lab channel_bits) as [? [?|]]; inversion E. }
    destruct (predict_ s1 input lab) as [s2 [p2|]] eqn:Ep; [|discriminate]. apply predict_iff in Ep; [|exact Hl]. destruct Ep as (st & m1 & P1 & P2 & ->).
    match type of E with (let '(_, _) := ?t in _) = _ => destruct t as [s3 [a3|]] eqn:Eu end; [|discriminate]. apply update_iff in Eu; [|cbn [md_structs]; eapply in_range; eassumption].
    cbn [md_structs md_model md_running md_classifier] in Eu. destruct Eu as (st0 & st' & adds & U1 & U2 & U3 & U4 & E3). rewrite P1 in U2. inversion U2; subst st0.
    exists (Run lab input (pr_llr p2) a3), p2, s3. split.
    { unfold one_run. cbn [r_label r_word r_sent r_answer]. rewrite E3. cbn [md_structs md_model md_running md_classifier]. rewrite <- S1, <- M1. split; [exact L|]. split; [exact Hl|]. split; [reflexivity|].
      exists st, st', m1, adds. auto 10. }
    unfold final_it, sum_iterations. destruct a3 as [[[[est soft] ok] its] xx]. cbn [r_label r_answer an_ok an_soft an_iterations an_estimate map fold_right fst snd] in *. rewrite Z.add_0_r. destruct ok; [inversion E; auto|exact E].
  - intros (r & p1 & s3 & (L & Hl & Hw & st & st' & m1 & adds & N & Rc & Hs & Hd & Le & Ac & S3 & M3) & G).
    set (s1 := MdState FO (md_structs s) (md_model s) (md_running s3) (md_classifier s3)).
    assert (El : label_ s channel_bits = (s1, Ok (r_label r))) by (apply label_iff; split; [exact L|split; reflexivity]). rewrite El.
    destruct (Z.ltb_spec (r_label r) 0%Z); [lia|]. assert (Ep : predict_ s1 input (r_label r) = (MdState FO (md_structs s) m1 (md_running s3) (md_classifier s3), Ok p1)).
    { apply predict_iff; [exact Hl|]. exists st, m1. auto. }
    rewrite Ep. assert (Eu : update_ (MdState FO (md_structs s) m1 (md_running s3) (md_classifier s3)) (pr_llr p1) (r_label r) channel_bits = (s3, Ok (r_answer r))).
    { apply update_iff; [cbn [md_structs]; eapply in_range; eassumption|]. cbn [md_structs md_model md_running md_classifier]. exists st, st', adds. rewrite <- Hs, <- S3, <- M3. repeat (split; [assumption|]). apply state_eta. }
    rewrite Eu. destruct (r_answer r) as [[[[est soft] ok] its] xx] eqn:Ea. unfold final_it, sum_iterations in G. rewrite Ea in G. cbn [map fold_right an_ok an_soft an_iterations an_estimate fst snd] in G. rewrite Ea in G. cbn [an_iterations fst snd] in G. rewrite Z.add_0_r in G.
    destruct ok; [destruct G as (-> & -> & -> & ->); reflexivity|exact G].
Qed.
Lemma last_cons {A} (x : A) l d : l <> [] -> List.last (x :: l) d = List.last l d.
Proof using. clear. destruct l; [congruence|reflexivity]. Qed.
Lemma works_nonempty channel_bits n ss m word runs p ss' m' : works channel_bits n ss m word runs p ss' m' -> runs <> [].
Proof using. intro W. inversion W; discriminate. Qed.
Lemma loop_iff channel channel_bits n : forall s input it last s' p a label,
  loop_ (S n) channel channel_bits s input it last = (s', Ok (Left FO p a label)) <->
  exists runs r, works channel_bits (S n) (md_structs s) (md_model s) input runs p (md_structs s') (md_model s') /\
    labels FO c kl channel_bits (md_running s) (md_classifier s) (map r_label runs) (md_running s') (md_classifier s') /\ Forall (fun r => (0 <= r_label r)%Z) runs /\
    List.last (map Some runs) None = Some r /\ label = r_label r /\ a = final_it it runs r.
Proof.
  assert (One : forall k s input it s' p a label r, (an_ok (r_answer r) = true \/ k = 0) -> one_run channel_bits s input r p s' -> label = r_label r -> a = final_it it [r] r ->
    exists runs r, works channel_bits (S k) (md_structs s) (md_model s) input runs p (md_structs s') (md_model s') /\
    labels FO c kl channel_bits (md_running s) (md_classifier s) (map r_label runs) (md_running s') (md_classifier s') /\ Forall (fun r => (0 <= r_label r)%Z) runs /\
    List.last (map Some runs) None = Some r /\ label = r_label r /\ a = final_it it runs r).
  { intros k s input it s' p a label r Hk (L & Hl & Hw & st & st' & m1 & adds & N & Rc & Hs & Hd & Le & Ac & S3 & M3) -> ->. exists [r], r. rewrite S3, M3.
    split; [eapply W_last; eassumption|]. split; [exact L|]. split; [constructor; [exact Hl|constructor]|]. auto. }
  induction n as [|n IH]; intros s input it last s' p a label; rewrite loop_step.
  - split.
    + intros (r & p1 & s3 & O1 & G). destruct (an_ok (r_answer r)) eqn:Ho.
      * destruct G as (-> & -> & -> & ->). eapply One; eauto.
      * cbn [md_loop] in G. inversion G; subst. eapply One; eauto.
    + intros (runs & r & W & L & P & Lr & -> & ->). inversion W; subst; [|match goal with H : works channel_bits 0 _ _ _ _ _ _ _ |- _ => inversion H end].
      cbn in Lr. inversion Lr; subst. exists r, p, s'. split.
      * split; [exact L|]. split; [exact (Forall_inv P)|]. split; [reflexivity|]. exists st, st', m1, adds. auto 10.
      * destruct (an_ok (r_answer r)); [auto|reflexivity].
  - split.
    + intros (r & p1 & s3 & O1 & G). destruct (an_ok (r_answer r)) eqn:Ho; [destruct G as (-> & -> & -> & ->); eapply One; eauto|].
      apply IH in G. destruct G as (runs & r1 & W & L & P & Lr & -> & ->). destruct O1 as (L1 & Hl & Hw & st & st' & m1 & adds & N & Rc & Hs & Hd & Le & Ac & S3 & M3).
      exists (r :: runs), r1. rewrite S3, M3 in W. split; [eapply W_next; eassumption|]. split; [cbn [map]; apply labels_cons; eauto|]. split; [constructor; assumption|].
      split; [cbn [map]; rewrite last_cons; [exact Lr|]; intro Q; apply map_eq_nil in Q; exact (works_nonempty _ _ _ _ _ _ _ _ _ W Q)|]. split; [reflexivity|apply final_cons].
    + intros (runs & r & W & L & P & Lr & -> & ->). inversion W; subst.
      * match goal with Hk : _ \/ S n = 0 |- _ => destruct Hk as [H|Hk]; [|discriminate] end. cbn in Lr. inversion Lr; subst. exists r, p, s'. rewrite H. split; [|auto].
        split; [exact L|]. split; [exact (Forall_inv P)|]. split; [reflexivity|]. exists st, st', m1, adds. auto 10.
      * cbn [map] in L. apply labels_cons in L. destruct L as (i1 & k1 & L1 & L2). exists r0, p0, (MdState FO (set_nth (md_structs s) (addressed (length (md_structs s)) (r_label r0)) st') (bm_run FO f32_pack erf m1 adds) i1 k1).
        split.
        { split; [exact L1|]. split; [exact (Forall_inv P)|]. split; [reflexivity|]. exists st, st', m1, adds. auto 10. }
        match goal with Hf : an_ok (r_answer r0) = false |- _ => rewrite Hf end. apply IH. cbn [md_structs md_model md_running md_classifier]. exists rs, r. split; [eassumption|]. split; [exact L2|]. split; [exact (Forall_inv_tail P)|].
        split; [cbn [map] in Lr; rewrite last_cons in Lr; [exact Lr|]; intro Q; apply map_eq_nil in Q; eapply works_nonempty; eassumption|]. split; [reflexivity|symmetry; apply final_cons].
Qed.

(** Training. *)
Lemma add_sample_fields k b : k_min (fst (classify FO kl k b)) = k_min k /\ k_samples (fst (classify FO kl k b)) = (k_samples k + 1)%Z.
Proof using.
  clear. unfold classify. cbn [k_samples k_min k_uid k_clusters k_init]. destruct (k_samples k + 1 <? k_min k)%Z; [destruct (new_cluster b (k_uid k)); split; reflexivity|].
  assert (G : forall (P : classifier * res unit), k_min (fst P) = k_min k -> k_samples (fst P) = (k_samples k + 1)%Z -> forall Q, Q = (match P with
    | (s0, Ok _) => let s := Classifier (k_min k) (k_k k) (k_clusters s0) true (k_uid s0) (k_samples k + 1) (k_classify k) (k_merge k) (k_weight k) in
           match closest_index FO s b with
           | Err e => (s, Err e)
           | Ok i => match nth_error (k_clusters s) i with
                     | None => (s, Err IndexError)
                     | Some c0 => match Clustering.add_sample c0 b with
                              | (c1, r) => (Classifier (k_min k) (k_k k) (set_nth (k_clusters s) i c1) true (k_uid s) (k_samples k + 1) (k_classify k) (k_merge k) (k_weight k), do! _ <- r in Ok (c_uid c1))
                              end
                     end
           end
    | (s0, Err e) => (s0, Err e) end) -> k_min (fst Q) = k_min k /\ k_samples (fst Q) = (k_samples k + 1)%Z).
  { intros [s0 [r|e]] H1 H2 Q ->; [|split; assumption]. cbv zeta. destruct (closest_index FO _ b) as [i|]; [|split; reflexivity]. destruct (nth_error _ i) as [x|]; [|split; reflexivity].
    destruct (Clustering.add_sample x b). split; reflexivity. }
  eapply G; [| |reflexivity]; (destruct (k_init k); [reflexivity|]; unfold merge_clusters; cbn [k_clusters k_k k_merge k_weight k_min k_init k_uid k_samples k_classify];
    destruct (merge_loop FO kl _ _ _ _ _ _) as [cs [r|e]]; reflexivity).
Qed.
Definition trained (s : md_state FO) : Prop := (1 < md_clusters c -> md_cluster c = true -> (k_min (md_classifier s) <= k_samples (md_classifier s))%Z).
Lemma labels_one channel_bits i k x i' k' : sane k -> labels FO c kl channel_bits i k [x] i' k' ->
  x = (-1)%Z /\ 1 < md_clusters c /\ md_cluster c = true /\ (k_samples k + 1 < k_min k)%Z \/ (0 <= x)%Z /\ (1 < md_clusters c -> md_cluster c = true -> (k_min k' <= k_samples k')%Z).
Proof using.
  clear. intros K L. inversion L; subst; match goal with Hn : labels _ _ _ _ _ _ [] _ _ |- _ => inversion Hn; subst end; [right; split; [lia|intros; lia]| |].
  - right. split; [pose proof (Z.mod_pos_bound (i + 1) (Z.of_nat (md_clusters c))); lia|congruence].
  - match goal with Hc : classify FO kl k ?b = _ |- _ => pose proof (add_sample_fields k b) as F0; pose proof (classify_sane k b K) as [_ C]; rewrite Hc in F0, C; specialize (C x eq_refl) end. cbn [fst snd] in *. destruct F0 as [F1 F2].
    destruct (Z.ltb_spec (k_samples k + 1) (k_min k)); [left; repeat split; assumption|]. right. split; [assumption|intros; lia].
Qed.
Lemma loop_trained channel channel_bits n : forall s input it last s' x, well s -> (n = 0 -> last <> Some (Returned FO x)) -> trained s -> loop_ n channel channel_bits s input it last = (s', Ok (Returned FO x)) -> False.
Proof.
  induction n as [|n IH]; intros s input it last s' x W Hx T E; cbn [md_loop] in E.
  - destruct last as [[y|]|]; inversion E; subst. apply Hx; reflexivity.
  - destruct (label_ s channel_bits) as [s1 [lab|]] eqn:El; [|discriminate]. destruct (label_range s channel_bits s1 (Ok lab) W El) as [W1 _]. pose proof El as El0. apply label_iff in El. destruct El as (L & S1 & M1).
    destruct (labels_one _ _ _ _ _ _ (proj2 W) L) as [(-> & A1 & A2 & A3)|(A1 & A2)]; [specialize (T ltac:(lia) A2); lia|].
    destruct (Z.ltb_spec lab 0%Z); [lia|]. destruct (predict_ s1 input lab) as [s2 [p2|]] eqn:Ep; [|discriminate]. apply predict_iff in Ep; [|assumption]. destruct Ep as (st & m1 & P1 & P2 & ->).
    match type of E with (let '(_, _) := ?t in _) = _ => destruct t as [s3 [a3|]] eqn:Eu end; [|discriminate]. apply update_iff in Eu; [|cbn [md_structs]; eapply in_range; eassumption].
    cbn [md_structs md_model md_running md_classifier] in Eu. destruct Eu as (st0 & st' & adds & U1 & U2 & U3 & U4 & E3).
    destruct a3 as [[[[est soft] ok] its] xx]. destruct ok; [discriminate|]. eapply IH; [| | |exact E].
    + subst s3. split; cbn [md_structs md_classifier]; [rewrite length_set_nth; apply W1|apply W1].
    + intros _ Q. discriminate.
    + subst s3. exact A2.
Qed.
Lemma loop_training channel channel_bits n s input it last s' x : well s ->
  (loop_ (S n) channel channel_bits s input it last = (s', Ok (Returned FO x)) <->
   exists a st st' adds, x = (a, -1, [], [], [], None, None)%Z /\ labels FO c kl channel_bits (md_running s) (md_classifier s) [-1]%Z (md_running s') (md_classifier s') /\
     ldpc channel = Ok a /\ nth_error (md_structs s) (md_clusters c - 1) = Some st /\ learned st a channel_bits st' adds /\ takes (md_model s) adds /\
     md_structs s' = set_nth (md_structs s) (md_clusters c - 1) st' /\ md_model s' = bm_run FO f32_pack erf (md_model s) adds).
Proof.
  intro W. assert (Hadr : forall k, 1 < k -> addressed k (-1) = k - 1) by (intros k Hk; unfold addressed; destruct (Z.ltb_spec (-1) 0%Z); lia).
  cbn [md_loop]. split.
  - intro E. destruct (label_ s channel_bits) as [s1 [lab|]] eqn:El; [|discriminate]. destruct (label_range s channel_bits s1 (Ok lab) W El) as [W1 _]. pose proof El as El0. apply label_iff in El. destruct El as (L & S1 & M1).
    destruct (labels_one _ _ _ _ _ _ (proj2 W) L) as [(-> & A1 & A2 & A3)|(A1 & A2)].
    + cbn [Z.ltb Z.compare] in E. destruct (update_ s1 channel (-1) channel_bits) as [s2 [a|]] eqn:Eu; inversion E; subst s2 x. apply update_iff in Eu; [|rewrite (proj1 W1); lia].
      destruct Eu as (st & st' & adds & U1 & U2 & U3 & U4 & ->). cbn [md_structs md_model md_running md_classifier]. rewrite S1, M1, (proj1 W), Hadr in * by lia. exists a, st, st', adds. auto 10.
    + exfalso. destruct (Z.ltb_spec lab 0%Z); [lia|]. destruct (predict_ s1 input lab) as [s2 [p2|]] eqn:Ep; [|discriminate]. apply predict_iff in Ep; [|assumption]. destruct Ep as (st & m1 & P1 & P2 & ->).
      match type of E with (let '(_, _) := ?t in _) = _ => destruct t as [s3 [a3|]] eqn:Eu end; [|discriminate]. apply update_iff in Eu; [|cbn [md_structs]; eapply in_range; eassumption].
      cbn [md_structs md_model md_running md_classifier] in Eu. destruct Eu as (st0 & st' & adds & U1 & U2 & U3 & U4 & E3).
      destruct a3 as [[[[est soft] ok] its] xx]. destruct ok; [discriminate|]. eapply loop_trained; [| | |exact E].
      * subst s3. split; cbn [md_structs md_classifier]; [rewrite length_set_nth; apply W1|apply W1].
      * intros _ Q. discriminate.
      * subst s3. exact A2.
  - intros (a & st & st' & adds & -> & L & Hd & N & Le & Ac & S3 & M3).
    assert (Hc : 1 < md_clusters c) by (destruct (labels_one _ _ _ _ _ _ (proj2 W) L) as [(_ & A1 & _)|[A1 _]]; lia).
    set (s1 := MdState FO (md_structs s) (md_model s) (md_running s') (md_classifier s')).
    assert (El : label_ s channel_bits = (s1, Ok (-1)%Z)) by (apply label_iff; split; [exact L|split; reflexivity]). rewrite El. cbn [Z.ltb Z.compare].
    assert (Eu : update_ s1 channel (-1) channel_bits = (s', Ok a)).
    { apply update_iff; [cbn [md_structs s1]; rewrite (proj1 W); lia|]. cbn [md_structs md_model md_running md_classifier s1]. rewrite (proj1 W), Hadr by lia. exists st, st', adds. rewrite <- S3, <- M3. repeat (split; [assumption|]). apply state_eta. }
    rewrite Eu. reflexivity.
Qed.

Notation decode_ := (md_decode FO f32_pack erf kl (decode text) info c ldpc).
Lemma final_0 runs r : final_it 0 runs r = final runs r.
Proof using. reflexivity. Qed.
Lemma decode_label s llr errs s' a label seg good bad ca fa : well s -> md_debug c = false ->
  (decode_ s llr errs = (s', Ok (a, label, seg, good, bad, ca, fa)) <->
   ca = None /\ fa = None /\
   ((exists n st st' adds, md_rounds c = S n /\ label = (-1)%Z /\ seg = [] /\ good = [] /\ bad = [] /\ labels FO c kl (hard FO llr) (md_running s) (md_classifier s) [-1]%Z (md_running s') (md_classifier s') /\
     ldpc llr = Ok a /\ nth_error (md_structs s) (md_clusters c - 1) = Some st /\ learned st a (hard FO llr) st' adds /\ takes (md_model s) adds /\
     md_structs s' = set_nth (md_structs s) (md_clusters c - 1) st' /\ md_model s' = bm_run FO f32_pack erf (md_model s) adds) \/
    (exists runs r p, works (hard FO llr) (md_rounds c) (md_structs s) (md_model s) llr runs p (md_structs s') (md_model s') /\
      labels FO c kl (hard FO llr) (md_running s) (md_classifier s) (map r_label runs) (md_running s') (md_classifier s') /\ Forall (fun r => (0 <= r_label r)%Z) runs /\
      List.last (map Some runs) None = Some r /\ label = r_label r /\ a = final runs r /\ seg = pr_segmented p /\ good = pr_good_fields p /\ bad = pr_bad_fields p))).
Proof.
  intros W Hdb. unfold md_decode. rewrite Hdb. destruct (md_rounds c) as [|n].
  - cbn [md_loop]. split; [discriminate|]. intros (_ & _ & [(n & st & st' & adds & Q & _)|(runs & r & p & Wk & _)]); [discriminate|inversion Wk].
  - split.
    + intro E. destruct (loop_ (S n) llr (hard FO llr) s llr 0 None) as [s2 [[x|p y l]|]] eqn:El; [| |discriminate].
      * inversion E; subst s2 x. apply loop_training in El; [|exact W]. destruct El as (a0 & st & st' & adds & Q & R). inversion Q; subst. split; [reflexivity|]. split; [reflexivity|]. left. exists n, st, st', adds. auto 10.
      * inversion E; subst. apply loop_iff in El. destruct El as (runs & r & R1 & R2 & R3 & R4 & R5 & R6). split; [reflexivity|]. split; [reflexivity|]. right. exists runs, r, p. rewrite final_0 in R6. auto 10.
    + intros (-> & -> & [(n0 & st & st' & adds & _ & -> & -> & -> & -> & R)|(runs & r & p & R1 & R2 & R3 & R4 & R5 & R6 & -> & -> & ->)]).
      * assert (El : loop_ (S n) llr (hard FO llr) s llr 0 None = (s', Ok (Returned FO (a, (-1)%Z, [], [], [], None, None)))) by (apply loop_training; [exact W|]; exists a, st, st', adds; auto). rewrite El. reflexivity.
      * assert (El : loop_ (S n) llr (hard FO llr) s llr 0 None = (s', Ok (Left FO p a label))) by (apply loop_iff; exists runs, r; rewrite final_0; auto 10). rewrite El. reflexivity.
Qed.

Lemma decode_debug s llr errs s' a label seg good bad ca fa : well s -> md_debug c = true ->
  (decode_ s llr errs = (s', Ok (a, label, seg, good, bad, ca, fa)) <->
   (ca = None /\ fa = None /\ exists n st st' adds, md_rounds c = S n /\ label = (-1)%Z /\ seg = [] /\ good = [] /\ bad = [] /\ labels FO c kl (hard FO llr) (md_running s) (md_classifier s) [-1]%Z (md_running s') (md_classifier s') /\
     ldpc llr = Ok a /\ nth_error (md_structs s) (md_clusters c - 1) = Some st /\ learned st a (hard FO llr) st' adds /\ takes (md_model s) adds /\
     md_structs s' = set_nth (md_structs s) (md_clusters c - 1) st' /\ md_model s' = bm_run FO f32_pack erf (md_model s) adds) \/
    (exists runs r p st v, works (hard FO llr) (md_rounds c) (md_structs s) (md_model s) llr runs p (md_structs s') (md_model s') /\
      labels FO c kl (hard FO llr) (md_running s) (md_classifier s) (map r_label runs) (md_running s') (md_classifier s') /\ Forall (fun r => (0 <= r_label r)%Z) runs /\
      List.last (map Some runs) None = Some r /\ label = r_label r /\ a = final runs r /\ seg = pr_segmented p /\ good = pr_good_fields p /\ bad = pr_bad_fields p /\
      nth_error (md_structs s') (addressed (length (md_structs s')) label) = Some st /\ classifier_analysis st (pr_good_fields p) (pr_bad_fields p) errs (pr_fields p) (md_n c) = Ok ca /\
      forcing_analysis FO f32_pack (md_model s') st (pr_forced p) errs (hard FO llr) = Ok v /\ fa = Some v)).
Proof.
  intros W Hdb. unfold md_decode. rewrite Hdb. destruct (md_rounds c) as [|n].
  - cbn [md_loop]. split; [discriminate|]. intros [(_ & _ & n & st & st' & adds & Q & _)|(runs & r & p & st & v & Wk & _)]; [discriminate|inversion Wk].
  - split.
    + intro E. destruct (loop_ (S n) llr (hard FO llr) s llr 0 None) as [s2 [[x|p y l]|]] eqn:El; [| |discriminate].
      * inversion E; subst s2 x. apply loop_training in El; [|exact W]. destruct El as (a0 & st & st' & adds & Q & R). inversion Q; subst. left. split; [reflexivity|]. split; [reflexivity|]. exists n, st, st', adds. auto 10.
      * destruct (index_z (md_structs s2) l) as [st|] eqn:Ei; cbn [bind] in E; [|discriminate].
        match type of E with (_, do! _ <- ?t in _) = _ => destruct t as [ca0|] eqn:Ec end; cbn [bind] in E; [|discriminate].
        match type of E with (_, do! _ <- ?t in _) = _ => destruct t as [v|] eqn:Ef end; cbn [bind] in E; [|discriminate].
        inversion E; subst. apply loop_iff in El. destruct El as (runs & r & R1 & R2 & R3 & R4 & R5 & R6). right. exists runs, r, p, st, v. rewrite final_0 in R6.
        apply index_addressed in Ei. destruct Ei as [_ Ei]. auto 15.
    + intros [(-> & -> & n0 & st & st' & adds & _ & -> & -> & -> & -> & R)|(runs & r & p & st & v & R1 & R2 & R3 & R4 & R5 & R6 & -> & -> & -> & N & Hc & Hf & ->)].
      * assert (El : loop_ (S n) llr (hard FO llr) s llr 0 None = (s', Ok (Returned FO (a, (-1)%Z, [], [], [], None, None)))) by (apply loop_training; [exact W|]; exists a, st, st', adds; auto). rewrite El. reflexivity.
      * assert (El : loop_ (S n) llr (hard FO llr) s llr 0 None = (s', Ok (Left FO p a label))) by (apply loop_iff; exists runs, r; rewrite final_0; auto 10). rewrite El.
        assert (Hl : (0 <= label)%Z).
        { subst label. rewrite Forall_forall in R3. apply R3. clear - R4. induction runs as [|x runs IH]; [discriminate|]. cbn [map] in R4. destruct runs as [|y t]; [cbn in R4; inversion R4; left; reflexivity|].
          right. apply IH. exact R4. }
        assert (Hi : index_z (md_structs s') label = Ok st) by (apply index_addressed; split; [lia|exact N]). rewrite Hi. cbn [bind]. rewrite Hc. cbn [bind]. rewrite Hf. reflexivity.
Qed.
Lemma works_unknown bits n ss m word runs p ss' m' : works bits n ss m word runs p ss' m' -> Forall (fun st => st = None) ss -> pr_forced p = None.
Proof using.
  induction 1 as [n ss m word r st st' m1 p adds Hk Hw N Rc|n ss m word r rs st st' m1 p q adds ss' m' Ho Hw N Rc Hs Hd Le Ac Wk IH]; intro Hn.
  - assert (st = None) as -> by (rewrite Forall_forall in Hn; apply Hn; eapply nth_error_In; exact N). cbn in Rc. inversion Rc. reflexivity.
  - assert (st = None) as -> by (rewrite Forall_forall in Hn; apply Hn; eapply nth_error_In; exact N). apply IH. apply forall_set_nth; [exact Hn|]. destruct Le; congruence.
Qed.
Lemma decode_unknown s llr errs s' a label seg good bad ca fa : well s -> md_debug c = true -> Forall (fun st => st = None) (md_structs s) ->
  decode_ s llr errs = (s', Ok (a, label, seg, good, bad, ca, fa)) -> label = (-1)%Z.
Proof.
  intros W Hdb H E. apply decode_debug in E; [|exact W|exact Hdb]. destruct E as [(_ & _ & n & st & st' & adds & _ & -> & _)|(runs & r & p & st & v & Wk & _ & _ & _ & _ & _ & _ & _ & _ & _ & _ & Hf & _)]; [reflexivity|].
  exfalso. rewrite (works_unknown _ _ _ _ _ _ _ _ _ Wk H) in Hf. unfold forcing_analysis in Hf. destruct st as [st|]; [|discriminate].
  match type of Hf with (do! _ <- ?t in _) = _ => destruct t as [[m2 bits]|] end; cbn [bind] in Hf; discriminate.
Qed.
Lemma decode_taught s llr errs s' r : well s -> decode_ s llr errs = (s', r) ->
  exists runs adds, taught (hard FO llr) (md_structs s) runs (md_structs s') adds /\ grown (md_model s) adds (md_model s') /\ length runs <= md_rounds c /\ well s'.
Proof.
  intros W E. unfold md_decode in E. destruct (loop_ (md_rounds c) llr (hard FO llr) s llr 0 None) as [s2 x] eqn:El. apply loop_taught in El; [|exact W].
  assert (s2 = s') as <- by (destruct x as [[y|p y l]|]; [|destruct (md_debug c)|]; inversion E; reflexivity). exact El.
Qed.

Definition calls (s : md_state FO) (l : list (list (F FO) * list Z)) : md_state FO := fold_left (fun s x => fst (decode_ s (fst x) (snd x))) l s.
Lemma calls_lessons l : forall s, well s -> exists runs adds, lessons FO text info c ldpc (md_structs s) (combine (map (fun x => hard FO (fst x)) l) runs) (md_structs (calls s l)) adds /\
  length runs = length l /\ Forall (fun rs => length rs <= md_rounds c) runs /\ grown (md_model s) adds (md_model (calls s l)) /\ well (calls s l).
Proof.
  induction l as [|[llr errs] l IH]; intros s W.
  - exists [], []. split; [constructor|]. split; [reflexivity|]. split; [constructor|]. split; [apply grown_refl|exact W].
  - cbn [calls fold_left fst snd]. destruct (decode_ s llr errs) as [s1 r] eqn:E. destruct (decode_taught _ _ _ _ _ W E) as (rs & a1 & T & G & Lr & W1). cbn [fst].
    destruct (IH s1 W1) as (runs & adds & I1 & I2 & I3 & I4 & I5). exists (rs :: runs), (a1 ++ adds). split; [cbn [map combine]; econstructor; [exact T|exact I1]|].
    split; [cbn; congruence|]. split; [constructor; assumption|]. split; [eapply grown_trans; eassumption|exact I5].
Qed.
Lemma nth_error_set_nth {A} (l : list A) i j x : nth_error (set_nth l i x) j = if Nat.eqb i j then (if Nat.ltb j (length l) then Some x else None) else nth_error l j.
Proof using.
  clear. revert i j. induction l as [|y l IH]; intros i j.
  - cbn. destruct i, j; cbn; try reflexivity; destruct (Nat.eqb _ _); reflexivity.
  - destruct i, j; cbn [set_nth nth_error Nat.eqb length]; try reflexivity. rewrite IH. destruct (Nat.eqb i j); [|reflexivity]. reflexivity.
Qed.
Lemma learned_keeps st (a : answer) bits st' adds s : learned st a bits st' adds -> st = Some s -> st' = Some s.
Proof using. intros L E. destruct L; congruence. Qed.
Lemma taught_keeps bits ss runs ss' adds i s : taught bits ss runs ss' adds -> nth_error ss i = Some (Some s) -> nth_error ss' i = Some (Some s).
Proof using.
  induction 1 as [|ss r rs st st' adds ss' adds' N Ld Le T IH]; intro E; [exact E|]. apply IH. rewrite nth_error_set_nth. destruct (Nat.eqb_spec (addressed (length ss) (r_label r)) i) as [<-|Hn]; [|exact E].
  assert (Hi : addressed (length ss) (r_label r) < length ss) by (apply nth_error_Some; rewrite E; discriminate). apply Nat.ltb_lt in Hi. rewrite Hi. f_equal.
  rewrite E in N. inversion N. eapply learned_keeps; [exact Le|]. congruence.
Qed.
Lemma lessons_keep l : forall ss ss' adds i s, lessons FO text info c ldpc ss l ss' adds -> nth_error ss i = Some (Some s) -> nth_error ss' i = Some (Some s).
Proof using.
  induction l as [|x l IH]; intros ss ss' adds i s H E; inversion H; subst; [exact E|]. eapply IH; [eassumption|]. eapply taught_keeps; eassumption.
Qed.
Lemma taught_fixed bits ss runs ss' adds : rc_learning (md_rect c) = false -> taught bits ss runs ss' adds -> ss' = ss /\ adds = [].
Proof using.
  intro Hl. induction 1 as [|ss r rs st st' adds ss' adds' N Ld Le T IH]; [split; reflexivity|]. destruct IH as [-> ->]. destruct Le; try congruence. split; [|reflexivity].
  apply set_nth_same. exact N.
Qed.
Lemma learned_adds st (a : answer) bits st' adds : learned st a bits st' adds -> rc_learning (md_rect c) = true -> length adds = (if an_ok a then 1 else match st with Some _ => 1 | None => 0 end).
Proof using. intros L Hl. destruct L; subst; try congruence; try (rewrite H0; reflexivity). Qed.
End P.

Lemma new_well FO info_idx n ml vt it k vf inf ct cl w dm ce sl db rounds : let '(c, s) := md_new FO info_idx n ml vt it k vf inf ct cl w dm ce sl db rounds in well FO c s.
Proof. split; [apply repeat_length|]. split; [cbn; lia|constructor]. Qed.

Lemma grown_reachable FO f32_pack erf w m adds os : grown f32_pack erf (bm_init FO [] w) adds m -> Forall2 outcome adds os ->
  exists os', reachable FO f32_pack erf w os' m /\ recorded os' = recorded os /\ Stats.accepted os' = Stats.accepted os.
Proof.
  intros (h & -> & Hf). assert (G : forall h adds os, filter (fun e => negb (is_read e)) h = adds -> Forall2 outcome adds os ->
    exists os', Forall2 outcome h os' /\ recorded os' = recorded os /\ Stats.accepted os' = Stats.accepted os).
  { clear. induction h as [|e h IH]; intros adds os Hf H; cbn [filter] in Hf.
    - subst. inversion H; subst. exists []. repeat split. constructor.
    - destruct (is_read e) eqn:Er; cbn [negb] in Hf.
      + destruct (IH adds os Hf H) as (os' & A & B & C). exists (None :: os'). split; [constructor; [apply oc_read; intros a s ->; discriminate|exact A]|]. split; assumption.
      + subst adds. inversion H as [|e0 o h0 os0 Ho Ht]; subst. destruct (IH _ os0 eq_refl Ht) as (os' & A & B & C). exists (o :: os'). split; [constructor; assumption|].
        unfold recorded, Stats.accepted in *. cbn [flat_map filter]. split; [rewrite B; reflexivity|]. destruct o; cbn [length]; congruence. }
  intro H. destruct (G h adds os Hf H) as (os' & A & B). exists os'. split; [exists h; split; [exact A|reflexivity]|exact B].
Qed.
