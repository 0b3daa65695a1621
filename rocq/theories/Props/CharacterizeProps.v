(** C81: what the analysis of the classifier of fields reports. *)
From Coq Require Import String List Arith NArith ZArith Bool Lia ZifyBool ZifyNat Sorting.Sorted QArith.
From Verif.Model Require Import Py Float ProtocolMeta Segmentation StatModels InfoTheory Clustering Perf DecoderBase Rectify Simulation Characterize.
From Verif.Spec Require Import Bytes Bits Stats Info RealOps SimulationSpec CharacterizeSpec.
From Verif.Proofs Require Import Base InfoP DecoderP StatP LayoutP BufModelP SaveP PredictP MeanP StatTop RectifyP DebugP SimulationP CharacterizeP.
From Verif.Props Require Import MavlinkProps StatProps RectifyProps.
Import ListNotations.
Close Scope Q_scope.

(** The truth about fields that a model finds good or bad: the fields judged, and the confusion tables against the damaged ones. *)
Definition field_truth (FO : fops) (vs : list (F FO * F FO)) (vb : list (option (F FO))) (thr : F FO) (damaged : list Z) : field_report :=
  let p i := fst (nth i vs (fz FO 0, fz FO 0)) in
  let good i := flt FO (fsub FO (fz FO 1) thr) (p i) in
  let bad i := flt FO (p i) thr in
  let n := length vs in
  FieldReport (map (above FO (fsub FO (fz FO 1) thr)) vb) (map (below FO thr) vb) (those n good) (those n bad) n (length damaged)
    (table n good (fun i => negb (member damaged i))) (table n bad (member damaged)).

(** The truth about forcing: field [i] is impossible, bit [p] belongs to an impossible field; [picture] is the word that the means make. *)
Definition force_truth (FO : fops) (vs : list (F FO * F FO)) (vb sd : list (option (F FO))) (damaged errors rx tx : list Z) (picture : list bool) : force_report FO :=
  let n := length rx in
  let field i := (fle FO (fst (nth i vs (fz FO 0, fz FO 0))) (fz FO 0) && feq FO (snd (nth i vs (fz FO 0, fz FO 0))) (fz FO 0))%bool in
  let forced p := (at_most FO (fz FO 0) (nth p vb None) && equals FO (fz FO 0) (nth p sd None))%bool in
  let flipped p := (forced p && xorb (nth p picture false) (nth p rx 0 =? 1)%Z)%bool in
  let wrong p := member errors p in
  let hurt i := member damaged i in
  let number k := fz FO (Z.of_nat k) in
  let nums m P := map Z.of_nat (those m P) in
  ForceReport FO (those (length vs) field) (those n forced)
    (nums n (fun p => forced p && wrong p)%bool) (nums n (fun p => forced p && negb (wrong p))%bool) (nums n (fun p => wrong p && negb (forced p))%bool)
    (nums (length vs) (fun i => field i && hurt i)%bool) (nums (length vs) (fun i => field i && negb (hurt i))%bool) (nums (length vs) (fun i => hurt i && negb (field i))%bool)
    (table n forced wrong) (table (length vs) field hurt)
    [number (length errors); number (how_many n forced); number (how_many n flipped); number (how_many n (fun p => flipped p && wrong p)%bool); number (how_many n (fun p => flipped p && negb (wrong p))%bool);
     if Nat.eqb (how_many n forced) 0 then fz FO 0
     else fdiv FO (number (how_many n (fun p => forced p && xorb (nth p picture false) (nth p tx 0 =? 1)%Z)%bool)) (number (how_many n forced))]
    (table n flipped wrong).

(** The classifier is judged by the true tables. *)
Theorem c81_fields : forall FO vf vs vb thr damaged, verdicts vf vs -> subset_of (length vs) damaged ->
  classifier_characterization FO vf vb thr damaged = Ok (field_truth FO vs vb thr damaged).
Proof. intros FO vf vs vb thr damaged V D. exact (classifier_run FO vf vs vb thr damaged (fz FO 0, fz FO 0) V D). Qed.
Print Assumptions c81_fields.

(** Each table counts each thing once: its first four entries sum to the number of things, and so do the last two. *)
Theorem c81_tables : forall n judged actual a b c d p q, table n judged actual = [a; b; c; d; p; q] ->
  (a + b + c + d = Z.of_nat n /\ p + q = Z.of_nat n /\ a + d = p /\ b + c = q)%Z.
Proof.
  intros n judged actual a b c d p q E. unfold table in E. cbn [map] in E. injection E as <- <- <- <- <- <-.
  assert (G : forall l, let h P := length (filter P l) in
    h (fun i => judged i && actual i)%bool + h (fun i => negb (judged i) && actual i)%bool = h actual /\
    h (fun i => judged i && negb (actual i))%bool + h (fun i => negb (judged i) && negb (actual i))%bool = h (fun i => negb (actual i)) /\
    h actual + h (fun i => negb (actual i)) = length l).
  { clear. induction l as [|i l IH]; [repeat split|]. cbv zeta in *. cbn [filter]. destruct (judged i), (actual i); cbn [andb negb length]; lia. }
  specialize (G (seq 0 n)). cbv zeta in G. rewrite seq_length in G. unfold how_many, those. lia.
Qed.
Print Assumptions c81_tables.

(** A field without a model stops the analysis; an untrained model knows no field. *)
Theorem c81_unknown : forall FO pack erf thr m s sl n k sent errors rx m1 vf vb sd, Forall (plain_in (n / 8)) s -> layout s sl -> word n sent -> draw n k errors -> received sent errors rx ->
  predict FO erf m (BBits (map (Z.eqb 1) rx)) s = Ok (m1, vf, vb, sd) -> Exists (fun e => e = None) vf -> characterize_word FO pack erf thr m s sent errors = Err TypeError.
Proof.
  intros FO pack erf thr m s sl n k sent errors rx m1 vf vb sd Ps Ly Ws Dr Rx Ep X. destruct (flip_received n k sent errors Ws Dr) as (r & Er & Rr).
  rewrite (received_unique n sent errors r rx Ws Rr Rx) in Er. destruct (damaged_fields n k errors s sl Ps Ly Dr) as (l & El & _).
  assert (Lr : length rx = n) by (destruct Rx as [[Lr _] _]; destruct Ws as [<- _]; exact Lr).
  unfold characterize_word. rewrite Er. cbn [bind]. rewrite Ep. cbn [bind]. rewrite Lr, El. cbn [bind]. rewrite (classifier_unknown FO vf vb thr _ X). reflexivity.
Qed.
Print Assumptions c81_unknown.

(** With [--learn 1] the model is a fresh one that nothing is ever added to: the first word stops the run. *)
Theorem c81_learn : forall FO pack erf thr w structures clusters sent errors words n k sl,
  Forall (plain_in (n / 8)) (hd [] structures) -> structures <> [] -> layout (hd [] structures) sl -> sl <> [] -> word n sent -> draw n k errors ->
  characterize FO pack erf thr (bm_init FO [] w) structures clusters ((sent, errors) :: words) = Err TypeError.
Proof.
  intros FO pack erf thr w structures clusters sent errors words n k sl Ps Hs Ly Hn Ws Dr. destruct structures as [|s structures]; [contradiction|]. cbn [hd] in *.
  destruct (flip_received n k sent errors Ws Dr) as (rx & Er & Rr). assert (Lr : length rx = n) by (destruct Rr as [[Lr _] _]; destruct Ws as [<- _]; exact Lr).
  assert (Lm : length (map (Z.eqb 1) rx) = n) by (rewrite map_length; exact Lr).
  destruct (predict_fresh_ok FO erf w (map (Z.eqb 1) rx) s sl) as (m1 & vf & vb & sd & Ep); [rewrite Lm; exact Ps|exact Ly|].
  unfold characterize. cbn [fold_res fst snd]. change (index (s :: structures) 0) with (Ok s). cbn [bind].
  rewrite (c81_unknown FO pack erf thr (bm_init FO [] w) s sl n k sent errors rx m1 vf vb sd Ps Ly Ws Dr Rr Ep); [reflexivity|].
  pose proof (predict_fresh FO erf w _ s m1 vf vb sd Ep) as All. assert (Lf : length vf = length sl) by (eapply predict_fields; [rewrite Lm; exact Ps|exact Ly|exact Ep]).
  destruct vf as [|e vf]; [destruct sl; [contradiction|discriminate]|]. inversion All; subst. apply Exists_cons_hd. reflexivity.
Qed.
Print Assumptions c81_learn.

(** One word: the received word, the fields that own a wrong bit, and the true tables; forcing is judged by the word of the means. *)
Theorem c81_word : forall FO pack erf w os m thr s sl n k sent errors rx m1 vf vs vb sd picture,
  window_ok w -> reachable FO pack erf w os m -> Forall (plain_in (n / 8)) s -> layout s sl ->
  word n sent -> draw n k errors -> received sent errors rx ->
  predict FO erf m (BBits (map (Z.eqb 1) rx)) s = Ok (m1, vf, vb, sd) -> verdicts vf vs ->
  value_of (bitwise_model_mean FO pack m (map Z.of_nat (seq 0 (8 * (n / 8)))) (n / 8) s) = Ok picture ->
  exists damaged, subset_of (length sl) damaged /\ StronglySorted Z.lt damaged /\
    (forall j, In (Z.of_nat j) damaged <-> exists p, In p errors /\ p < 8 * (n / 8) /\ owner sl p (Z.of_nat j)) /\
    value_of (characterize_word FO pack erf thr m s sent errors) =
    Ok (rx, damaged, field_truth FO vs vb thr damaged, force_truth FO vs vb sd damaged (map Z.of_nat errors) rx sent picture).
Proof.
  intros FO pack erf w os m thr s sl n k sent errors rx m1 vf vs vb sd picture Wo Re Ps Ly Ws Dr Rx Ep V Pic.
  destruct (reach_inv FO pack erf w os m Wo Re) as (_ & _ & Co). destruct (damaged_fields n k errors s sl Ps Ly Dr) as (l & El & Sd & So & Hd).
  destruct (flip_received n k sent errors Ws Dr) as (r & Er & Rr).
  assert (r = rx) by (exact (received_unique n sent errors r rx Ws Rr Rx)). subst r.
  assert (Wr : word n rx) by (destruct Rx as [Wr _]; destruct Ws as [<- _]; exact Wr).
  assert (Lv : length vs = length sl).
  { rewrite <- (verdicts_length FO vf vs V). eapply predict_fields; [rewrite map_length, (proj1 Wr); exact Ps|exact Ly|exact Ep]. }
  exists (unique (map (fun nf : string * nat => Z.of_nat (snd nf)) l)). split; [exact Sd|]. split; [exact So|]. split; [exact Hd|].
  unfold characterize_word. rewrite Er. cbn [bind]. rewrite Ep. cbn [bind]. rewrite (proj1 Wr). rewrite El. cbn [bind]. set (dm := unique _) in *.
  rewrite (c81_fields FO vf vs vb thr dm V) by (rewrite Lv; exact Sd). cbn [bind].
  destruct (predict_lengths _ _ _ _ _ _ _ _ _ Ep) as [L1 L2]. rewrite map_length, (proj1 Wr) in L1, L2.
  pose proof (predict_sim FO erf m _ s m1 vf vb sd Co Ep) as Sim. pose proof (bm_sim_coherent FO _ _ Sim Co) as Co1. pose proof (sim_agree FO m m1 Co Sim) as Ag.
  rewrite (mean_agree FO pack m m1 _ _ _ Ag) in Pic.
  assert (Se : subset_of n (map Z.of_nat errors)).
  { destruct Dr as (Nd & _ & B). split; [apply FinFun.Injective_map_NoDup; [intros x y; lia|exact Nd]|]. intros v Hv. apply in_map_iff in Hv. destruct Hv as (p & <- & Hp). specialize (B p Hp). lia. }
  destruct (mean_subset FO pack m1 n s picture (fun p => (at_most FO (fz FO 0) (nth p vb None) && equals FO (fz FO 0) (nth p sd None))%bool) Pic) as (m2 & l2 & Em).
  { intros p Hp. rewrite (nth_overflow vb) by lia. reflexivity. }
  pose proof (forcing_run FO pack vf vs vb sd s dm (map Z.of_nat errors) m1 rx sent n picture (fz FO 0, fz FO 0) V) as Fr. rewrite Lv in Fr.
  specialize (Fr Sd Se Wr Ws L1 L2 Pic). cbv zeta in Fr. rewrite (Fr m2 l2 Em). cbn [bind value_of]. unfold force_truth. rewrite (proj1 Wr), Lv. reflexivity.
Qed.
Print Assumptions c81_word.

(** A run: every word is judged by the model as it was at the start, with the structures in turn. *)
Theorem c81_run : forall FO pack erf w os m thr structures clusters words,
  window_ok w -> reachable FO pack erf w os m -> clusters <> 0 -> length structures = clusters ->
  characterize FO pack erf thr m structures clusters words =
  do! rows <- map_res (fun iw => value_of (characterize_word FO pack erf thr m (nth (fst iw mod clusters) structures []) (fst (snd iw)) (snd (snd iw)))) (combine (seq 0 (length words)) words) in
  Ok (rows, length words mod clusters).
Proof. intros FO pack erf w os m thr structures clusters words Wo Re. destruct (reach_inv FO pack erf w os m Wo Re) as (_ & _ & Co). apply run_rows. exact Co. Qed.
Print Assumptions c81_run.

(** The column cluster_label has one value, that of the word after the last: with several clusters it is wrong for some word. *)
Theorem c81_label : forall FO pack erf w os m thr structures clusters words rows label,
  window_ok w -> reachable FO pack erf w os m -> length structures = clusters -> 2 <= clusters -> 2 <= length words ->
  characterize FO pack erf thr m structures clusters words = Ok (rows, label) ->
  length rows = length words /\ label = length words mod clusters /\ exists i, i < length rows /\ label <> i mod clusters.
Proof.
  intros FO pack erf w os m thr structures clusters words rows label Wo Re Ls Hc Hw E. rewrite (c81_run FO pack erf w os m thr structures clusters words Wo Re) in E by (auto; lia).
  destruct (map_res _ (combine (seq 0 (length words)) words)) as [l|] eqn:M; cbn [bind] in E; [|discriminate]. injection E as <- <-.
  assert (L : length l = length words).
  { apply map_res_length in M. rewrite combine_length, seq_length in M. lia. }
  split; [exact L|]. split; [reflexivity|]. rewrite L. destruct (Nat.eq_dec (length words mod clusters) 0) as [K|K].
  - exists 1. split; [lia|]. rewrite K. rewrite Nat.mod_small by lia. lia.
  - exists 0. split; [lia|]. rewrite Nat.mod_0_l by lia. exact K.
Qed.
Print Assumptions c81_label.

(** One stored heartbeat; a word with three wrong bits, and a word with another custom_mode and no wrong bit. *)
Definition ex_word (b : bytes) : list Z := map (fun x : bool => if x then 1%Z else 0%Z) (bytes_bits b).
Definition ex_fields (r : res (list (list Z * list Z * field_report * force_report Qops) * nat))
  : option (list (list Z * (list nat * list nat * list Z * list Z) * (list nat * list nat * list Z * list Z * list Q * list Z)) * nat) :=
  match r with
  | Ok (rows, label) => Some (map (fun row => let '(_, damaged, cl, fo) := row in
      (damaged, (fr_good cl, fr_bad cl, fr_good_performance cl, fr_bad_performance cl),
       (fo_fields Qops fo, fo_bits Qops fo, fo_bits_performance Qops fo, fo_fields_performance Qops fo, fo_quality Qops fo, fo_flips_performance Qops fo))) rows, label)
  | Err _ => None
  end.
Definition ex_run (m : buffer_model Qops) :=
  ex_fields (characterize Qops no_pack (fun x => x) (1 # 10)%Q m [[(0, 0%N)]; [(0, 0%N)]] 2 [(ex_word (hb ++ [0%N]), [2; 53; 140]); (ex_word (set_nth hb 6 7%N ++ [0%N]), [])]).
Example c81_ex : ex_run one_heartbeat = Some (
  [([0; 6]%Z, ([1; 2; 3; 4; 5; 7; 8; 9; 10; 11], [0; 6], [10; 0; 2; 0; 10; 2]%Z, [2; 0; 10; 0; 2; 10]%Z),
    ([0; 6], seq 0 8 ++ seq 48 32, [2; 38; 103; 1; 3; 141]%Z, [2; 0; 10; 0; 2; 10]%Z, [3; 40; 2; 2; 0; 0]%Q, [2; 0; 141; 1; 3; 141]%Z));
   ([], ([0; 1; 2; 3; 4; 5; 7; 8; 9; 10; 11], [6], [11; 0; 0; 1; 12; 0]%Z, [0; 1; 11; 0; 0; 12]%Z),
    ([6], seq 48 32, [0; 32; 112; 0; 0; 144]%Z, [0; 1; 11; 0; 0; 12]%Z, [0; 32; 1; 0; 1; 1 # 32]%Q, [0; 1; 143; 0; 0; 144]%Z))], 0).
Proof. vm_compute. reflexivity. Qed.
Example c81_ex_learn : ex_run (bm_init Qops [] None) = None.
Proof. vm_compute. reflexivity. Qed.
Example c81_ex_hypotheses : exists os, window_ok None /\ reachable Qops no_pack (fun x => x) None os one_heartbeat /\ Forall (plain_in (144 / 8)) [(0, 0%N)] /\ layout [(0, 0%N)] hb_slots /\ word 144 (ex_word (hb ++ [0%N])) /\ draw 144 3 [2; 53; 140] /\ owner hb_slots 53 6%Z /\ owner hb_slots 2 0%Z /\ owner hb_slots 140 (-1)%Z.
Proof.
  destruct hb_class as (c & M & Na & Ws & Ms). assert (Ly : layout [(0, 0%N)] hb_slots) by (rewrite <- Ms, <- (app_nil_r (msg_slots 0 c)); econstructor; [exact M|constructor]).
  assert (Pl : Forall (plain_in 18) [(0, 0%N)]) by (apply Forall_cons; [|apply Forall_nil]; exists c; cbn [fst snd]; rewrite Ws; split; [exact M|split; [exact Na|lia]]).
  assert (Bh : is_bytes (hb ++ [0%N])) by (unfold is_bytes; repeat constructor).
  exists [Some (map (slot_sample (hb ++ [0%N])) hb_slots)]. split; [exact I|].
  split; [eexists; split; [|reflexivity]; constructor; [|constructor]; apply (oc_accepted (BBytes (hb ++ [0%N])) (hb ++ [0%N]) [(0, 0%N)]); [constructor; exact Bh|exact Pl|exact Ly]|].
  split; [exact Pl|]. split; [exact Ly|].
  split; [split; [reflexivity|]; apply Forall_forall; intros x Hx; apply in_map_iff in Hx; destruct Hx as ([|] & <- & _); unfold bit; auto|].
  split; [split; [repeat constructor; cbn; lia|split; [reflexivity|intros p H; cbn in H; lia]]|].
  split; [right; exists (firstn 6 hb_slots), (nth 6 hb_slots (Slot ""%string ""%string 0 0)), (skipn 7 hb_slots)|split; [right; exists [], (nth 0 hb_slots (Slot ""%string ""%string 0 0)), (skipn 1 hb_slots)|left]].
  - split; [reflexivity|]. split; [reflexivity|]. split; [cbv; lia|]. intros y H. cbn in H. repeat (destruct H as [<- | H]; [cbv; lia|]). destruct H.
  - split; [reflexivity|]. split; [reflexivity|]. split; [cbv; lia|]. intros y H. cbn in H. repeat (destruct H as [<- | H]; [cbv; lia|]). destruct H.
  - split; [reflexivity|]. intros y H. cbn in H. repeat (destruct H as [<- | H]; [cbv; lia|]). destruct H.
Qed.
