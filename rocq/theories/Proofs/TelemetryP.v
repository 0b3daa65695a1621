(** Telemetry buffers made from a recording. *)
From Coq Require Import String Ascii List Arith NArith ZArith Bool Lia ZifyBool ZifyNat ZifyN.
From Verif.Model Require Import Py Dialect ProtocolMeta Struct Crc Mavlink Segmentation MsgCreator.
From Verif.Spec Require Import Bytes Bits Header CrcSpec Frame TelemetrySpec.
From Verif.Proofs Require Import Base BitOpsP DialectP HeaderP MavlinkP FieldsP PackP SendP SegStream SegMore.
Import ListNotations.
Local Open Scope list_scope.
Local Notation length := List.length.

Lemma first_true_spec t : forall times k i, first_from times t i -> first_true (map (fun x => Z.leb t x) times) k = k + i.
Proof.
  induction times as [|x times IH]; intros k i (H1 & H2 & H3); [cbn in H1; lia|]. cbn [map first_true].
  destruct (Z.leb_spec t x).
  - destruct i as [|i]; [lia|]. specialize (H3 0 ltac:(lia)). cbn [nth] in H3. lia.
  - destruct i as [|i]; [cbn [nth] in H2; lia|]. rewrite (IH (S k) i); [lia|]. split; [cbn in H1; lia|]. split; [exact H2|].
    intros j Hj. exact (H3 (S j) ltac:(lia)).
Qed.
Lemma first_true_none t : forall times k, (forall x, In x times -> (x < t)%Z) -> first_true (map (fun x => Z.leb t x) times) k = 0.
Proof.
  induction times as [|x times IH]; intros k H; [reflexivity|]. cbn [map first_true]. destruct (Z.leb_spec t x); [specialize (H x (or_introl eq_refl)); lia|].
  apply IH. intros y Hy. apply H. right. exact Hy.
Qed.
Lemma sample_chosen times t i : chosen times t i -> sample_at times t = Ok i.
Proof.
  intros [H | [[Hn H] ->]].
  - unfold sample_at. destruct times as [|x l]; [destruct H; cbn in *; lia|]. rewrite (first_true_spec t (x :: l) 0 i H). reflexivity.
  - unfold sample_at. destruct times as [|x l]; [contradiction|]. rewrite first_true_none by exact H. reflexivity.
Qed.
Lemma chosen_exists t : forall times, times <> [] -> exists i, chosen times t i.
Proof.
  intros times Hn. assert (A : (exists i, first_from times t i) \/ forall x, In x times -> (x < t)%Z).
  { clear Hn. induction times as [|x l IH]; [right; intros x []|]. destruct (Z.leb_spec t x) as [L|L].
    - left. exists 0. split; [cbn; lia|]. split; [exact L|]. lia.
    - destruct IH as [(i & H1 & H2 & H3)|H].
      + left. exists (S i). split; [cbn; lia|]. split; [exact H2|]. intros [|j] Hj; [exact L|]. apply H3. lia.
      + right. intros y [<-|Hy]; auto. }
  destruct A as [[i A]|A]; [exists i; left; exact A|exists 0; right; repeat split; auto].
Qed.
Lemma chosen_lt times t i : chosen times t i -> i < length times.
Proof. intros [[H _]|[[H _] ->]]; [exact H|]. destruct times; [contradiction|cbn; lia]. Qed.

Fixpoint no_dup (l : list string) : bool := match l with [] => true | x :: r => negb (existsb (String.eqb x) r) && no_dup r end.
Lemma no_dup_spec : forall l, no_dup l = true -> NoDup l.
Proof.
  induction l as [|x r IH]; intros H; [constructor|]. cbn [no_dup] in H. apply andb_true_iff in H as [H1 H2]. constructor; [|auto].
  intros Hi. apply negb_true_iff in H1. assert (existsb (String.eqb x) r = true) by (apply existsb_exists; exists x; split; [exact Hi|apply String.eqb_refl]). congruence.
Qed.
Definition order_ok (id : N) (order : list nat) (c : msg_class) : bool :=
  (String.eqb (nth 0 (mc_fieldnames c) ""%string) "time_boot_ms" && Nat.eqb (S (length order)) (f_count c) && no_dup ("time_boot_ms"%string :: columns id) &&
   forallb (fun f => match nth_error (columns id) (nth f order 0) with Some n => String.eqb n (nth (S f) (mc_fieldnames c) ""%string) | None => false end)
           (seq 0 (length order)) &&
   forallb (fun f => negb (String.eqb (f_type c f) "char") && Nat.eqb (f_array c f) 0) (seq 0 (f_count c)))%bool.

Lemma map_res_exact {A B} (f : A -> res B) (g : nat -> B) : forall l a, (forall k, k < length l -> exists x, nth_error l k = Some x /\ f x = Ok (g (a + k))) ->
  map_res f l = Ok (map g (seq a (length l))).
Proof.
  induction l as [|x l IH]; intros a H; [reflexivity|]. cbn [map_res length seq map].
  destruct (H 0 ltac:(cbn; lia)) as (y & Ey & Hy). cbn in Ey. injection Ey as <-. rewrite Nat.add_0_r in Hy. rewrite Hy. cbn [bind]. rewrite (IH (S a)).
  - reflexivity.
  - intros k Hk. destruct (H (S k) ltac:(cbn; lia)) as (y & Ey & Hy'). exists y. split; [exact Ey|]. rewrite Hy'. f_equal. f_equal. lia.
Qed.

Lemma choose_values (P : nat -> pyval -> Prop) n : (forall f, f < n -> exists v, P f v) -> exists g, forall f, f < n -> P f (g f).
Proof.
  induction n as [|n IH]; intros H; [exists (fun _ => VInt 0); lia|]. destruct IH as [g Hg]; [intros f Hf; apply H; lia|].
  destruct (H n ltac:(lia)) as [v Hv]. exists (fun f => if Nat.eqb f n then v else g f). intros f Hf. destruct (Nat.eqb_spec f n); [subst; exact Hv|apply Hg; lia].
Qed.

Lemma arguments_spec id order c s t i : order_ok id order c = true -> is_msg id c -> chosen (s_time s) t i ->
  (forall f, f < f_count c -> exists v, recorded id s i (nth f (mc_fieldnames c) ""%string) v /\ c_ok (f_type c f) v) ->
  exists fs, arguments s order t = Ok fs /\ fits_all c fs /\
    forall f, f < f_count c -> exists v, recorded id s i (nth f (mc_fieldnames c) ""%string) v /\ nth f fs (FText []) = FOne v.
Proof.
  intros O M C U. unfold order_ok in O. rewrite !andb_true_iff in O. destruct O as ((((O1 & O2) & O3) & O4) & O5).
  apply String.eqb_eq in O1. apply Nat.eqb_eq in O2. pose proof (no_dup_spec _ O3) as Nd. clear O3.
  inversion Nd as [|? ? Nt Nd']; subst. rewrite forallb_forall in O4, O5.
  destruct (choose_values _ _ U) as [g G]. pose proof (chosen_lt _ _ _ C) as Li.
  exists (map (fun f => FOne (g f)) (seq 0 (f_count c))).
  assert (N : forall f, f < f_count c -> nth f (map (fun f => FOne (g f)) (seq 0 (f_count c))) (FText []) = FOne (g f)).
  { intros f Hf. rewrite (nth_indep _ _ (FOne (g 0))) by (rewrite map_length, seq_length; exact Hf).
    rewrite (map_nth (fun f => FOne (g f))), seq_nth by exact Hf. reflexivity. }
  assert (T : nth_error (s_time s) i = Some (nth i (s_time s) 0%Z)) by (apply nth_error_nth'; exact Li).
  assert (G0 : g 0 = VInt (nth i (s_time s) 0%Z)).
  { destruct (G 0 ltac:(lia)) as [[(_ & x & Ex & Ev)|(k & col & Ek & _)] _].
    - rewrite Ev. rewrite T in Ex. injection Ex as <-. reflexivity.
    - rewrite O1 in Ek. exfalso. apply Nt. apply (nth_error_In _ k). exact Ek. }
  split; [|split].
  - unfold arguments. rewrite (sample_chosen _ _ _ C). cbn [bind]. unfold index at 1. rewrite T. cbn [bind].
    rewrite (map_res_exact _ g order 1).
    + cbn [bind]. rewrite <- O2. cbn [seq map]. rewrite G0, map_map. reflexivity.
    + intros k Hk. assert (Hk' : nth_error order k = Some (nth k order 0)) by (apply nth_error_nth'; exact Hk). eexists. split; [exact Hk'|].
      specialize (O4 k ltac:(apply in_seq; lia)). cbv beta in O4. destruct (nth_error (columns id) (nth k order 0)) as [n|] eqn:En; [|discriminate].
      apply String.eqb_eq in O4. destruct (G (S k) ltac:(lia)) as [[(E & _)|(k' & col & Ek & Ec & Ev)] _].
      * exfalso. apply Nt. rewrite <- E, <- O4. apply (nth_error_In _ _ En).
      * assert (nth k order 0 = k').
        { apply (proj1 (NoDup_nth_error _) Nd'); [apply nth_error_Some; rewrite En; discriminate|]. rewrite En, Ek, O4. reflexivity. }
        subst k'. unfold index. rewrite Ec. cbn [bind]. rewrite Ev. reflexivity.
  - split; [rewrite map_length, seq_length; reflexivity|]. intros f Hf. rewrite N by exact Hf. specialize (O5 f ltac:(apply in_seq; lia)). cbv beta in O5.
    apply andb_true_iff in O5 as [O5 O6]. apply negb_true_iff in O5. unfold fits. rewrite O5, O6. exists (g f). split; [reflexivity|]. apply G. exact Hf.
  - intros f Hf. exists (g f). split; [apply G; exact Hf|]. apply N. exact Hf.
Qed.

Lemma add_spec text id order s t b q : match get_class id with Some c => order_ok id order c | None => false end = true -> usable id s t -> in_byte q ->
  exists i c fs f d, chosen (s_time s) t i /\ is_msg id c /\ fits_all c fs /\ message_pack (Msg c fs) q 1 1 = Ok f /\
    add_message id order s t (b, q) = Ok (b ++ f, ((q + 1) mod 256)%Z) /\ is_bytes f /\ length f = 8 + wire_size c /\ nth 5 f 0%N = id /\
    decode text f = Ok d /\ d_seq d = Z.to_N q /\ d_sys d = 1%N /\ d_comp d = 1%N /\ shows_row id s i d.
Proof.
  intros O (i & c & C & M & U) Bq. pose proof M as M'. apply get_class_spec in M'. rewrite M' in O.
  destruct (arguments_spec id order c s t i O M C U) as (fs & A & F & R). destruct M as [Hc Hid].
  destruct (pack_decode_sent text c fs q 1 1 Hc F Bq ltac:(unfold in_byte; lia) ltac:(unfold in_byte; lia)) as (f & d & P & B & L & Fr & D & S).
  exists i, c, fs, f, d. split; [exact C|]. split; [split; assumption|]. split; [exact F|]. split; [exact P|].
  split; [unfold add_message; rewrite A; cbn [bind]; rewrite M'; cbn [snd fst]; rewrite P; reflexivity|]. split; [exact B|]. split; [exact L|].
  destruct Fr as [[_ Fr] _]. split; [rewrite <- Hid; symmetry; exact Fr|].
  destruct S as (S1 & S2 & S3 & S4 & S5 & S6 & S7). split; [exact D|]. do 3 (split; [assumption|]).
  split; [rewrite S2; exact Hid|]. rewrite S1, S7, map_length, seq_length. split; [reflexivity|]. intros k Hk. destruct (R k Hk) as (v & Rv & Nv). exists v.
  split; [exact Rv|]. rewrite (nth_indep _ _ (returned text c 0 (nth 0 fs (FText [])))) by (rewrite map_length, seq_length; exact Hk).
  rewrite (map_nth (fun i => returned text c i (nth i fs (FText [])))), seq_nth by exact Hk. cbn [plus]. rewrite Nv. destruct v; try reflexivity.
  destruct F as [_ F]. specialize (F k Hk). rewrite Nv in F. unfold order_ok in O. rewrite !andb_true_iff in O. destruct O as [_ O]. rewrite forallb_forall in O.
  specialize (O k ltac:(apply in_seq; unfold f_count; lia)). cbv beta in O. apply andb_true_iff in O as [O5 O6]. apply negb_true_iff in O5.
  unfold fits in F. rewrite O5, O6 in F. destruct F as (x & Ex & Hx). injection Ex as <-. destruct Hx.
Qed.

(** The five messages. *)
Definition a_frame (text : bytes -> list N) (id : N) (s : series) (t q : Z) (n : nat) (f : bytes) : Prop :=
  is_bytes f /\ length f = n /\ nth 5 f 0%N = id /\
  (exists c fs, In c mavlink_classes /\ no_arrays c /\ fits_all c fs /\ message_pack (Msg c fs) q 1 1 = Ok f) /\
  exists i d, chosen (s_time s) t i /\ decode text f = Ok d /\ d_seq d = Z.to_N q /\ d_sys d = 1%N /\ d_comp d = 1%N /\ shows_row id s i d.

Definition size_ok (id : N) (order : list nat) (n : nat) : bool :=
  match get_class id with
  | Some c => (order_ok id order c && Nat.eqb (8 + wire_size c) n && forallb (fun a => Nat.eqb a 0) (mc_array_lengths c))%bool | None => false end.
Lemma add_frame text id order n s t b q : size_ok id order n = true -> usable id s t -> in_byte q ->
  exists f, a_frame text id s t q n f /\ add_message id order s t (b, q) = Ok (b ++ f, ((q + 1) mod 256)%Z).
Proof.
  intros O U Bq. unfold size_ok in O. destruct (get_class id) as [c|] eqn:Ec; [|discriminate]. rewrite !andb_true_iff in O. destruct O as [[O1 O2] O3].
  destruct (add_spec text id order s t b q) as (i & c' & fs & f & d & H1 & H2 & H3 & H4 & H5 & H6 & H7 & H8 & H9 & H10 & H11 & H12 & H13); [rewrite Ec; exact O1|exact U|exact Bq|].
  assert (c' = c) by (apply get_class_spec in H2; rewrite Ec in H2; injection H2 as ->; reflexivity). subst c'.
  exists f. split; [|exact H5]. split; [exact H6|]. split; [rewrite H7; apply Nat.eqb_eq; exact O2|]. split; [exact H8|]. split.
  - exists c, fs. split; [apply H2|]. split; [|auto]. apply Forall_forall. intros a Ha. rewrite forallb_forall in O3. apply Nat.eqb_eq. apply O3. exact Ha.
  - exists i, d. repeat (split; [assumption|]). assumption.
Qed.

Definition seq_at (q : Z) (k : nat) : Z := ((q + Z.of_nat k) mod 256)%Z.
Lemma seq_at_0 q : in_byte q -> seq_at q 0 = q.
Proof. intros H. unfold seq_at, in_byte in *. rewrite Z.add_0_r. apply Z.mod_small. lia. Qed.
Lemma seq_at_S q k : ((seq_at q k + 1) mod 256)%Z = seq_at q (S k).
Proof. unfold seq_at. rewrite Zplus_mod_idemp_l. f_equal. lia. Qed.
Lemma seq_at_byte q k : in_byte (seq_at q k).
Proof. unfold seq_at, in_byte. pose proof (Z.mod_pos_bound (q + Z.of_nat k) 256 ltac:(lia)). lia. Qed.
Lemma seq_at_at q j k : seq_at (seq_at q j) k = seq_at q (j + k).
Proof. unfold seq_at. rewrite Zplus_mod_idemp_l. f_equal. lia. Qed.

Lemma telemetry_frames text r q t : in_byte q -> usable_all r t ->
  exists f1 f2 f3 f4 f5, telemetry r q t = Ok (f1 ++ f2 ++ f3 ++ f4 ++ f5, seq_at q 5) /\
    a_frame text 33 (r_position r) t (seq_at q 0) 52 f1 /\ a_frame text 234 (r_pinger r) t (seq_at q 1) 20 f2 /\
    a_frame text 30 (r_attitude r) t (seq_at q 2) 36 f3 /\ a_frame text 212 (r_svs r) t (seq_at q 3) 27 f4 /\
    a_frame text 218 (r_chamber r) t (seq_at q 4) 18 f5.
Proof.
  intros Bq (U1 & U2 & U3 & U4 & U5). unfold telemetry.
  destruct (add_frame text 33 [0; 1; 2; 3; 4; 5; 6; 7; 8; 9] 52 (r_position r) t [] (seq_at q 0)) as (f1 & F1 & E1); [vm_compute; reflexivity|exact U1|apply seq_at_byte|].
  rewrite seq_at_S in E1. rewrite seq_at_0 in E1 by exact Bq. unfold bytes in *. rewrite E1. cbn [bind].
  destruct (add_frame text 234 [0; 1] 20 (r_pinger r) t ([] ++ f1) (seq_at q 1)) as (f2 & F2 & E2); [vm_compute; reflexivity|exact U2|apply seq_at_byte|].
  rewrite seq_at_S in E2. unfold bytes in *. rewrite E2. cbn [bind].
  destruct (add_frame text 30 [0; 1; 2; 3; 4; 5] 36 (r_attitude r) t (([] ++ f1) ++ f2) (seq_at q 2)) as (f3 & F3 & E3); [vm_compute; reflexivity|exact U3|apply seq_at_byte|].
  rewrite seq_at_S in E3. unfold bytes in *. rewrite E3. cbn [bind].
  destruct (add_frame text 212 [0; 1; 3; 4; 2] 27 (r_svs r) t ((([] ++ f1) ++ f2) ++ f3) (seq_at q 3)) as (f4 & F4 & E4); [vm_compute; reflexivity|exact U4|apply seq_at_byte|].
  rewrite seq_at_S in E4. unfold bytes in *. rewrite E4. cbn [bind].
  destruct (add_frame text 218 [2; 3; 0; 1] 18 (r_chamber r) t (((([] ++ f1) ++ f2) ++ f3) ++ f4) (seq_at q 4)) as (f5 & F5 & E5); [vm_compute; reflexivity|exact U5|apply seq_at_byte|].
  rewrite seq_at_S in E5. unfold bytes in *. rewrite E5. exists f1, f2, f3, f4, f5. rewrite <- !app_assoc. auto 7.
Qed.

Lemma slice_1 {A} (a b : list A) n : length a = n -> slice (a ++ b) 0 n = a.
Proof. intros <-. unfold slice. rewrite Nat.sub_0_r. cbn [skipn]. rewrite firstn_app, Nat.sub_diag, firstn_all. apply app_nil_r. Qed.
Lemma slice_mid {A} (a b c : list A) i j : length a = i -> i + length b = j -> slice (a ++ b ++ c) i j = b.
Proof. intros <- <-. apply slice_app_mid. Qed.
Lemma slice_last {A} (a b : list A) i j : length a = i -> i + length b = j -> slice (a ++ b) i j = b.
Proof. intros H1 H2. rewrite <- (app_nil_r b) at 1. apply slice_mid; assumption. Qed.

Lemma slices_of {A} (f1 f2 f3 f4 f5 : list A) : length f1 = 52 -> length f2 = 20 -> length f3 = 36 -> length f4 = 27 -> length f5 = 18 ->
  let b := f1 ++ f2 ++ f3 ++ f4 ++ f5 in
  slice b 0 52 = f1 /\ slice b 52 72 = f2 /\ slice b 72 108 = f3 /\ slice b 108 135 = f4 /\ slice b 135 153 = f5.
Proof.
  intros H1 H2 H3 H4 H5 b. subst b. split; [apply slice_1; exact H1|]. split; [apply slice_mid; lia|].
  split; [rewrite (app_assoc f1); apply slice_mid; rewrite ?app_length; lia|].
  split; [rewrite (app_assoc f1), (app_assoc (f1 ++ f2)); apply slice_mid; rewrite ?app_length; lia|].
  rewrite (app_assoc f1), (app_assoc (f1 ++ f2)), (app_assoc ((f1 ++ f2) ++ f3)). apply slice_last; rewrite ?app_length; lia.
Qed.

Definition good_part (text : bytes -> list N) (r : recording) (t q : Z) (b : bytes) (k : nat) (m : N * series * nat * nat) : Prop :=
  match m with (id, s, start, stop) =>
    exists i d, chosen (s_time s) t i /\ decode text (slice b start stop) = Ok d /\ d_seq d = Z.to_N ((q + Z.of_nat k) mod 256) /\
      d_sys d = 1%N /\ d_comp d = 1%N /\ shows_row id s i d end.

Lemma telemetry_parts text r q t : in_byte q -> usable_all r t ->
  exists b, telemetry r q t = Ok (b, ((q + 5) mod 256)%Z) /\ is_bytes b /\ length b = 153 /\
    forall k m, nth_error (layout r) k = Some m -> good_part text r t q b k m.
Proof.
  intros Bq U. destruct (telemetry_frames text r q t Bq U) as (f1 & f2 & f3 & f4 & f5 & E & (B1 & L1 & _ & _ & F1) & (B2 & L2 & _ & _ & F2) & (B3 & L3 & _ & _ & F3) & (B4 & L4 & _ & _ & F4) & (B5 & L5 & _ & _ & F5)).
  exists (f1 ++ f2 ++ f3 ++ f4 ++ f5). split; [exact E|]. split; [unfold is_bytes in *; rewrite !Forall_app; auto|]. split; [rewrite !app_length; lia|].
  destruct (slices_of f1 f2 f3 f4 f5 L1 L2 L3 L4 L5) as (S1 & S2 & S3 & S4 & S5). intros k m Hk. unfold layout in Hk.
  do 5 (destruct k as [|k]; [cbn in Hk; injection Hk as <-; unfold good_part; rewrite ?S1, ?S2, ?S3, ?S4, ?S5; assumption|]). destruct k; discriminate.
Qed.

Lemma telemetry_segments text r q t : in_byte q -> usable_all r t ->
  exists b p v, telemetry r q t = Ok (b, ((q + 5) mod 256)%Z) /\
    segment_buffer (decode text) b = Ok (p, v, [(0, 33%N); (52, 234%N); (72, 30%N); (108, 212%N); (135, 218%N)]) /\
    length p = 153 /\ ~ In UNKNOWN p /\ v = repeat 1%Z (8 * 153).
Proof.
  intros Bq U. destruct (telemetry_frames text r q t Bq U) as (f1 & f2 & f3 & f4 & f5 & E & (B1 & L1 & I1 & (c1 & fs1 & P1) & _) & (B2 & L2 & I2 & (c2 & fs2 & P2) & _) & (B3 & L3 & I3 & (c3 & fs3 & P3) & _) & (B4 & L4 & I4 & (c4 & fs4 & P4) & _) & (B5 & L5 & I5 & (c5 & fs5 & P5) & _)).
  destruct (stream_recovered text [f1; f2; f3; f4; f5]) as (p & v & s & R1 & R2 & R3 & R4 & R5 & R6 & _).
  { repeat apply Forall_cons; try apply Forall_nil; do 3 eexists; exists 1%Z, 1%Z; eassumption. }
  assert (C : concat [f1; f2; f3; f4; f5] = f1 ++ f2 ++ f3 ++ f4 ++ f5) by (cbn [concat]; rewrite app_nil_r; reflexivity). rewrite C in *.
  assert (Lc : length (f1 ++ f2 ++ f3 ++ f4 ++ f5) = 153) by (rewrite !app_length; lia). rewrite Lc in *.
  exists (f1 ++ f2 ++ f3 ++ f4 ++ f5), p, v. split; [exact E|]. split; [|auto]. rewrite R1. do 2 f_equal.
  cbn [length] in R2. do 5 (destruct s as [|? s]; [discriminate|]). destruct s; [|discriminate].
  assert (Q : forall m, m < 5 -> nth m [p0; p1; p2; p3; p4] (0, 0%N) = nth m [(0, 33%N); (52, 234%N); (72, 30%N); (108, 212%N); (135, 218%N)] (0, 0%N)).
  { intros m Hm. rewrite R3 by exact Hm. do 5 (destruct m as [|m]; [cbn [firstn concat nth length app]; rewrite ?app_length, ?L1, ?L2, ?L3, ?L4, ?I1, ?I2, ?I3, ?I4, ?I5; reflexivity|]). lia. }
  pose proof (Q 0 ltac:(lia)) as Q0. pose proof (Q 1 ltac:(lia)) as Q1. pose proof (Q 2 ltac:(lia)) as Q2. pose proof (Q 3 ltac:(lia)) as Q3. pose proof (Q 4 ltac:(lia)) as Q4.
  cbn [nth] in Q0, Q1, Q2, Q3, Q4. subst. reflexivity.
Qed.

(** The loops. *)
Lemma buffers_run r : forall times q, (forall t, In t times -> usable_all r t) -> in_byte q ->
  exists out, buffers r times q = Ok (out, seq_at q (5 * length times)) /\ map fst out = times /\
    forall k t b, nth_error out k = Some (t, b) -> telemetry r (seq_at q (5 * k)) t = Ok (b, seq_at q (5 * k + 5)).
Proof.
  intros times q U Bq. unfold buffers.
  assert (G : forall ts acc q0, (forall t, In t ts -> usable_all r t) -> in_byte q0 ->
     exists out, fold_res (fun (st : list (Z * bytes) * Z) t => do! (b, q) <- telemetry r (snd st) t in Ok (fst st ++ [(t, b)], q)) ts (acc, q0) =
                   Ok (acc ++ out, seq_at q0 (5 * length ts)) /\ map fst out = ts /\
       forall k t b, nth_error out k = Some (t, b) -> telemetry r (seq_at q0 (5 * k)) t = Ok (b, seq_at q0 (5 * k + 5))).
  { induction ts as [|t ts IH]; intros acc q0 Ut B0.
    - exists []. cbn [fold_res length]. rewrite app_nil_r, Nat.mul_0_r, seq_at_0 by exact B0. split; [reflexivity|]. split; [reflexivity|]. intros [|k]; discriminate.
    - destruct (telemetry_frames (fun _ => []) r q0 t B0 (Ut t (or_introl eq_refl))) as (f1 & f2 & f3 & f4 & f5 & E & _). cbn [fold_res snd fst].
      rewrite E. cbn [bind]. destruct (IH (acc ++ [(t, f1 ++ f2 ++ f3 ++ f4 ++ f5)]) (seq_at q0 5)) as (out & E2 & M & K); [intros x Hx; apply Ut; right; exact Hx|apply seq_at_byte|].
      exists ((t, f1 ++ f2 ++ f3 ++ f4 ++ f5) :: out). unfold bytes in *. rewrite E2, <- app_assoc, seq_at_at. split; [cbn [app length]; do 3 f_equal; lia|]. split; [cbn [map fst]; rewrite M; reflexivity|].
      intros [|k] t' b' Hk.
      + cbn in Hk. injection Hk as <- <-. rewrite Nat.mul_0_r, seq_at_0 by exact B0. exact E.
      + specialize (K k t' b' Hk). rewrite !seq_at_at in K. replace (5 * S k) with (5 + 5 * k) by lia. rewrite K. do 3 f_equal. }
  destruct (G times [] q U Bq) as (out & E & H). exists out. split; [exact E|exact H].
Qed.

Lemma nth_error_ge {A} (l : list A) k : length l <= k -> nth_error l k = None.
Proof. apply nth_error_None. Qed.

Lemma arange_every a b step : (0 < step)%Z -> every a b step (arange a b step).
Proof.
  intros S k x. unfold arange. set (n := Z.to_nat ((b - a + step - 1) / step)).
  assert (N : forall k, k < n <-> (a + Z.of_nat k * step < b)%Z).
  { intros j. unfold n. pose proof (Z.div_mod (b - a + step - 1) step ltac:(lia)) as D. pose proof (Z.mod_pos_bound (b - a + step - 1) step S) as M.
    set (d := ((b - a + step - 1) / step)%Z) in *. split; intros H.
    - assert (Z.of_nat j + 1 <= d)%Z by lia. nia.
    - destruct (Z_lt_le_dec (Z.of_nat j) d); [lia|]. nia. }
  destruct (Nat.lt_ge_cases k n) as [L|L].
  - assert (Q : nth_error (seq 0 n) k = Some (nth k (seq 0 n) 0)) by (apply nth_error_nth'; rewrite seq_length; exact L). rewrite nth_error_map, Q. rewrite seq_nth by exact L. cbn [option_map plus].
    split; [intros H; injection H as <-; split; [reflexivity|apply N; exact L]|]. intros [-> _]. reflexivity.
  - rewrite nth_error_ge by (rewrite map_length, seq_length; exact L). split; [discriminate|]. intros [-> H]. apply N in H. lia.
Qed.

Lemma all_run r a b : nth_error (s_time (r_position r)) 0 = Some a -> index_z (s_time (r_position r)) 16521 = Ok b ->
  (forall d t, In d delays -> In t (arange a b d) -> usable_all r t) ->
  exists out, all_msgs r = Ok out /\ map fst out = delays /\
    (forall d l, In (d, l) out -> map fst l = arange a b d) /\
    forall g t buf, nth_error (concat (map snd out)) g = Some (t, buf) -> telemetry r (seq_at 0 (5 * g)) t = Ok (buf, seq_at 0 (5 * g + 5)).
Proof.
  intros Ha Hb U. unfold all_msgs.
  assert (V : map_res (fun d => do! v <- time_vec r d in Ok (d, v)) delays = Ok (map (fun d => (d, arange a b d)) delays)).
  { apply map_res_ok. intros d _. unfold time_vec. assert (Ia : index_z (s_time (r_position r)) 0 = Ok a).
    { destruct (s_time (r_position r)) as [|x l]; [discriminate|]. cbn in Ha. injection Ha as ->. unfold index_z. cbn [length].
      destruct (Z.ltb_spec 0 (- Z.of_nat (S (length l)))); [lia|]. reflexivity. }
    rewrite Ia, Hb. reflexivity. }
  rewrite V. cbn [bind]. clear V.
  assert (G : forall ds acc n, (forall d t, In d ds -> In t (arange a b d) -> usable_all r t) -> length (concat (map snd acc)) = n ->
     (forall g t buf, nth_error (concat (map snd acc)) g = Some (t, buf) -> telemetry r (seq_at 0 (5 * g)) t = Ok (buf, seq_at 0 (5 * g + 5))) ->
     exists out q, fold_res (fun (st : list (Z * list (Z * bytes)) * Z) dv => do! (l, q) <- buffers r (snd dv) (snd st) in Ok (fst st ++ [(fst dv, l)], q))
                            (map (fun d => (d, arange a b d)) ds) (acc, seq_at 0 (5 * n)) = Ok (acc ++ out, q) /\ map fst out = ds /\
       (forall d l, In (d, l) out -> map fst l = arange a b d) /\
       forall g t buf, nth_error (concat (map snd (acc ++ out))) g = Some (t, buf) -> telemetry r (seq_at 0 (5 * g)) t = Ok (buf, seq_at 0 (5 * g + 5))).
  { induction ds as [|d ds IH]; intros acc n Ud Ln Ka.
    - exists [], (seq_at 0 (5 * n)). cbn [map fold_res]. rewrite app_nil_r. split; [reflexivity|]. split; [reflexivity|]. split; [intros ? ? []|exact Ka].
    - cbn [map fold_res snd fst]. destruct (buffers_run r (arange a b d) (seq_at 0 (5 * n))) as (l & E & M & K); [intros t Ht; apply (Ud d); [left; reflexivity|exact Ht]|apply seq_at_byte|].
      unfold bytes in *. rewrite E. cbn [bind]. assert (Ll : length l = length (arange a b d)) by (rewrite <- M, map_length; reflexivity).
      rewrite seq_at_at. replace (5 * n + 5 * length (arange a b d)) with (5 * (n + length l)) by lia.
      destruct (IH (acc ++ [(d, l)]) (n + length l)) as (out & q & E2 & M2 & A2 & K2).
      + intros d' t Hd Ht. apply (Ud d'); [right; exact Hd|exact Ht].
      + rewrite map_app, concat_app, app_length, Ln. cbn [map concat snd]. rewrite app_nil_r. reflexivity.
      + intros g t buf Hg. rewrite map_app, concat_app in Hg. cbn [map concat snd] in Hg. rewrite app_nil_r in Hg. destruct (Nat.lt_ge_cases g n) as [Lg|Lg].
        * rewrite nth_error_app1 in Hg by lia. apply Ka. exact Hg.
        * rewrite nth_error_app2 in Hg by lia. rewrite Ln in Hg. specialize (K _ _ _ Hg). rewrite !seq_at_at in K.
          replace (5 * n + 5 * (g - n)) with (5 * g) in K by lia. rewrite K. do 3 f_equal. lia.
      + exists ((d, l) :: out), q. unfold bytes in *. rewrite E2, <- app_assoc. split; [reflexivity|]. split; [cbn [map fst]; rewrite M2; reflexivity|]. rewrite <- app_assoc in K2.
        split; [|exact K2]. intros d' l' [Hi|Hi]; [injection Hi as <- <-; exact M|apply A2; exact Hi]. }
  destruct (G delays [] 0 U eq_refl) as (out & q & E & M & A & K); [intros [|g]; discriminate|].
  change (seq_at 0 (5 * 0)) with 0%Z in E. cbn [app] in E. unfold bytes in *. rewrite E. cbn [bind]. exists out. split; [reflexivity|]. auto.
Qed.

(** Code words. *)
Lemma flat_firstn b n : firstn (8 * n) (bytes_bits b) = bytes_bits (firstn n b).
Proof.
  revert b. induction n as [|n IH]; intros [|x b]; try reflexivity.
  change (bytes_bits (x :: b)) with (byte_bits x ++ bytes_bits b). change (bytes_bits (firstn (S n) (x :: b))) with (byte_bits x ++ bytes_bits (firstn n b)).
  replace (8 * S n) with (length (byte_bits x) + 8 * n) by (change (length (byte_bits x)) with 8; lia). rewrite firstn_app_2, IH. reflexivity.
Qed.
Lemma flat_skipn b n : skipn (8 * n) (bytes_bits b) = bytes_bits (skipn n b).
Proof.
  revert b. induction n as [|n IH]; intros [|x b]; try reflexivity.
  change (bytes_bits (x :: b)) with (byte_bits x ++ bytes_bits b). change (skipn (S n) (x :: b)) with (skipn n b).
  rewrite skipn_app. change (length (byte_bits x)) with 8. rewrite skipn_all2 by (change (length (byte_bits x)) with 8; lia). replace (8 * S n - 8) with (8 * n) by lia. apply IH.
Qed.
Lemma flat_slice b i j : slice (bytes_bits b) (8 * i) (8 * j) = bytes_bits (slice b i j).
Proof. unfold slice. rewrite flat_skipn. replace (8 * j - 8 * i) with (8 * (j - i)) by lia. apply flat_firstn. Qed.

Lemma multiply_length {A} : forall m (l : list A), length (multiply m l) = 2 ^ m * length l.
Proof. induction m as [|m IH]; intros l; cbn [multiply]; [cbn; lia|]. rewrite IH, app_length, Nat.pow_succ_r'. lia. Qed.
Lemma multiply_nth {A} (d : A) : forall m (l : list A) i, i < 2 ^ m * length l -> nth i (multiply m l) d = nth (i mod length l) l d.
Proof.
  induction m as [|m IH]; intros l i Hi; cbn [multiply].
  - rewrite Nat.pow_0_r, Nat.mul_1_l in Hi. rewrite Nat.mod_small by exact Hi. reflexivity.
  - destruct l as [|x l]; [cbn in Hi; lia|]. rewrite IH by (rewrite app_length; rewrite Nat.pow_succ_r' in Hi; lia). set (L := x :: l) in *.
    assert (0 < length L) by (cbn; lia). rewrite app_length. set (n := length L) in *. replace (n + n) with (n * 2) by lia. rewrite Nat.mod_mul_r by lia.
    set (a := i mod n). assert (a < n) by (apply Nat.mod_upper_bound; lia). assert ((i / n) mod 2 < 2) by (apply Nat.mod_upper_bound; lia).
    destruct ((i / n) mod 2) as [|[|z]]; [|  | lia].
    + rewrite Nat.mul_0_r, Nat.add_0_r. apply app_nth1. assumption.
    + rewrite Nat.mul_1_r. rewrite app_nth2 by (subst n; lia). f_equal. subst n. lia.
Qed.

(** A check of [usable], for the examples. *)
Definition c_okb (ty : string) (v : pyval) : bool :=
  let m := (2 ^ (8 * Z.of_nat (c_size ty)))%Z in
  match v with
  | VInt z => negb (String.eqb ty "float") && if c_signed ty then (- (m / 2) <=? z)%Z && (z <? m / 2)%Z else (0 <=? z)%Z && (z <? m)%Z
  | VF32 p => String.eqb ty "float" && (p <? 2 ^ 32)%N
  | VBytes _ => false
  end.
Lemma c_okb_ok ty v : c_okb ty v = true -> c_ok ty v.
Proof.
  unfold c_okb, c_ok. destruct v as [z|p|b]; [| |discriminate].
  - intros H. apply andb_true_iff in H as [H1 H2]. split; [intros ->; discriminate|]. destruct (c_signed ty); apply andb_true_iff in H2 as [H2 H3]; lia.
  - intros H. apply andb_true_iff in H as [H1 H2]. apply String.eqb_eq in H1. split; [exact H1|]. apply N.ltb_lt. exact H2.
Qed.
Definition lookup (id : N) (s : series) (i : nat) (name : string) : option pyval :=
  if String.eqb name "time_boot_ms" then option_map VInt (nth_error (s_time s) i)
  else match str_index (columns id) name with
       | Ok k => match nth_error (s_cols s) k with Some col => nth_error col i | None => None end
       | Err _ => None end.
Lemma str_index_nth x : forall l k, str_index l x = Ok k -> nth_error l k = Some x.
Proof.
  induction l as [|y l IH]; intros k H; [discriminate|]. cbn [str_index] in H. destruct (String.eqb x y) eqn:E.
  - injection H as <-. apply String.eqb_eq in E. subst. reflexivity.
  - destruct (str_index l x) as [j|]; [|discriminate]. cbn [bind] in H. injection H as <-. cbn [nth_error]. apply IH. reflexivity.
Qed.
Lemma lookup_recorded id s i name v : lookup id s i name = Some v -> recorded id s i name v.
Proof.
  unfold lookup, recorded. destruct (String.eqb name "time_boot_ms") eqn:E.
  - apply String.eqb_eq in E. destruct (nth_error (s_time s) i) as [x|]; [|discriminate]. cbn. intros H. injection H as <-. left. eauto.
  - destruct (str_index (columns id) name) as [k|] eqn:Ek; [|discriminate]. destruct (nth_error (s_cols s) k) as [col|] eqn:Ec; [|discriminate].
    intros H. right. exists k, col. split; [apply str_index_nth; exact Ek|]. auto.
Qed.
Definition usable_b (id : N) (s : series) (t : Z) : bool :=
  match sample_at (s_time s) t, get_class id with
  | Ok i, Some c => forallb (fun f => match lookup id s i (nth f (mc_fieldnames c) ""%string) with Some v => c_okb (f_type c f) v | None => false end) (seq 0 (f_count c))
  | _, _ => false
  end.
Lemma usable_b_ok id s t : usable_b id s t = true -> usable id s t.
Proof.
  unfold usable_b. destruct (sample_at (s_time s) t) as [i|] eqn:Es; [|discriminate]. destruct (get_class id) as [c|] eqn:Ec; [|discriminate]. intros H.
  assert (C : chosen (s_time s) t i).
  { destruct (s_time s) as [|x l] eqn:El; [discriminate|]. destruct (chosen_exists t (x :: l) ltac:(discriminate)) as [j Hj]. rewrite (sample_chosen _ _ _ Hj) in Es. injection Es as <-. exact Hj. }
  exists i, c. split; [exact C|]. split; [apply get_class_spec; exact Ec|]. intros f Hf. rewrite forallb_forall in H. specialize (H f ltac:(apply in_seq; lia)). cbv beta in H.
  destruct (lookup id s i (nth f (mc_fieldnames c) ""%string)) as [v|] eqn:Ev; [|discriminate]. exists v. split; [apply lookup_recorded; exact Ev|apply c_okb_ok; exact H].
Qed.
Definition usable_all_b (r : recording) (t : Z) : bool :=
  (usable_b 33 (r_position r) t && usable_b 234 (r_pinger r) t && usable_b 30 (r_attitude r) t && usable_b 212 (r_svs r) t && usable_b 218 (r_chamber r) t)%bool.
Lemma usable_all_b_ok r t : usable_all_b r t = true -> usable_all r t.
Proof. unfold usable_all_b, usable_all. rewrite !andb_true_iff. intros ((((A & B) & C) & D) & E). repeat split; apply usable_b_ok; assumption. Qed.
