(** C87: the training of stored models. *)
From Coq Require Import String Ascii List ZArith NArith Arith Bool Lia Reals QArith Lra.
From Verif.Model Require Import Py Struct Float Dialect Mavlink Segmentation StatModels DecoderBase Clustering TrainModels.
From Verif.Spec Require Import Bytes Bits Header Frame Segment Describe RealOps Info Stats Cluster TrainSpec.
From Verif.Proofs Require Import Base TrainP TrainDistP.
From Verif.Props Require Import MavlinkProps SegmentProps StatProps RectifyProps.
Import ListNotations.
Close Scope Q_scope. Close Scope R_scope.
Open Scope nat_scope.

(** Every row that starts with the marker of a frame adds one sample to each field of the structure found in the first row, in the order of the
    rows; the values are what the row has at the places of the fields in the first row.  Unknown rows are left out; known rows without the marker
    are left out and listed. *)
Theorem c87_model : forall (FO : fops) text rows r0 rest bs b0, rows = r0 :: rest -> Forall table_row rows -> Forall2 spells (filter starts_frame rows) bs -> spells r0 b0 ->
  exists p v s, segment_buffer (decode text) b0 = Ok (p, v, s) /\
  forall sl, Forall (plain_in 123) s -> layout s sl ->
  exists m bad, train_buffer_model FO text rows = Ok (m, bad) /\ bm_size FO m = Z.of_nat (length bs) /\
    (forall i, In i bad <-> exists r, nth_error rows i = Some r /\ row_known r /\ starts_frame r = false) /\
    forall nm, let values := values_under nm (flat_map (fun b => map (slot_sample b) sl) bs) in
      match bm_get FO m nm with None => values = [] | Some f => values <> [] /\ fm_samples FO f = values end.
Proof.
  intros FO text rows r0 rest bs b0 Er T S S0. assert (B0 : is_bytes b0) by apply S0. destruct (c11_mavlink_total text b0 B0) as (p & v & s & Es). exists p, v, s. split; [exact Es|]. intros sl P Ly.
  set (pk := fun _ : F FO => @Err N ValueError). set (er := fun x : F FO => x).
  assert (R0 : reachable FO pk er None [] (bm_init FO [] None)) by (exists []; split; [constructor|reflexivity]).
  destruct (train_loop FO pk er s sl P Ly rows bs 0 _ [] [] R0 T S) as (m & E & R). exists m, (bads 0 rows).
  assert (L0 : 984 <= length r0) by (rewrite Er in T; inversion T as [|? ? H]; apply H).
  split; [unfold train_buffer_model; rewrite Er at 1; cbn [index nth_error bind]; rewrite (pack_spelled r0 b0 L0 S0), Es; exact E|].
  destruct (c24_history FO pk er None _ m I R) as (Sz & _ & Fs). cbn [app] in Sz, Fs. rewrite accepted_map in Sz. split; [exact Sz|]. split.
  - intros i. unfold bads. rewrite in_map_iff. split.
    + intros ([i' r] & <- & H). apply filter_In in H. destruct H as [H K]. cbn [fst snd] in *. apply andb_true_iff in K. destruct K as [K1 K2]. apply (In_nth _ _ (0, [])) in H. destruct H as (j & Hj & Ej). rewrite combine_length, seq_length, Nat.min_id in Hj. rewrite combine_nth in Ej by apply seq_length. rewrite seq_nth in Ej by exact Hj. injection Ej as <- <-.
      exists (nth j rows []). rewrite (nth_error_nth' _ []) by exact Hj. split; [reflexivity|]. split; [apply is_known_spec; [rewrite Forall_forall in T; apply T, nth_In, Hj|exact K1]|destruct (starts_frame (nth j rows [])); [discriminate|reflexivity]].
    + intros (r & Hr & K & St). exists (i, r). split; [reflexivity|]. assert (Hi : i < length rows) by (apply nth_error_Some; congruence). apply filter_In. cbn [snd]. assert (En : nth i rows [] = r) by (apply nth_error_nth; exact Hr). split.
      * assert (Ei : (i, r) = nth i (combine (seq 0 (length rows)) rows) (0, [])) by (rewrite combine_nth by apply seq_length; rewrite seq_nth by exact Hi; rewrite En; reflexivity). rewrite Ei. apply nth_In. rewrite combine_length, seq_length. lia.
      * rewrite St, andb_true_r. apply is_known_spec; [rewrite Forall_forall in T; rewrite <- En; apply T, nth_In, Hi|exact K].
  - intros nm. cbv zeta. specialize (Fs nm). rewrite recorded_map in Fs. destruct (bm_get FO m nm) as [f|]; [|exact Fs]. destruct Fs as (N1 & N2 & _). cbn [windowed] in N2. auto.
Qed.
Print Assumptions c87_model.

(** Every row spells bytes, and a first row in which a message with arrays is found ends the training with struct.error at the first row that is
    to be learned. *)
Theorem c87_spells : forall r, table_row r -> exists b, spells r b /\ forall b', spells r b' -> b' = b.
Proof. intros r [L _]. destruct (spells_exists r L) as (b & S). exists b. split; [exact S|]. intros b' S'. rewrite <- (pack_spelled r b L S), <- (pack_spelled r b' L S'). reflexivity. Qed.
Print Assumptions c87_spells.
Theorem c87_arrays : forall (FO : fops) text rows r0 rest b0 p v s, rows = r0 :: rest -> Forall table_row rows -> spells r0 b0 -> segment_buffer (decode text) b0 = Ok (p, v, s) ->
  ~ Forall (plain_in 123) s -> filter starts_frame rows <> [] -> train_buffer_model FO text rows = Err StructError.
Proof.
  intros FO text rows r0 rest b0 p v s Er T S0 Es P Ne. assert (L0 : 984 <= length r0) by (rewrite Er in T; inversion T as [|? ? H]; apply H).
  unfold train_buffer_model. rewrite Er at 1. cbn [index nth_error bind]. rewrite (pack_spelled r0 b0 L0 S0), Es. cbn [bind snd]. set (pk := fun _ : F FO => @Err N ValueError). set (er := fun x : F FO => x).
  apply (train_loop_bad FO pk er s P) with (os := []); auto.
  - destruct (c60_classes text b0 p v s (proj1 S0) Es) as (cs & F2). intros k i Hi. clear - F2 Hi. induction F2 as [|x c s cs H F2 IH]; [destruct Hi|]. destruct Hi as [-> |Hi]; [exists c; exact H|auto].
  - exists []. split; [constructor|reflexivity].
Qed.
Print Assumptions c87_arrays.

(** If the first row is unknown nothing is learned but the number of rows (defect). *)
Lemma all_ones text : exists p v, segment_buffer (decode text) (repeat 255%N 123) = Ok (p, v, []).
Proof. eexists. eexists. vm_compute. reflexivity. Qed.
Theorem c87_unknown_first : forall (FO : fops) text rows r0 rest bs, rows = r0 :: rest -> Forall table_row rows -> Forall2 spells (filter starts_frame rows) bs -> row_unknown r0 ->
  exists m bad, train_buffer_model FO text rows = Ok (m, bad) /\ bm_size FO m = Z.of_nat (length bs) /\ forall nm, bm_get FO m nm = None.
Proof.
  intros FO text rows r0 rest bs Er T S U. assert (T0 : table_row r0) by (rewrite Er in T; inversion T; assumption).
  assert (S0 : spells r0 (repeat 255%N 123)).
  { split; [apply Forall_forall; intros x Hx; apply repeat_spec in Hx; subst; lia|]. split; [reflexivity|]. intros p Hp. assert (Ep : nth p r0 0%Z = 2%Z) by (unfold row_unknown in U; rewrite Forall_forall in U; apply U, nth_In; destruct T0; lia). rewrite Ep.
    unfold bit_of. assert (Hq : p / 8 < 123) by (apply Nat.div_lt_upper_bound; lia). rewrite (nth_indep _ 0%N 255%N) by (rewrite repeat_length; exact Hq). rewrite nth_repeat.
    assert (Hm : p mod 8 < 8) by (apply Nat.mod_upper_bound; lia). destruct (p mod 8) as [|[|[|[|[|[|[|[|?]]]]]]]]; reflexivity. }
  destruct (c87_model FO text rows r0 rest bs _ Er T S S0) as (p & v & s & Es & H). destruct (all_ones text) as (p' & v' & Es'). rewrite Es' in Es. injection Es as <- <- <-.
  destruct (H [] (Forall_nil _) lay_nil) as (m & bad & E & Sz & _ & Fs). exists m, bad. split; [exact E|]. split; [exact Sz|]. intros nm. specialize (Fs nm). cbv zeta in Fs. assert (Z0 : flat_map (fun b => map (slot_sample b) []) bs = []) by (clear; induction bs; [reflexivity|exact IHbs]).
  rewrite Z0 in Fs. destruct (bm_get FO m nm) as [f|]; [|reflexivity]. destruct Fs as [N _]. contradiction N. reflexivity.
Qed.
Print Assumptions c87_unknown_first.

(** A row is learned whenever its first byte is the marker, be the rest what it may (defect): the second row has no checked frame, yet its bytes
    become samples of the fields of the heartbeat. *)
Definition row_of (b : bytes) : list Z := firstn 984 (map (fun x : bool => if x then 1 else 0)%Z (bytes_bits b) ++ repeat 0%Z 984).
Definition ex_rows : list (list Z) := [row_of hb; row_of [254; 9; 9; 9; 9; 9; 77; 78; 79; 80; 81]%N; repeat 2%Z 984; row_of [253; 1]%N; row_of hb].
Theorem c87_garbage_refuted : exists rows r, Forall table_row rows /\ In r rows /\ (exists b p v, spells r b /\ segment_buffer (decode (fun b => b)) b = Ok (p, v, [])) /\
  exists m bad, train_buffer_model Qops (fun b => b) rows = Ok (m, bad) /\ bm_size Qops m = 3%Z /\ bad = [3] /\
    option_map (fm_samples Qops) (bm_get Qops m "HEARTBEAT_custom_mode") = Some [VInt 5; VInt 1347374669; VInt 5].
Proof.
  exists ex_rows, (row_of [254; 9; 9; 9; 9; 9; 77; 78; 79; 80; 81]%N).
  assert (Tb : forall b, table_row (row_of b)).
  { intros b. split; [unfold row_of; rewrite firstn_length, app_length, repeat_length; lia|]. left. apply Forall_forall. intros x Hx. unfold row_of in Hx. assert (H : In x (map (fun x : bool => if x then 1 else 0)%Z (bytes_bits b) ++ repeat 0%Z 984)) by (rewrite <- (firstn_skipn 984); apply in_or_app; left; exact Hx).
    apply in_app_or in H. destruct H as [H|H]; [apply in_map_iff in H; destruct H as ([|] & <- & _); auto|apply repeat_spec in H; auto]. }
  split.
  { repeat apply Forall_cons; try apply Tb; [|apply Forall_nil]. split; [rewrite repeat_length; lia|]. right. apply Forall_forall. intros x Hx. apply repeat_spec in Hx. exact Hx. }
  split; [right; left; reflexivity|]. split.
  - destruct (spells_exists (row_of [254; 9; 9; 9; 9; 9; 77; 78; 79; 80; 81]%N)) as (b & S); [apply Tb|]. pose proof (pack_spelled _ _ (proj1 (Tb _)) S) as E.
    assert (V : match segment_buffer (decode (fun b => b)) (pack (firstn 984 (row_of [254; 9; 9; 9; 9; 9; 77; 78; 79; 80; 81]%N))) with Ok (_, _, []) => true | _ => false end = true) by (vm_compute; reflexivity).
    rewrite E in V. destruct (segment_buffer (decode (fun b => b)) b) as [[[p v] [|k s]]|e] eqn:Eg; try discriminate. exists b, p, v. split; [exact S|exact Eg].
  - destruct (train_buffer_model Qops (fun b => b) ex_rows) as [[m bad]|e] eqn:E.
    + exists m, bad. split; [reflexivity|].
      assert (V : match train_buffer_model Qops (fun b => b) ex_rows with Ok (m, bad) => (bm_size Qops m, bad, option_map (fm_samples Qops) (bm_get Qops m "HEARTBEAT_custom_mode")) | Err _ => (0%Z, [], None) end = (3%Z, [3], Some [VInt 5; VInt 1347374669; VInt 5])) by (vm_compute; reflexivity).
      rewrite E in V. injection V as -> -> ->. auto.
    + assert (V : is_ok (train_buffer_model Qops (fun b => b) ex_rows) = true) by (vm_compute; reflexivity). rewrite E in V. discriminate.
Qed.
Print Assumptions c87_garbage_refuted.

(** The stored distribution of the bits: the shares of zeros and of ones among the encoded words, as long as the ones fit in 16 bits. *)
Theorem c87_dist : forall n words, words <> [] -> Forall (bits_of_length n) words -> (forall i, (Z.of_nat (votes words 1 i) < 65536)%Z) ->
  train_dist Rops n words = Ok (map (fun i => [share words 0 i; share words 1 i]) (seq 0 n)).
Proof. exact train_dist_shares. Qed.
Print Assumptions c87_dist.
Theorem c87_dist_sum : forall words n i, words <> [] -> Forall (bits_of_length n) words -> i < n -> (share words 0 i + share words 1 i = 1)%R.
Proof. exact shares_sum. Qed.
Print Assumptions c87_dist_sum.

(** Without words there is a ZeroDivisionError; a word of another length (but one of a single bit) is a ValueError. *)
Theorem c87_dist_errors : forall (FO : fops) n, train_dist FO n [] = Err ZeroDivision /\
  forall words w, In w words -> length w <> n -> length w <> 1 -> train_dist FO n words = Err ValueError.
Proof.
  intros FO n. split; [reflexivity|]. intros words w Hw L1 L2. unfold train_dist.
  assert (E : map_res (data_row n) words = Err ValueError).
  { induction words as [|x words IH]; [destruct Hw|]. cbn [map_res]. destruct Hw as [-> |Hw].
    - assert (D : data_row n w = Err ValueError) by (unfold data_row; destruct (Nat.eqb_spec (length w) n); [contradiction|]; destruct w as [|y [|z w]]; [reflexivity|cbn in L2; lia|reflexivity]). rewrite D. reflexivity.
    - rewrite (IH Hw). unfold data_row. destruct x as [|y [|z x]]; try reflexivity; destruct (Nat.eqb _ n); reflexivity. }
  rewrite E. reflexivity.
Qed.
Print Assumptions c87_dist_errors.

(** Where the ones of a column are a multiple of 65536 the share stored is 0 (defect): with 65536 words of ones the stored model says that every
    bit is 0. *)
Theorem c87_dist_wraps_refuted : exists words, words <> [] /\ Forall (bits_of_length 2) words /\ (forall i, i < 2 -> share words 1 i = 1%R) /\
  train_dist Rops 2 words = Ok [[1; 0]; [1; 0]]%R.
Proof. exact dist_wraps. Qed.
Print Assumptions c87_dist_wraps_refuted.

(** The words of one transmission of 1224 bits: each has the length the code wants, and the pieces at their starts are the transmission. *)
Theorem c87_words : forall c rand data, (1 <= c <= 3)%Z -> length data = 1224 -> (forall i k, length (rand i k) = k) ->
  exists ws, train_words c rand data = Ok ws /\ length ws = length (pieces c) /\ Forall (fun w => length w = info_bits c) ws /\
    concat (map (fun pw => firstn (fst pw) (snd pw)) (combine (pieces c) ws)) = data.
Proof.
  intros c rand data Hc L Hr. assert (Cc : c = 1%Z \/ c = 2%Z \/ c = 3%Z) by lia.
  assert (Fe : forall (k : nat) (p q : list bool), length p = k -> firstn k (p ++ q) = p) by (intros k p q <-; rewrite firstn_app, Nat.sub_diag, firstn_all, app_nil_r; reflexivity).
  destruct Cc as [-> | [-> | -> ]]; unfold train_words, with_random, info_bits, pieces; cbn [Z.eqb Pos.eqb].
  - rewrite L. change (Nat.ltb 1296 1224) with false. cbn [bind]. eexists. split; [reflexivity|]. split; [reflexivity|]. split.
    + repeat constructor. rewrite app_length, Hr, L. reflexivity.
    + cbn [combine map fst snd concat]. rewrite (Fe 1224 data _ L), app_nil_r. reflexivity.
  - change (Nat.ltb 648 576) with false. cbn [bind]. eexists. split; [reflexivity|]. split; [reflexivity|].
    assert (L1 : length (firstn 576 data) = 576) by (rewrite firstn_length; lia). assert (L2 : length (skipn 576 data) = 648) by (rewrite skipn_length; lia). split.
    + repeat constructor; [rewrite app_length, Hr, L1; reflexivity|exact L2].
    + cbn [combine map fst snd concat]. rewrite (Fe 576 _ _ L1), <- L2, firstn_all, app_nil_r. apply firstn_skipn.
  - change (Nat.ltb 486 416) with false. change (Nat.ltb 486 (864 - 416)) with false. change (Nat.ltb 486 (1224 - 864)) with false. cbn [bind]. eexists. split; [reflexivity|]. split; [reflexivity|].
    assert (L1 : length (firstn 416 data) = 416) by (rewrite firstn_length; lia). assert (L2 : length (skipn 416 (firstn 864 data)) = 448) by (rewrite skipn_length, firstn_length; lia). assert (L3 : length (skipn 864 data) = 360) by (rewrite skipn_length; lia). split.
    + repeat constructor; rewrite app_length, Hr, ?L1, ?L2, ?L3; reflexivity.
    + cbn [combine map fst snd concat]. rewrite (Fe 416 _ _ L1), (Fe 448 _ _ L2), (Fe 360 _ _ L3), app_nil_r. rewrite app_assoc.
      assert (E : firstn 416 data ++ skipn 416 (firstn 864 data) = firstn 864 data) by (rewrite <- (firstn_skipn 416 (firstn 864 data)) at 2; f_equal; rewrite firstn_firstn; f_equal).
      rewrite E. apply firstn_skipn.
Qed.
Print Assumptions c87_words.
(** Another number of clusters is a ValueError; so is, with one cluster, a transmission of more than 1296 bits. *)
Theorem c87_words_errors : (forall c rand data, c <> 1%Z -> c <> 2%Z -> c <> 3%Z -> train_words c rand data = Err ValueError) /\
  forall rand data, 1296 < length data -> train_words 1 rand data = Err ValueError.
Proof.
  split.
  - intros c rand data H1 H2 H3. unfold train_words. rewrite (proj2 (Z.eqb_neq c 1) H1), (proj2 (Z.eqb_neq c 2) H2), (proj2 (Z.eqb_neq c 3) H3). reflexivity.
  - intros rand data H. unfold train_words, with_random. cbn [Z.eqb Pos.eqb]. rewrite (proj2 (Nat.ltb_lt 1296 (length data)) H). reflexivity.
Qed.
Print Assumptions c87_words_errors.

Definition ex_words : list (list Z) := [[1; 0; 1]; [1; 1; 0]; [1; 0; 0]]%Z.
Example c87_ex_rows : filter starts_frame ex_rows = [row_of hb; row_of [254; 9; 9; 9; 9; 9; 77; 78; 79; 80; 81]%N; row_of hb].
Proof. vm_compute. reflexivity. Qed.
Example c87_ex_dist : ex_words <> [] /\ Forall (bits_of_length 3) ex_words /\ forall i, (Z.of_nat (votes ex_words 1 i) < 65536)%Z.
Proof.
  split; [discriminate|]. split; [repeat apply Forall_cons; try apply Forall_nil; (split; [reflexivity|repeat apply Forall_cons; try apply Forall_nil; first [left; reflexivity|right; reflexivity]])|].
  intros i. unfold votes. assert (H : length (filter (fun b => Z.eqb (nth i b (-1)%Z) 1) ex_words) <= 3) by (unfold ex_words; cbn [filter]; repeat match goal with |- context [if ?b then _ else _] => destruct b end; cbn; lia). lia.
Qed.
Example c87_ex_model : exists r0 b0 p v, nth_error ex_rows 0 = Some r0 /\ spells r0 b0 /\ segment_buffer (decode (fun b => b)) b0 = Ok (p, v, [(0, 0%N)]) /\ Forall (plain_in 123) [(0, 0%N)] /\ layout [(0, 0%N)] hb_slots.
Proof.
  exists (row_of hb). destruct (spells_exists (row_of hb)) as (b & Sp); [vm_compute; lia|].
  assert (L0 : 984 <= length (row_of hb)) by (vm_compute; lia). pose proof (pack_spelled _ _ L0 Sp) as E.
  assert (V : match segment_buffer (decode (fun b => b)) (pack (firstn 984 (row_of hb))) with Ok (_, _, [(0, 0%N)]) => true | _ => false end = true) by (vm_compute; reflexivity).
  rewrite E in V. destruct (segment_buffer (decode (fun b => b)) b) as [[[p v] s]|e] eqn:Eg; [|discriminate]. destruct s as [|[[|k] [|i]] [|]]; try discriminate.
  exists b, p, v. split; [reflexivity|]. split; [exact Sp|]. split; [exact Eg|].
  destruct hb_class as (c & M & Na & Ws & Ms). split; [|rewrite <- Ms, <- (app_nil_r (msg_slots 0 c)); econstructor; [exact M|constructor]].
  apply Forall_cons; [|apply Forall_nil]. exists c. cbn [fst snd]. rewrite Ws. split; [exact M|split; [exact Na|lia]].
Qed.
Example c87_ex_words : option_map (fun ws => map (@length bool) ws) (match train_words 3 (fun _ k => repeat true k) (repeat false 1224) with Ok ws => Some ws | Err _ => None end) = Some [486; 486; 486].
Proof. vm_compute. reflexivity. Qed.
