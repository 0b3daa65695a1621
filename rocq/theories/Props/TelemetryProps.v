(** C78: telemetry buffers made from a recording and the code words made from them. *)
From Coq Require Import String Ascii List Arith NArith ZArith Bool Lia ZifyBool ZifyNat ZifyN.
From Verif.Model Require Import Py Dialect Struct Mavlink Segmentation MsgCreator.
From Verif.Spec Require Import Bytes Bits Header Frame TelemetrySpec.
From Verif.Proofs Require Import Base BitOpsP TelemetryP.
Import ListNotations.
Local Open Scope list_scope.
Local Notation length := List.length.

(** Which row is used: the first not before [t], or row 0 when there is none; always exactly one. *)
Theorem c78_row : forall times t, (times = [] -> sample_at times t = Err ValueError) /\
  (times <> [] -> exists i, sample_at times t = Ok i /\ forall j, chosen times t j <-> j = i).
Proof.
  intros times t. split; [intros ->; reflexivity|]. intros Hn. destruct (chosen_exists t times Hn) as [i Hi]. exists i. split; [apply sample_chosen; exact Hi|].
  intros j. split; [intros Hj|intros ->; exact Hi]. apply sample_chosen in Hi, Hj. congruence.
Qed.
Print Assumptions c78_row.

(** A buffer: five messages at fixed places whose fields are the entries of the named columns of the chosen rows. *)
Theorem c78_buffer : forall text r q t, in_byte q -> usable_all r t ->
  exists b, telemetry r q t = Ok (b, ((q + 5) mod 256)%Z) /\ is_bytes b /\ length b = 153 /\
    forall k id s start stop, nth_error (layout r) k = Some (id, s, start, stop) ->
      exists i d, chosen (s_time s) t i /\ decode text (slice b start stop) = Ok d /\
        d_seq d = Z.to_N ((q + Z.of_nat k) mod 256) /\ d_sys d = 1%N /\ d_comp d = 1%N /\ shows_row id s i d.
Proof.
  intros text r q t Bq U. destruct (telemetry_parts text r q t Bq U) as (b & E & B & L & K). exists b. do 3 (split; [assumption|]).
  intros k id s start stop Hk. exact (K k _ Hk).
Qed.
Print Assumptions c78_buffer.

(** Segmentation recovers exactly these messages and leaves nothing unknown. *)
Theorem c78_segments : forall text r q t, in_byte q -> usable_all r t ->
  exists b p v, telemetry r q t = Ok (b, ((q + 5) mod 256)%Z) /\
    segment_buffer (decode text) b = Ok (p, v, [(0, 33%N); (52, 234%N); (72, 30%N); (108, 212%N); (135, 218%N)]) /\
    length p = 153 /\ ~ In UNKNOWN p /\ v = repeat 1%Z (8 * 153).
Proof. exact telemetry_segments. Qed.
Print Assumptions c78_segments.

(** The whole run: for every delay the buffers of the times from the first record on, below that of record 16521; the sequence numbers continue
    over all buffers of all delays. *)
Theorem c78_run : forall r a b, nth_error (s_time (r_position r)) 0 = Some a -> index_z (s_time (r_position r)) 16521 = Ok b ->
  (forall t, (a <= t < b)%Z -> usable_all r t) ->
  exists out, all_msgs r = Ok out /\ map fst out = [20000; 50000; 100000; 200000; 300000]%Z /\
    (forall d l, In (d, l) out -> every a b d (map fst l)) /\
    forall g t buf, nth_error (concat (map snd out)) g = Some (t, buf) ->
      telemetry r (5 * Z.of_nat g mod 256) t = Ok (buf, ((5 * Z.of_nat g + 5) mod 256)%Z).
Proof.
  intros r a b Ha Hb U.
  assert (P : forall d, In d delays -> (0 < d)%Z) by (unfold delays; cbn [In]; intros d H; repeat (destruct H as [<- | H]; [lia|]); contradiction).
  destruct (all_run r a b Ha Hb) as (out & E & M & A & K).
  { intros d t Hd Ht. apply U. apply In_nth_error in Ht as [k Hk]. apply (arange_every a b d (P d Hd)) in Hk as [-> Hk]. specialize (P d Hd). nia. }
  exists out. split; [exact E|]. split; [exact M|]. split.
  - intros d l Hi. rewrite (A d l Hi). apply arange_every. apply P. rewrite <- M. apply (in_map fst) in Hi. exact Hi.
  - intros g t buf Hg. specialize (K g t buf Hg). unfold seq_at in K. replace (0 + Z.of_nat (5 * g))%Z with (5 * Z.of_nat g)%Z in K by lia.
    replace (0 + Z.of_nat (5 * g + 5))%Z with (5 * Z.of_nat g + 5)%Z in K by lia. exact K.
Qed.
Print Assumptions c78_run.

(** Code words: the parts are whole messages, nothing is lost, and all words have the length of the code. *)
Theorem c78_words : forall random b, length b = 153 -> (forall c l, length (random c l) = l) ->
  let m i j := bytes_bits (slice b i j) in
  info_words random 1 1296 (bytes_bits b) = Ok [bytes_bits b ++ random 0 72] /\
  info_words random 2 648 (bytes_bits b) = Ok [(m 0 52 ++ m 52 72) ++ random 0 72; m 72 108 ++ m 108 135 ++ m 135 153] /\
  info_words random 3 486 (bytes_bits b) = Ok [m 0 52 ++ random 0 70; (m 52 72 ++ m 72 108) ++ random 1 38; (m 108 135 ++ m 135 153) ++ random 2 126] /\
  forall n k ws w, In (n, k) [(1, 1296); (2, 648); (3, 486)] -> info_words random n k (bytes_bits b) = Ok ws -> In w ws -> length w = k.
Proof.
  intros random b L R m.
  assert (Hb : b = slice b 0 52 ++ slice b 52 72 ++ slice b 72 108 ++ slice b 108 135 ++ slice b 135 153).
  { apply (nth_ext _ _ 0%N 0%N); [rewrite !app_length, !length_slice; lia|]. intros i Hi.
    repeat (match goal with |- _ = nth ?k (slice b ?x ?y ++ _) _ => destruct (Nat.lt_ge_cases k (y - x));
      [rewrite app_nth1 by (rewrite length_slice; lia); rewrite nth_slice by lia; f_equal; lia|
       rewrite app_nth2 by (rewrite length_slice; lia); rewrite (length_slice b x y), L;
       replace (k - Nat.min (y - x) (153 - x)) with (k - (y - x)) by lia] end).
    rewrite nth_slice by lia. f_equal. lia. }
  assert (B : bytes_bits b = m 0 52 ++ m 52 72 ++ m 72 108 ++ m 108 135 ++ m 135 153).
  { rewrite Hb at 1. unfold m, bytes_bits. rewrite !flat_map_app. reflexivity. }
  assert (Lm : forall i j, j <= 153 -> length (m i j) = 8 * (j - i)) by (intros i j Hj; unfold m; rewrite length_bytes_bits, length_slice; lia).
  assert (Lb : length (bytes_bits b) = 1224) by (rewrite length_bytes_bits; lia).
  assert (W1 : info_words random 1 1296 (bytes_bits b) = Ok [bytes_bits b ++ random 0 72]) by (unfold info_words, fill_up; rewrite Lb; reflexivity).
  assert (W2 : info_words random 2 648 (bytes_bits b) = Ok [(m 0 52 ++ m 52 72) ++ random 0 72; m 72 108 ++ m 108 135 ++ m 135 153]).
  { unfold info_words, fill_up. rewrite B. change (Nat.ltb 648 576) with false. cbn [bind]. change (648 - 576) with 72.
    rewrite (app_assoc (m 0 52)). rewrite firstn_app, skipn_app. rewrite app_length, !Lm by lia. change (8 * (52 - 0) + 8 * (72 - 52)) with 576. rewrite Nat.sub_diag.
    rewrite firstn_all2 by (rewrite app_length, !Lm by lia; lia). rewrite skipn_all2 by (rewrite app_length, !Lm by lia; lia). cbn [firstn skipn]. rewrite app_nil_r. reflexivity. }
  assert (W3 : info_words random 3 486 (bytes_bits b) = Ok [m 0 52 ++ random 0 70; (m 52 72 ++ m 72 108) ++ random 1 38; (m 108 135 ++ m 135 153) ++ random 2 126]).
  { unfold info_words, fill_up. change (Nat.ltb 486 416) with false. change (Nat.ltb 486 (864 - 416)) with false. change (Nat.ltb 486 (1224 - 864)) with false. cbn [bind].
    change (486 - 416) with 70. change (486 - (864 - 416)) with 38. change (486 - (1224 - 864)) with 126. rewrite B.
    assert (X1 : firstn 416 (m 0 52 ++ m 52 72 ++ m 72 108 ++ m 108 135 ++ m 135 153) = m 0 52).
    { rewrite firstn_app, !Lm by lia. change (416 - 8 * (52 - 0)) with 0. rewrite firstn_all2 by (rewrite Lm by lia; lia). apply app_nil_r. }
    assert (X2 : slice (m 0 52 ++ m 52 72 ++ m 72 108 ++ m 108 135 ++ m 135 153) 416 864 = m 52 72 ++ m 72 108).
    { rewrite (app_assoc (m 52 72)). apply slice_mid; rewrite ?app_length, !Lm by lia; lia. }
    assert (X3 : skipn 864 (m 0 52 ++ m 52 72 ++ m 72 108 ++ m 108 135 ++ m 135 153) = m 108 135 ++ m 135 153).
    { rewrite (app_assoc (m 52 72)), (app_assoc (m 0 52)). rewrite skipn_app, skipn_all2 by (rewrite !app_length, !Lm by lia; lia).
      rewrite !app_length, !Lm by lia. reflexivity. }
    rewrite X1, X2, X3. reflexivity. }
  split; [exact W1|]. split; [exact W2|]. split; [exact W3|].
  intros n k ws w Hn E Hw. cbn [In] in Hn. destruct Hn as [Hn|[Hn|[Hn|[]]]]; apply pair_equal_spec in Hn as [<- <-].
  - rewrite W1 in E. apply (f_equal (fun r => match r with Ok x => x | _ => [] end)) in E. subst ws. destruct Hw as [<-|[]]. rewrite app_length, Lb, R. reflexivity.
  - rewrite W2 in E. apply (f_equal (fun r => match r with Ok x => x | _ => [] end)) in E. cbv beta iota in E. subst ws.
    destruct Hw as [<- | [<- | []]]; rewrite !app_length, ?R, !Lm by lia; reflexivity.
  - rewrite W3 in E. apply (f_equal (fun r => match r with Ok x => x | _ => [] end)) in E. cbv beta iota in E. subst ws.
    destruct Hw as [<- | [<- | [<- | []]]]; rewrite !app_length, ?R, !Lm by lia; reflexivity.
Qed.
Print Assumptions c78_words.

(** multiply_data = m repeats the whole list 2 ^ m times. *)
Theorem c78_multiply : forall A (d : A) m l, length (multiply m l) = 2 ^ m * length l /\
  forall i, i < 2 ^ m * length l -> nth i (multiply m l) d = nth (i mod length l) l d.
Proof. intros. split; [apply multiply_length|apply multiply_nth]. Qed.
Print Assumptions c78_multiply.

(** A recording: two rows in the position table, one in the others. *)
Definition ints (l : list Z) : list (list pyval) := map (fun x => [VInt x]) l.
Definition floats (l : list N) : list (list pyval) := map (fun x => [VF32 x]) l.
Definition rec1 : recording := Recording
  (Series [1000; 21000]%Z ([[VInt 295000000; VInt 295000001]; [VInt 349000000; VInt 349000002]] ++ map (fun x => [VF32 x; VF32 (x + 1)]) [1; 2; 3; 4; 5; 6; 7; 8]%N))
  (Series [900]%Z (floats [1120403456; 1065353216]%N))
  (Series [1500]%Z (floats [1; 2; 3; 4; 5; 6]%N))
  (Series [20000]%Z (floats [7; 8; 9]%N ++ ints [2364; 1]%Z))
  (Series [21000]%Z (ints [3162; 4158; 1; 100]%Z)).
Example c78_ex_usable : usable_all rec1 1000 /\ usable_all rec1 21000.
Proof. split; apply usable_all_b_ok; vm_compute; reflexivity. Qed.
Example c78_ex : match telemetry rec1 254 20000 with
  | Ok (b, q) => q = 3%Z /\ length b = 153 /\ map (fun i => nth i b 0%N) [2; 54; 74; 110; 137] = [254; 255; 0; 1; 2]%N /\
      slice b 6 10 = [8; 82; 0; 0]%N /\ slice b 114 118 = [32; 78; 0; 0]%N /\ slice b 130 133 = [60; 9; 1]%N
  | Err _ => False end.
Proof. vm_compute. repeat split. Qed.

(** After the last record of a table its first record is sent again. *)
Theorem c78_late_refuted : exists r t b i, usable_all r t /\ telemetry r 0 t = Ok (b, 5%Z) /\ chosen (s_time (r_pinger r)) t i /\ i = 0 /\
  exists d x, decode (fun _ => []) (slice b 52 72) = Ok d /\ nth 0 (d_fields d) (FText []) = FOne (VInt x) /\ (x < t)%Z.
Proof.
  eexists rec1, 1000%Z, _, 0. split; [apply c78_ex_usable|]. split; [vm_compute; reflexivity|]. split.
  - right. split; [|reflexivity]. split; [discriminate|]. intros x [<-|[]]. reflexivity.
  - split; [reflexivity|]. eexists. exists 900%Z. split; [vm_compute; reflexivity|]. split; [reflexivity|]. lia.
Qed.
Print Assumptions c78_late_refuted.

(** A run: records at 0 (once) and at 100001 (16521 times). *)
Definition rec2 : recording := Recording
  (let n := N.iter 16521 (fun l => 100001%Z :: l) [] in
   Series (0%Z :: n) (map (fun v => v :: map (fun _ => v) n) ([VInt 295000000; VInt 349000000] ++ map VF32 [1; 2; 3; 4; 5; 6; 7; 8]%N)))
  (r_pinger rec1) (r_attitude rec1) (r_svs rec1) (r_chamber rec1).
Example c78_ex_run : nth_error (s_time (r_position rec2)) 0 = Some 0%Z /\ index_z (s_time (r_position rec2)) 16521 = Ok 100001%Z /\
  forallb (usable_all_b rec2) [0; 1; 900; 901; 50000; 100000]%Z = true /\
  match all_msgs rec2 with
  | Ok out => map (fun dl => map fst (snd dl)) out = [[0; 20000; 40000; 60000; 80000; 100000]; [0; 50000; 100000]; [0; 100000]; [0]; [0]]%Z /\
      map (fun tb => nth 2 (snd tb) 0%N) (concat (map snd out)) = [0; 5; 10; 15; 20; 25; 30; 35; 40; 45; 50; 55; 60]%N
  | Err _ => False end.
Proof. vm_compute. repeat split. Qed.
Example c78_ex_words : info_words (fun _ l => repeat true l) 2 648 (repeat false 1224) = Ok [repeat false 576 ++ repeat true 72; repeat false 648] /\
  info_words (fun _ l => repeat true l) 1 1000 (repeat false 1224) = Err ValueError /\ multiply 2 [1; 2; 3] = [1; 2; 3; 1; 2; 3; 1; 2; 3; 1; 2; 3].
Proof. vm_compute. repeat split. Qed.
