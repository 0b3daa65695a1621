(** Segmentation of streams of frames; the MAVLink parser; array messages. *)
From Coq Require Import String Ascii List NArith ZArith Bool Lia Arith Sorting.Sorted.
From Verif.Model Require Import Py Dialect ProtocolMeta MsgHeader Struct Mavlink Segmentation.
From Verif.Spec Require Import Bytes Bits Header CrcSpec Frame Segment.
From Verif.Proofs Require Import Base DialectP HeaderP CrcP StructP MavlinkP FieldsP PackP SendP MavlinkMore SegmentP.
Import ListNotations.

Lemma stream_app l1 l2 : stream (l1 ++ l2) = stream l1 ++ stream l2.
Proof. unfold stream. rewrite map_app, concat_app. reflexivity. Qed.
Lemma stream_cons c l : stream (c :: l) = chunk_bytes c ++ stream l.
Proof. reflexivity. Qed.

Lemma stream_pos l j : j < length (stream l) ->
  exists l1 c l2, l = l1 ++ c :: l2 /\ length (stream l1) <= j < length (stream l1) + length (chunk_bytes c).
Proof.
  revert j. induction l as [|c l IH]; intros j; [simpl; lia|].
  rewrite stream_cons, app_length. intros H. destruct (Nat.lt_ge_cases j (length (chunk_bytes c))).
  - exists [], c, l. split; auto. simpl; lia.
  - destruct (IH (j - length (chunk_bytes c)) ltac:(lia)) as (l1 & c' & l2 & -> & R).
    exists (c :: l1), c', l2. split; auto. rewrite stream_cons, app_length. lia.
Qed.

Lemma starts_in l : forall p k i, In (k, i) (good_starts p l) <->
  exists l1 f l2, l = l1 ++ Good f :: l2 /\ k = p + length (stream l1) /\ i = nth 5 f 0%N.
Proof.
  induction l as [|c l IH]; intros p k i.
  - simpl. split; [tauto|]. intros (l1 & f & l2 & E & _). destruct l1; discriminate.
  - assert (X : In (k, i) (good_starts p (c :: l)) <->
      (exists f, c = Good f /\ k = p /\ i = nth 5 f 0%N) \/ In (k, i) (good_starts (p + length (chunk_bytes c)) l)).
    { destruct c; simpl; split; intros H; auto.
      - destruct H as [H|H]; auto. injection H as <- <-. left. eauto.
      - destruct H as [(f0 & E & -> & ->)|H]; auto. injection E as <-. auto.
      - destruct H as [(f0 & E & _)|H]; auto. discriminate. }
    rewrite X, IH. split.
    + intros [(f & -> & -> & ->)|(l1 & f & l2 & -> & -> & ->)].
      * exists [], f, l. simpl. repeat split; lia.
      * exists (c :: l1), f, l2. repeat split. rewrite stream_cons, app_length. lia.
    + intros (l1 & f & l2 & E & -> & ->). destruct l1 as [|c' l1].
      * injection E as -> ->. left. exists f. simpl. repeat split; lia.
      * injection E as -> ->. right. exists l1, f, l2. repeat split. rewrite stream_cons, app_length. lia.
Qed.

Section Chunks.
Variable accepts : bytes -> Prop.
Variable l : list chunk.
Hypothesis G : forall f, In (Good f) l -> complete_frame accepts f.
Hypothesis J : forall j i, in_junk l j -> ~ frame_at accepts (stream l) j i.

Lemma good_frame l1 f l2 : l = l1 ++ Good f :: l2 ->
  let k := length (stream l1) in
  announced (stream l) k = length f - 8 /\ frame_end (stream l) k = k + length f /\ 8 <= length f /\
  frame_bytes (stream l) k = f /\ header_at (stream l) k /\ nth (k + 5) (stream l) 0%N = nth 5 f 0%N.
Proof.
  intros E k. destruct (G f) as (V & L & A); [rewrite E; apply in_app_iff; right; left; auto|].
  assert (S1 : stream l = stream l1 ++ f ++ stream l2) by (rewrite E, stream_app, stream_cons; reflexivity).
  assert (NT : forall j, j < length f -> nth (k + j) (stream l) 0%N = nth j f 0%N).
  { intros j Hj. rewrite S1, app_nth2 by (unfold k; lia). rewrite app_nth1 by (unfold k; lia). f_equal. unfold k; lia. }
  assert (SK : skipn k (stream l) = f ++ stream l2).
  { rewrite S1. unfold k. rewrite skipn_app, skipn_all, Nat.sub_diag. reflexivity. }
  assert (AN : announced (stream l) k = length f - 8).
  { unfold announced. rewrite NT by lia. lia. }
  assert (F6 : firstn 6 (skipn k (stream l)) = firstn 6 f).
  { rewrite SK, firstn_app. replace (6 - length f) with 0 by lia. simpl. rewrite app_nil_r. reflexivity. }
  split; [auto|]. split; [unfold frame_end; rewrite AN; lia|]. split; [lia|]. split.
  - unfold frame_bytes. rewrite AN, SK, firstn_app. rewrite firstn_all2 by lia.
    replace (6 + (length f - 8) + 2 - length f) with 0 by lia. simpl. apply app_nil_r.
  - split; [|apply NT; lia]. split; [rewrite S1, !app_length; unfold k; lia|]. rewrite F6; auto.
Qed.

Lemma chunks_sorted l1 l2 : l = l1 ++ l2 ->
  StronglySorted (fun x y => frame_end (stream l) (fst x) <= fst y) (good_starts (length (stream l1)) l2).
Proof.
  revert l1. induction l2 as [|c l2 IH]; intros l1 E; simpl; [constructor|].
  assert (E' : l = (l1 ++ [c]) ++ l2) by (rewrite E, <- app_assoc; reflexivity).
  specialize (IH _ E'). rewrite stream_app, app_length in IH. change (stream [c]) with (chunk_bytes c ++ []) in IH.
  rewrite app_nil_r in IH. destruct c as [f|g]; simpl in IH |- *; auto.
  constructor; auto. apply Forall_forall. intros [k i] I. apply starts_in in I. destruct I as (a & f' & b' & _ & -> & _).
  simpl. destruct (good_frame l1 f l2 E) as (_ & -> & _). lia.
Qed.

Lemma chunks_covered j : j < length (stream l) ->
  (exists l1 f l2, l = l1 ++ Good f :: l2 /\ length (stream l1) <= j < length (stream l1) + length f) \/ in_junk l j.
Proof.
  intros H. destruct (stream_pos l j H) as (l1 & c & l2 & E & R). destruct c as [f|g]; simpl in R.
  - left. exists l1, f, l2. auto.
  - right. exists l1, g, l2. auto.
Qed.

Lemma chunks_segments : segments accepts (stream l) (good_starts 0 l).
Proof.
  split; [|split].
  - intros k i I. apply starts_in in I. destruct I as (l1 & f & l2 & E & -> & ->). simpl.
    destruct (good_frame l1 f l2 E) as (_ & _ & L & FB & Hd & N5). split.
    + rewrite E, stream_app, stream_cons, !app_length. simpl. lia.
    + split; auto. split; auto. rewrite FB. apply G. rewrite E; apply in_app_iff; right; left; auto.
  - apply (chunks_sorted [] l eq_refl).
  - intros k i Hk F. destruct (chunks_covered k Hk) as [(l1 & f & l2 & E & R)|X].
    + destruct (good_frame l1 f l2 E) as (_ & FE & _ & _ & _ & N5).
      assert (I : In (length (stream l1), nth 5 f 0%N) (good_starts 0 l)).
      { apply starts_in. exists l1, f, l2. auto. }
      destruct (Nat.eq_dec k (length (stream l1))) as [->|].
      * left. destruct F as (_ & <- & _). rewrite N5. auto.
      * right. eexists _, _. split; [exact I|]. rewrite FE. lia.
    + exfalso. eapply J; eauto.
Qed.

Lemma chunks_uncovered j : j < length (stream l) -> (covered (stream l) (good_starts 0 l) j <-> ~ in_junk l j).
Proof.
  intros Hj. split.
  - intros (k & i & I & R) (l1' & g & l2' & E' & R'). apply starts_in in I. destruct I as (l1 & f & l2 & E & -> & ->). simpl in R.
    destruct (good_frame l1 f l2 E) as (_ & FE & _). rewrite FE in R. rewrite E in E'.
    clear - E' R R'. revert l1' R' E' R. 
    assert (X : forall n l1 l1', length (stream l1) <= j < length (stream l1) + length f -> l1 ++ Good f :: l2 = l1' ++ Junk g :: l2' ->
       n <= length (stream l1') -> n <= j -> length (stream l1') <= j < length (stream l1') + length g -> False).
    { intros n a a' R1 E2 _ _ R2. revert a' E2 R1 R2. generalize j. induction a as [|c a IH]; intros j0 a' E2 R1 R2.
      - destruct a' as [|c' a']; [discriminate|]. injection E2 as <- ->. rewrite stream_cons, app_length in R2. simpl in *. lia.
      - destruct a' as [|c' a'].
        + injection E2 as -> _. rewrite stream_cons, app_length in R1. simpl in *. lia.
        + injection E2 as -> E2. rewrite stream_cons, app_length in *. apply (IH (j0 - length (chunk_bytes c')) a'); auto; lia. }
    intros l1' R' E' R. apply (X 0 l1 l1'); auto; lia.
  - intros N. destruct (chunks_covered j Hj) as [(l1 & f & l2 & E & R)|X]; [|contradiction].
    exists (length (stream l1)), (nth 5 f 0%N). split; [apply starts_in; exists l1, f, l2; auto|].
    destruct (good_frame l1 f l2 E) as (_ & -> & _). auto.
Qed.
End Chunks.

(** The MAVLink parser. *)
Section Decode.
Variable text : bytes -> list N.

Lemma valid_header_254 b k : header_at b k -> nth k b 0%N = 254%N.
Proof.
  intros [L V]. assert (E : nth 0 (firstn 6 (skipn k b)) 0%N = nth k b 0%N).
  { rewrite nth_firstn by lia. rewrite nth_skipn, Nat.add_0_r. reflexivity. }
  rewrite <- E. destruct V. reflexivity.
Qed.

Lemma frame_bytes_nth b k j : j < 6 -> nth j (frame_bytes b k) 0%N = nth (k + j) b 0%N.
Proof. intros. unfold frame_bytes. rewrite nth_firstn by lia. apply nth_skipn. Qed.

Lemma frame_bytes_bytes b k : is_bytes b -> is_bytes (frame_bytes b k).
Proof. intros. apply is_bytes_firstn, is_bytes_skipn; auto. Qed.

Lemma decode_never_else b k e : is_bytes b -> header_at b k -> decode text (frame_bytes b k) = Err e -> e = MAVError.
Proof.
  intros B H E. destruct (decode_errors _ _ _ (frame_bytes_bytes b k B) E) as [[X _]|[_ X]]; auto.
  exfalso. destruct H as [L _]. apply (f_equal (@length N)) in X. rewrite length_frame_bytes in X by lia.
  pose proof (frame_end_gt b k). simpl in X. lia.
Qed.

Lemma frame_v1_length c f : frame_v1 c f -> length f = 6 + N.to_nat (nth 1 f 0%N) + 2.
Proof.
  intros [_ (body & lo & hi & sig & E & Ls & Hl & N1 & _)]. rewrite N1, Nat2N.id, E. destruct sig; [|discriminate].
  cbn [length]. rewrite !app_length. simpl. lia.
Qed.

Lemma decode_accepts b k : is_bytes b -> header_at b k ->
  ((exists d, decode text (frame_bytes b k) = Ok d) <-> exists c, frame_v1 c (frame_bytes b k)).
Proof.
  intros B H. pose proof (frame_bytes_bytes b k B) as B'.
  assert (E : nth 0 (frame_bytes b k) 0%N = 254%N).
  { rewrite frame_bytes_nth by lia. rewrite Nat.add_0_r. apply valid_header_254; auto. }
  destruct (decode_v1 text _ B' E) as [(c & F & D)|(N & D)]; rewrite D; split.
  - eauto.
  - eauto.
  - intros [d X]; discriminate.
  - intros [c F]. exfalso. eapply N; eauto.
Qed.

Lemma decode_frame_inside b k i : is_bytes b -> frame_at (fun f => exists d, decode text f = Ok d) b k i ->
  frame_end b k <= length b /\ exists c, is_msg i c /\ frame_v1 c (frame_bytes b k).
Proof.
  intros B (H & N5 & A). apply decode_accepts in A; auto. destruct A as [c F].
  pose proof (frame_v1_length _ _ F) as L. rewrite frame_bytes_nth in L by lia. rewrite length_frame_bytes in L by (destruct H; lia).
  unfold frame_end in *. fold (announced b k) in L. split; [destruct H; lia|]. exists c. split; auto.
  destruct F as [F _]. rewrite frame_bytes_nth in F by lia. rewrite N5 in F. auto.
Qed.

Lemma segment_decode_total b : is_bytes b -> exists p v s, segment_buffer (decode text) b = Ok (p, v, s).
Proof.
  intros B. destruct (segment_buffer (decode text) b) as [[[p v] s]|e] eqn:E; eauto.
  apply segment_err_iff in E; auto. destruct E as (k & s & _ & H & _ & PE & NM & _).
  exfalso. apply NM. eapply decode_never_else; eauto.
Qed.

Lemma segment_decode_iff b p v s : is_bytes b ->
  segment_buffer (decode text) b = Ok (p, v, s) <->
  segments (fun f => exists c, frame_v1 c f) b s /\ classifies b s p /\ validates b s v.
Proof.
  intros B. rewrite segment_ok_iff by auto. unfold acc.
  assert (X : forall k i, frame_at (fun f => exists d, decode text f = Ok d) b k i <-> frame_at (fun f => exists c, frame_v1 c f) b k i).
  { intros k i. unfold frame_at. split; intros (H & N5 & A); repeat (split; auto); apply decode_accepts; auto. }
  assert (Y : segments (fun x => exists d, decode text x = Ok d) b s <-> segments (fun f => exists c, frame_v1 c f) b s).
  { unfold segments, segments_upto. split; intros (A1 & A2 & A3); (split; [|split]; auto).
    - intros k i I. destruct (A1 _ _ I). split; auto. apply X; auto.
    - intros k i Hk F. apply A3; auto. apply X; auto.
    - intros k i I. destruct (A1 _ _ I). split; auto. apply X; auto.
    - intros k i Hk F. apply A3; auto. apply X; auto. }
  rewrite Y. split; [tauto|]. intros (H1 & H2 & H3). repeat (split; auto).
  intros k e Hd PE NM. exfalso. apply NM. eapply decode_never_else; eauto.
Qed.

Lemma resync l : is_bytes (stream l) ->
  (forall f, In (Good f) l -> complete_frame (fun f => exists c, frame_v1 c f) f) ->
  (forall j i, in_junk l j -> ~ frame_at (fun f => exists c, frame_v1 c f) (stream l) j i) ->
  exists p v, segment_buffer (decode text) (stream l) = Ok (p, v, good_starts 0 l) /\
    length p = length (stream l) /\ length v = 8 * length (stream l) /\
    forall j, j < length (stream l) ->
      (nth j p UNKNOWN = UNKNOWN <-> in_junk l j) /\
      (forall r, r < 8 -> nth (8 * j + r) v 0%Z = 0%Z <-> in_junk l j) /\
      (forall r, r < 8 -> nth (8 * j + r) v 0%Z = 1%Z <-> ~ in_junk l j).
Proof.
  intros B G J. destruct (segment_decode_total (stream l) B) as (p & v & s & E). exists p, v.
  pose proof E as E0. apply segment_decode_iff in E; auto. destruct E as (Sg & C & V).
  assert (Es : s = good_starts 0 l).
  { apply (segment_decode_iff _ p v s B) in E0 as (Sg' & _).
    pose proof (chunks_segments _ l G J) as Sc.
    assert (XX : forall (accepts : bytes -> Prop) x y, segments accepts (stream l) x -> segments accepts (stream l) y -> x = y).
    { intros accepts x y. apply upto_unique. }
    eapply XX; eauto. }
  subst s. split; auto. destruct C as (CL & CC). destruct V as (VL & VV). split; auto. split; auto.
  intros j Hj. pose proof (chunks_uncovered _ l G J j Hj) as CU. destruct (CC j Hj) as (_ & _ & _ & C4).
  assert (DJ : in_junk l j \/ ~ in_junk l j).
  { destruct (covered_dec (stream l) (good_starts 0 l) j); [right; tauto|].
    destruct (chunks_covered l j Hj) as [(l1 & f & l2 & E & R)|X]; auto.
    exfalso. apply n. exists (length (stream l1)), (nth 5 f 0%N). split; [apply starts_in; exists l1, f, l2; auto|].
    destruct (good_frame _ l G J l1 f l2 E) as (_ & -> & _). auto. }
  split; [tauto|]. split; intros r Hr; destruct (VV j r Hj Hr) as (V1 & V2); tauto.
Qed.
End Decode.

(** Bad buffer intervals. *)
Lemma run_step parts n i j : maximal_run parts n i j -> nth i parts HEADER = UNKNOWN.
Proof. intros (A & B & _). apply B. lia. Qed.

Lemma is_unknown_true p : is_unknown p = true <-> p = UNKNOWN.
Proof. destruct p; simpl; split; intros; auto; discriminate. Qed.
Lemma is_unknown_false p : is_unknown p = false <-> p <> UNKNOWN.
Proof. destruct p; simpl; split; intros; auto; try discriminate. congruence. Qed.

Lemma bad_loop_spec parts n : n <= length parts -> forall f bi len acc0,
  bi + f = n -> len <= bi ->
  (forall q, bi - len <= q < bi -> nth q parts HEADER = UNKNOWN) ->
  (bi - len = 0 \/ nth (bi - len - 1) parts HEADER <> UNKNOWN) ->
  (forall i j, In (i, j) acc0 <-> maximal_run parts n i j /\ j < bi) ->
  StronglySorted (fun x y : nat * nat => snd x < fst y) acc0 ->
  exists l, bad_loop parts f bi len acc0 = Ok l /\ (forall i j, In (i, j) l <-> maximal_run parts n i j) /\
    StronglySorted (fun x y => snd x < fst y) l.
Proof.
  intros Ln f.
  assert (SA : forall (acc0 : list (nat * nat)) a c, StronglySorted (fun x y => snd x < fst y) acc0 ->
     (forall i j, In (i, j) acc0 -> j < a) -> StronglySorted (fun x y => snd x < fst y) (acc0 ++ [(a, c)])).
  { intros acc0 a c H K. induction H as [|x acc0 Hs IH HF]; simpl; [repeat constructor|].
    constructor; [apply IH; intros; eapply K; right; eauto|]. apply Forall_app. split; auto. constructor; auto.
    simpl. destruct x as [x1 x2]. eapply K. left; reflexivity. }
  assert (LA : forall len acc0 bi, (forall q, bi - len <= q < bi -> nth q parts HEADER = UNKNOWN) -> len <= bi -> bi <= n ->
     (forall i j, In (i, j) acc0 -> maximal_run parts n i j /\ j < bi) ->
     (bi - len = 0 \/ nth (bi - len - 1) parts HEADER <> UNKNOWN) ->
     forall i j, In (i, j) acc0 -> j < bi - len \/ (len = 0 /\ j < bi)).
  { intros len acc0 bi HU HL HB HI HK i j I. destruct (HI _ _ I) as [(R1 & R2 & R3 & R4) Hj].
    destruct (Nat.lt_ge_cases j (bi - len)); auto. exfalso.
    destruct R4 as [R4|R4]; [lia|]. apply R4, HU. lia. }
  induction f as [|f IH]; intros bi len acc0 E Hl HU HK HI HS.
  - simpl. assert (bi = n) by lia. subst bi. eexists. split; [reflexivity|].
    destruct (Nat.ltb_spec 0 len).
    + split.
      * intros i j. rewrite in_app_iff, HI. simpl. split.
        -- intros [[R _]|[X|[]]]; auto. injection X as <- <-. split; [lia|]. split; auto.
        -- intros R. destruct (Nat.eq_dec j n) as [->|]; [|left; split; auto; destruct R; lia].
           right. left. f_equal. destruct R as (R1 & R2 & R3 & R4).
           destruct (lt_eq_lt_dec i (n - len)) as [[X|X]|X]; auto; exfalso.
           ++ destruct HK as [HK|HK]; [lia|]. apply HK, R2. lia.
           ++ destruct R3 as [R3|R3]; [lia|]. apply R3, HU. lia.
      * apply SA; auto. intros i j I. apply HI in I as I'. destruct (LA len acc0 n HU Hl ltac:(lia) (fun i j I => proj1 (HI i j) I) HK i j I); lia.
    + split; auto. intros i j. rewrite HI. split; [tauto|]. intros R. split; auto.
      destruct (Nat.eq_dec j n) as [->|]; [|destruct R; lia]. exfalso. destruct R as (R1 & R2 & _).
      destruct HK as [HK|HK]; [lia|]. apply HK. apply R2. lia.
  - cbn [bad_loop]. unfold index.
    destruct (nth_error parts bi) as [p|] eqn:EP; [|apply nth_error_None in EP; lia].
    apply (nth_error_nth _ _ HEADER) in EP. cbn [bind].
    destruct (is_unknown p) eqn:U.
    + apply is_unknown_true in U. subst p. apply IH; [lia|lia| | | |exact HS].
      * intros q Hq. destruct (Nat.eq_dec q bi) as [->|]; auto. apply HU. lia.
      * replace (S bi - S len) with (bi - len) by lia. auto.
      * intros i j. rewrite HI. split; intros [R Hj]; split; auto.
        destruct (Nat.eq_dec j bi) as [->|]; [|lia]. exfalso. destruct R as (R1 & _ & _ & [R4|R4]); [lia|]. auto.
    + apply is_unknown_false in U. rewrite <- EP in U. apply IH; [lia|lia|intros; lia| | |].
      * replace (S bi - 0 - 1) with bi by lia. auto.
      * assert (NR : forall i j, maximal_run parts n i j -> j <> S bi).
        { intros i j (R1 & R2 & _) ->. apply U, R2. lia. }
        destruct (Nat.ltb_spec 0 len).
        -- intros i j. rewrite in_app_iff, HI. simpl. split.
           ++ intros [[R Hj]|[X|[]]]; [split; auto|]. injection X as <- <-. split; [|lia]. split; [lia|]. split; auto.
           ++ intros [R Hj]. destruct (Nat.eq_dec j bi) as [->|]; [|left; split; auto; lia].
              right. left. f_equal. destruct R as (R1 & R2 & R3 & R4).
              destruct (lt_eq_lt_dec i (bi - len)) as [[X|X]|X]; auto; exfalso.
              ** destruct HK as [HK|HK]; [lia|]. apply HK, R2. lia.
              ** destruct R3 as [R3|R3]; [lia|]. apply R3, HU. lia.
        -- intros i j. rewrite HI. split; intros [R Hj]; split; auto.
           destruct (Nat.eq_dec j bi) as [->|]; [|lia]. exfalso. destruct R as (R1 & R2 & _).
           destruct HK as [HK|HK]; [lia|]. apply HK. apply R2. lia.
      * destruct (Nat.ltb_spec 0 len); auto. apply SA; auto. intros i j I.
        destruct (LA len acc0 bi HU Hl ltac:(lia) (fun i j I => proj1 (HI i j) I) HK i j I); lia.
Qed.

Lemma bad_loop_short parts : forall f bi len acc0, length parts < bi + f -> bi <= length parts ->
  bad_loop parts f bi len acc0 = Err IndexError.
Proof.
  induction f as [|f IH]; intros bi len acc0 H1 H2; [lia|]. cbn [bad_loop]. unfold index.
  destruct (nth_error parts bi) as [p|] eqn:EP; [|reflexivity]. cbn [bind].
  assert (bi < length parts) by (apply nth_error_Some; congruence).
  destruct (is_unknown p); apply IH; lia.
Qed.

Lemma existsb_unknown parts : existsb is_unknown parts = true <-> In UNKNOWN parts.
Proof.
  rewrite existsb_exists. split.
  - intros (x & I & H). apply is_unknown_true in H. subst; auto.
  - intros I. exists UNKNOWN. auto.
Qed.

Lemma bad_buffer_idx_spec buffer parts :
  (~ In UNKNOWN parts -> bad_buffer_idx buffer parts = Ok None) /\
  (In UNKNOWN parts -> length parts < length buffer -> bad_buffer_idx buffer parts = Err IndexError) /\
  (In UNKNOWN parts -> length buffer <= length parts -> exists l, bad_buffer_idx buffer parts = Ok (Some l) /\
     (forall i j, In (i, j) l <-> maximal_run parts (length buffer) i j) /\ StronglySorted (fun x y => snd x < fst y) l).
Proof.
  unfold bad_buffer_idx. destruct (existsb is_unknown parts) eqn:E.
  - apply existsb_unknown in E. cbn [negb]. split; [tauto|]. split; intros _ L.
    + rewrite bad_loop_short by lia. reflexivity.
    + destruct (bad_loop_spec parts (length buffer) L (length buffer) 0 0 []) as (l & -> & H1 & H2); try lia.
      * intros i j. split; [intros []|]. intros [_ H]. lia.
      * constructor.
      * cbn [bind]. exists l. auto.
  - assert (N : ~ In UNKNOWN parts) by (intros H; apply existsb_unknown in H; congruence).
    split; [reflexivity|tauto].
Qed.

Lemma bad_dict (buffer : bytes) (l : list (nat * nat)) : forall d : list (nat * bytes),
  StronglySorted (fun x y => snd x < fst y) l -> (forall x, In x l -> fst x < snd x) ->
  (forall x y, In x (map fst d) -> In y l -> x < fst y) ->
  fold_left (fun d iv => dict_set Nat.eqb d (fst iv) (slice buffer (fst iv) (snd iv))) l d =
  d ++ map (fun iv => (fst iv, slice buffer (fst iv) (snd iv))) l.
Proof.
  induction l as [|[i j] l IH]; intros d H P K; simpl; [rewrite app_nil_r; auto|].
  inversion H as [|? ? Hs HF]; subst. rewrite Forall_forall in HF.
  rewrite (dict_set_fresh _ nateqb_spec).
  - rewrite IH; auto.
    + rewrite <- app_assoc. reflexivity.
    + intros x I. apply P. right; auto.
    + intros x y Ix Iy. rewrite map_app, in_app_iff in Ix. simpl in Ix. destruct Ix as [Ix|[<-|[]]].
      * apply K; auto. right; auto.
      * specialize (HF _ Iy). specialize (P (i, j) (or_introl eq_refl)). simpl in *. lia.
  - intros X. specialize (K _ (i, j) X (or_introl eq_refl)). simpl in K. lia.
Qed.

Lemma bad_buffer_parts_spec buffer parts :
  bad_buffer_parts buffer parts =
  match bad_buffer_idx buffer parts with
  | Ok None => Ok []
  | Ok (Some l) => Ok (map (fun iv => (fst iv, firstn (snd iv - fst iv) (skipn (fst iv) buffer))) l)
  | Err e => Err e
  end.
Proof.
  destruct (bad_buffer_idx_spec buffer parts) as (A1 & A2 & A3).
  unfold bad_buffer_parts. destruct (existsb is_unknown parts) eqn:E.
  - apply existsb_unknown in E. cbn [negb].
    destruct (Nat.lt_ge_cases (length parts) (length buffer)) as [L|L].
    + rewrite (A2 E L), bad_loop_short by lia. reflexivity.
    + destruct (A3 E L) as (l & X & H1 & H2). rewrite X. unfold bad_buffer_idx in X.
      apply existsb_unknown in E. rewrite E in X. cbn [negb] in X. apply bind_ok in X. destruct X as (l' & -> & X).
      injection X as ->. cbn [bind]. f_equal. rewrite bad_dict; auto.
      * intros [i j] I. apply H1 in I. destruct I. simpl. lia.
      * intros x y [].
  - rewrite A1; [reflexivity|]. intros H. apply existsb_unknown in H. congruence.
Qed.

Lemma unknown_run parts n k : k < n -> nth k parts HEADER = UNKNOWN -> exists i j, maximal_run parts n i j /\ i <= k < j.
Proof.
  intros Hk U.
  assert (L : forall m, m <= k -> (forall q, k - m <= q <= k -> nth q parts HEADER = UNKNOWN) \/
     exists i, i <= k /\ (forall q, i <= q <= k -> nth q parts HEADER = UNKNOWN) /\ (i = 0 \/ nth (i - 1) parts HEADER <> UNKNOWN)).
  { induction m as [|m IH]; intros Hm.
    - left. intros q Hq. replace q with k by lia. auto.
    - destruct (IH ltac:(lia)) as [A|A]; auto.
      destruct (is_unknown (nth (k - S m) parts HEADER)) eqn:E.
      + left. intros q Hq. apply is_unknown_true in E. destruct (Nat.eq_dec q (k - S m)) as [->|]; auto. apply A; lia.
      + right. exists (k - m). split; [lia|]. split; auto. right. apply is_unknown_false. replace (k - m - 1) with (k - S m) by lia. auto. }
  assert (L' : exists i, i <= k /\ (forall q, i <= q <= k -> nth q parts HEADER = UNKNOWN) /\ (i = 0 \/ nth (i - 1) parts HEADER <> UNKNOWN)).
  { destruct (L k (le_n _)) as [A|A]; auto. exists 0. split; [lia|]. split; auto. intros q Hq. apply A. lia. }
  assert (R : forall m, k + m < n -> (forall q, k <= q <= k + m -> nth q parts HEADER = UNKNOWN) \/
     exists j, k < j < n /\ (forall q, k <= q < j -> nth q parts HEADER = UNKNOWN) /\ nth j parts HEADER <> UNKNOWN).
  { induction m as [|m IH]; intros Hm.
    - left. intros q Hq. replace q with k by lia. auto.
    - destruct (IH ltac:(lia)) as [A|A]; auto.
      destruct (is_unknown (nth (k + S m) parts HEADER)) eqn:E.
      + left. intros q Hq. apply is_unknown_true in E. destruct (Nat.eq_dec q (k + S m)) as [->|]; auto. apply A; lia.
      + right. exists (k + S m). split; [lia|]. split; [intros q Hq; apply A; lia|]. apply is_unknown_false; auto. }
  destruct L' as (i & Hi & A & A').
  destruct (R (n - 1 - k) ltac:(lia)) as [C|(j & Hj & C & C')].
  - exists i, n. split; [|lia]. split; [lia|]. split; auto. intros q Hq. destruct (Nat.le_gt_cases q k); [apply A|apply C]; lia.
  - exists i, j. split; [|lia]. split; [lia|]. split; auto. intros q Hq. destruct (Nat.le_gt_cases q k); [apply A|apply C]; lia.
Qed.

Lemma bad_parts_empty buffer parts : length parts = length buffer ->
  (bad_buffer_parts buffer parts = Ok [] <-> bad_buffer_idx buffer parts = Ok None).
Proof.
  intros L. rewrite bad_buffer_parts_spec. destruct (bad_buffer_idx_spec buffer parts) as (A1 & A2 & A3).
  destruct (existsb is_unknown parts) eqn:E.
  - apply existsb_unknown in E. destruct (A3 E ltac:(lia)) as (l & -> & H1 & H2). split; [|discriminate].
    intros X. exfalso. destruct l as [|x l]; [|discriminate].
    apply (In_nth _ _ HEADER) in E. destruct E as (k & Hk & E).
    destruct (unknown_run parts (length buffer) k ltac:(lia) E) as (i & j & R & _). apply H1 in R. destruct R.
  - rewrite A1; [tauto|]. intros H. apply existsb_unknown in H. congruence.
Qed.
