(** C93: how many byte strings pass for messages. *)
From Coq Require Import List NArith ZArith Bool Lia Arith.
From Verif.Model Require Import Py Dialect Mavlink Segmentation.
From Verif.Spec Require Import Bytes Header CrcSpec Frame Segment CountSpec.
From Verif.Proofs Require Import Base DialectP SegmentP SegStream PackP CountP.
Import ListNotations.

(** There are 256^n byte strings of length n. *)
Theorem c93_all : forall n, counts (of_length n) (256 ^ N.of_nat n).
Proof. intros n. exists (all_bytes n). split; [apply all_bytes_nodup|]. split; [apply all_bytes_in|apply all_bytes_length]. Qed.
Print Assumptions c93_all.

(** Before the checksum of a frame with a known id and the right length byte nothing is wrong: exactly one checksum is accepted. *)
Theorem c93_one_checksum : forall text c body, In c mavlink_classes -> is_bytes body -> 5 <= length body -> nth 0 body 0%N = N.of_nat (length body - 5) -> nth 4 body 0%N = mc_id c ->
  exists lo hi, (lo < 256)%N /\ (hi < 256)%N /\
    forall lo' hi', (lo' < 256)%N -> (hi' < 256)%N -> ((exists d, decode text (254%N :: body ++ [lo'; hi']) = Ok d) <-> lo' = lo /\ hi' = hi).
Proof.
  intros text c body Hc Hb Lb N0 N4. destruct body as [|n [|a [|x [|d [|i pl]]]]]; try (cbn [length] in Lb; lia). cbn [nth length] in N0, N4. subst i.
  pose proof (check_bytes c (n :: a :: x :: d :: mc_id c :: pl)) as Hk. destruct (check c (n :: a :: x :: d :: mc_id c :: pl)) as [|lo [|hi [|]]] eqn:Ek; try discriminate Ek.
  inversion Hk as [|? ? Hlo Hk2]; subst. inversion Hk2 as [|? ? Hhi _]; subst. exists lo, hi. split; [exact Hlo|]. split; [exact Hhi|]. intros lo' hi' Hl Hh. replace (S (S (S (S (S (length pl))))) - 5) with (length pl) in * by lia.
  assert (Hall : is_bytes (254%N :: (N.of_nat (length pl) :: a :: x :: d :: mc_id c :: pl) ++ [lo'; hi'])).
  { constructor; [reflexivity|]. apply Forall_app. split; [exact Hb|]. repeat constructor; assumption. }
  change (accepted text (254%N :: (N.of_nat (length pl) :: a :: x :: d :: mc_id c :: pl) ++ [lo'; hi']) <-> lo' = lo /\ hi' = hi). rewrite accepted_iff by (exact Hall || reflexivity). split.
  - intros [c' F]. apply frame_shape in F as (Hc' & h & q & Lh & _ & _ & _ & E); [|exact Hall]. destruct h as [|a' [|x' [|d' [|]]]]; try discriminate Lh. unfold wire in E. cbv zeta in E. cbn [app] in E. injection E as El <- <- <- Ei Er.
    assert (c' = c) by (symmetry; apply classes_id; assumption). subst c'. apply Nat2N.inj in El. apply app_inv_len in Er; [|exact El]. destruct Er as [<- Er]. cbn [app] in Er. rewrite Ek in Er. injection Er as -> ->. auto.
  - intros [-> ->]. exists c. apply frame_shape; [exact Hall|]. split; [exact Hc|]. exists [a; x; d], pl. inversion Hb as [|? ? Hn H1]; subst. inversion H1 as [|? ? Ha H2]; subst. inversion H2 as [|? ? Hx H3]; subst. inversion H3 as [|? ? Hd H4]; subst. inversion H4 as [|? ? _ H5]; subst.
    split; [reflexivity|]. split; [lia|]. split; [repeat constructor; assumption|]. split; [exact H5|]. unfold wire. cbv zeta. cbn [app]. rewrite Ek. reflexivity.
Qed.
Print Assumptions c93_one_checksum.

(** A frame whose header arrived but whose payload and checksum are arbitrary: one in 65536 passes. *)
Theorem c93_damage : forall text c m q s p, In c mavlink_classes -> m < 256 -> (q < 256)%N -> (s < 256)%N -> (p < 256)%N ->
  counts (fun t => of_length (m + 2) t /\ exists d, decode text ([254%N; N.of_nat m; q; s; p; mc_id c] ++ t) = Ok d) (256 ^ N.of_nat m).
Proof.
  intros text c m q s p Hc Hm Hq Hs Hp. rewrite <- (all_bytes_length m). assert (Hi : (mc_id c < 256)%N) by (apply (is_msg_byte _ c); split; auto).
  apply (counts_map (fun pl => pl ++ check c ([N.of_nat m; q; s; p; mc_id c] ++ pl))); [apply all_bytes_nodup| |].
  - intros x y Hx Hy E. apply all_bytes_in in Hx as [_ Lx]. apply all_bytes_in in Hy as [_ Ly]. apply app_inv_len in E; [|congruence]. apply E.
  - intros t. split.
    + intros [[Ht Lt] A]. assert (Hall : is_bytes ([254%N; N.of_nat m; q; s; p; mc_id c] ++ t)) by (apply Forall_app; split; [repeat constructor; try assumption; try reflexivity; lia|exact Ht]).
      apply (accepted_iff text _ Hall eq_refl) in A as [c' F]. apply frame_shape in F as (Hc' & h & pl & Lh & _ & _ & Hpl & E); [|exact Hall]. destruct h as [|a' [|x' [|d' [|]]]]; try discriminate Lh. unfold wire in E. cbv zeta in E. cbn [app] in E. injection E as El -> -> -> Ei ->.
      assert (c' = c) by (symmetry; apply classes_id; assumption). subst c'. apply Nat2N.inj in El. subst m. exists pl. split; [apply all_bytes_in; split; [exact Hpl|reflexivity]|reflexivity].
    + intros (pl & Hpl & ->). apply all_bytes_in in Hpl as [Hpl Lpl]. subst m. split.
      * split; [apply Forall_app; split; [exact Hpl|apply check_bytes]|]. rewrite app_length. reflexivity.
      * assert (Hw : is_bytes (wire c [q; s; p] pl)) by (apply wire_bytes; [exact Hc|repeat constructor; assumption|exact Hpl|exact Hm]). change (accepted text (wire c [q; s; p] pl)). apply accepted_iff; [exact Hw|reflexivity|]. exists c. apply frame_shape; [exact Hw|].
        split; [exact Hc|]. exists [q; s; p], pl. split; [reflexivity|]. split; [exact Hm|]. split; [repeat constructor; assumption|]. split; [exact Hpl|reflexivity].
Qed.
Print Assumptions c93_damage.

(** Of the byte strings of length n + 8 that begin with the start marker, as many are accepted as there are messages times 256^(n+3). *)
Theorem c93_accepted : forall text n, n < 256 ->
  counts (fun b => of_length (n + 8) b /\ nth 0 b 0%N = 254%N /\ exists d, decode text b = Ok d) (N.of_nat (length mavlink_classes) * 256 ^ N.of_nat (n + 3)).
Proof.
  intros text n Hn. set (idx := list_prod mavlink_classes (list_prod (all_bytes 3) (all_bytes n))).
  replace (N.of_nat (length mavlink_classes) * 256 ^ N.of_nat (n + 3))%N with (N.of_nat (length idx)).
  2: { unfold idx. rewrite !prod_length, !Nat2N.inj_mul, !all_bytes_length, Nat2N.inj_add, N.pow_add_r. lia. }
  apply (counts_map (fun x => wire (fst x) (fst (snd x)) (snd (snd x)))).
  - unfold idx. apply nodup_prod; [apply classes_nodup|]. apply nodup_prod; apply all_bytes_nodup.
  - intros [c [h p]] [c' [h' p']] H H' E. unfold idx in *. rewrite !in_prod_iff, !all_bytes_in in H, H'. destruct H as (H1 & [_ H2] & [_ H3]), H' as (H4 & [_ H5] & [_ H6]). cbn [fst snd] in E. apply wire_inj in E; [|assumption|assumption|assumption|assumption|congruence]. destruct E as (-> & -> & ->). reflexivity.
  - intros b. split.
    + intros ([Hb Lb] & N0 & A). apply (accepted_iff text b Hb N0) in A as [c F]. apply frame_shape in F as (Hc & h & pl & Lh & _ & Hh & Hp & ->); [|exact Hb]. exists (c, (h, pl)). split; [|reflexivity]. unfold idx. rewrite !in_prod_iff, !all_bytes_in. rewrite wire_length in Lb by exact Lh. unfold of_length. repeat split; try assumption. lia.
    + intros ([c [h pl]] & H & ->). unfold idx in H. rewrite !in_prod_iff, !all_bytes_in in H. destruct H as (Hc & [Hh Lh] & [Hp Lp]). cbn [fst snd]. assert (Hw : is_bytes (wire c h pl)) by (apply wire_bytes; [assumption|assumption|assumption|lia]).
      split; [split; [exact Hw|rewrite wire_length by exact Lh; lia]|]. split; [reflexivity|]. apply (accepted_iff text _ Hw eq_refl). exists c. apply frame_shape; [exact Hw|]. split; [exact Hc|]. exists h, pl. split; [exact Lh|]. split; [lia|]. auto.
Qed.
Print Assumptions c93_accepted.

(** A buffer of n arbitrary bytes: a message of given id (with m payload bytes) stands at position k in exactly one of 2^40 cases, if it fits,
    and in none otherwise.  At position 0 it is reported then. *)
Theorem c93_position : forall text n k i m, plen i m ->
  (k + 8 + m <= n -> counts (fun b => of_length n b /\ frame_at (fun f => exists d, decode text f = Ok d) b k i) (256 ^ N.of_nat (n - 5))) /\
  (n < k + 8 + m -> counts (fun b => of_length n b /\ frame_at (fun f => exists d, decode text f = Ok d) b k i) 0).
Proof.
  intros text n k i m Hm. split; [apply position_count; exact Hm|]. intros Hn. exists []. split; [constructor|]. split; [|reflexivity]. intros b. split; [intros []|]. intros [[Hb Lb] F].
  pose proof Hm as (c & Hc & _). destruct (proj1 (place text b k i m c Hb Hc Hm) F) as (pre & h & pl & rest & Lk & Lh & Lp & Eb). rewrite Eb in Lb. rewrite !app_length, wire_length in Lb by exact Lh. lia.
Qed.
Print Assumptions c93_position.
Theorem c93_first : forall text n i m, plen i m -> 8 + m <= n ->
  counts (fun b => of_length n b /\ exists p v s, segment_buffer (decode text) b = Ok (p, v, s) /\ In (0, i) s) (256 ^ N.of_nat (n - 5)).
Proof.
  intros text n i m Hm Hn. destruct (position_count text n 0 i m Hm Hn) as (l & Nl & Hl & El). exists l. split; [exact Nl|]. split; [|exact El]. intros b. rewrite Hl. split.
  - intros [[Hb Lb] F]. split; [split; assumption|]. destruct (segment_decode_total text b Hb) as (p & v & s & E). exists p, v, s. split; [exact E|]. apply segment_ok_iff in E; [|exact Hb]. destruct E as ((_ & _ & S3) & _).
    destruct (S3 0 i) as [H|(k' & i' & _ & H)]; [lia|exact F|exact H|lia].
  - intros [[Hb Lb] (p & v & s & E & H)]. split; [split; assumption|]. apply segment_ok_iff in E; [|exact Hb]. destruct E as ((S1 & _) & _). apply (S1 0 i H).
Qed.
Print Assumptions c93_first.

(** Anything at all is reported for at most (n - 7) times the number of messages times 256^(n-5) of the 256^n buffers. *)
Theorem c93_phantoms : forall text n,
  at_most (fun b => of_length n b /\ exists p v s, segment_buffer (decode text) b = Ok (p, v, s) /\ s <> [])
    (N.of_nat (n - 7) * N.of_nat (length mavlink_classes) * 256 ^ N.of_nat (n - 5)).
Proof.
  intros text n. destruct (covered_union (list_prod (seq 0 (n - 7)) mavlink_classes) (fun x b => of_length n b /\ frame_at (accepted text) b (fst x) (mc_id (snd x))) (256 ^ N.of_nat (n - 5))) as (l & C & Ll).
  { intros [k c] H. apply in_prod_iff in H as [_ Hc]. cbn [fst snd]. destruct (cf_items _ (class_facts_in _ Hc)) as (items & m & _ & _ & _ & T & _). assert (Hm : plen (mc_id c) m) by (exists c; split; [split; auto|exact T]).
    destruct (le_lt_dec (k + 8 + m) n) as [L|L].
    - destruct (position_count text n k _ m Hm L) as (l & _ & Hl & El). exists l. split; [intros b Hb; apply Hl; exact Hb|lia].
    - destruct (c93_position text n k (mc_id c) m Hm) as [_ P]. destruct (P L) as (l & _ & Hl & El). exists l. split; [intros b Hb; apply Hl; exact Hb|lia]. }
  intros m Nm Hm. assert (L : length m <= length l).
  { apply NoDup_incl_length; [exact Nm|]. intros b Hb. destruct (Hm b Hb) as [[Hby Lb] (p & v & s & E & Ns)]. destruct s as [|[k i] s]; [contradiction|]. apply segment_ok_iff in E; [|exact Hby]. destruct E as ((S1 & _) & _).
    destruct (S1 k i (or_introl eq_refl)) as [_ F]. pose proof (decode_frame_inside text b k i Hby F) as (_ & c & [Hc Ei] & _). apply (C (k, c)).
    - apply in_prod_iff. split; [|exact Hc]. destruct F as ([L8 _] & _). apply in_seq. lia.
    - cbn [fst snd]. rewrite Ei. split; [split; assumption|exact F]. }
  rewrite prod_length, seq_length, Nat2N.inj_mul in Ll. lia.
Qed.
Print Assumptions c93_phantoms.

(** In a buffer of 98 random bytes something is reported with a probability below 2^-26. *)
Example c93_ex_phantoms : (N.of_nat (98 - 7) * N.of_nat (length mavlink_classes) * 256 ^ N.of_nat (98 - 5) * 2 ^ 26 < 256 ^ 98)%N.
Proof. vm_compute. reflexivity. Qed.
(** The hypotheses are met: a heartbeat has 9 payload bytes. *)
Example c93_ex_plen : plen 0 9 /\ exists c, In c mavlink_classes /\ mc_id c = 0%N.
Proof. assert (P : plen 0 9) by (apply payload_length_spec; vm_compute; reflexivity). split; [exact P|]. destruct P as (c & [H1 H2] & _). eauto. Qed.
