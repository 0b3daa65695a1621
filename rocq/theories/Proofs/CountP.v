(** Lemmas about numbers of byte strings. *)
From Coq Require Import List NArith ZArith Bool Lia Arith.
From Verif.Model Require Import Py Dialect Mavlink Segmentation.
From Verif.Spec Require Import Bytes Header CrcSpec Frame Segment CountSpec.
From Verif.Proofs Require Import Base DialectP CrcP MavlinkP MavlinkMore MessageP SegStream PackP.
Import ListNotations.

(** Lists without repetition. *)
Lemma nodup_map_on {A B} (f : A -> B) l : NoDup l -> (forall x y, In x l -> In y l -> f x = f y -> x = y) -> NoDup (map f l).
Proof.
  induction 1 as [|x l Hx Hl IH]; intros Inj; cbn [map]; constructor.
  - intros H. apply in_map_iff in H as (y & E & Hy). apply Inj in E; [subst; contradiction|right; exact Hy|left; reflexivity].
  - apply IH. intros a b Ha Hb. apply Inj; right; assumption.
Qed.
Lemma nodup_app {A} (l m : list A) : NoDup l -> NoDup m -> (forall x, In x l -> ~ In x m) -> NoDup (l ++ m).
Proof.
  induction 1 as [|x l Hx Hl IH]; intros Hm D; cbn [app]; [exact Hm|]. constructor.
  - intros H. apply in_app_or in H as [H|H]; [contradiction|]. apply (D x); [left; reflexivity|exact H].
  - apply IH; [exact Hm|]. intros y Hy. apply D. right. exact Hy.
Qed.
Lemma nodup_prod {A B} (l : list A) (m : list B) : NoDup l -> NoDup m -> NoDup (list_prod l m).
Proof.
  induction 1 as [|x l Hx Hl IH]; intros Hm; cbn [list_prod]; [constructor|]. apply nodup_app.
  - apply nodup_map_on; [exact Hm|]. intros a b _ _ E. injection E as ->. reflexivity.
  - apply IH. exact Hm.
  - intros [a b] H1 H2. apply in_map_iff in H1 as (y & E & _). injection E as <- _. apply in_prod_iff in H2 as [H2 _]. contradiction.
Qed.

(** All byte strings of a length. *)
Definition byte_values : list N := map N.of_nat (seq 0 256).
Lemma byte_values_in x : In x byte_values <-> (x < 256)%N.
Proof.
  unfold byte_values. rewrite in_map_iff. split.
  - intros (k & <- & H). apply in_seq in H. lia.
  - intros H. exists (N.to_nat x). split; [apply N2Nat.id|]. apply in_seq. lia.
Qed.
Lemma byte_values_nodup : NoDup byte_values.
Proof. apply nodup_map_on; [apply seq_NoDup|]. intros. apply Nat2N.inj. assumption. Qed.
Fixpoint all_bytes (n : nat) : list bytes :=
  match n with 0 => [[]] | S k => map (fun x => fst x :: snd x) (list_prod byte_values (all_bytes k)) end.
Lemma all_bytes_in n : forall b, In b (all_bytes n) <-> of_length n b.
Proof.
  unfold of_length. induction n as [|n IH]; intros b; cbn [all_bytes].
  - split; [intros [<-|[]]; split; [constructor|reflexivity]|]. intros [_ H]. destruct b; [left; reflexivity|discriminate].
  - rewrite in_map_iff. split.
    + intros ([x t] & <- & H). apply in_prod_iff in H as [H1 H2]. apply byte_values_in in H1. apply IH in H2 as [H2 H3]. cbn [fst snd length]. split; [constructor; assumption|lia].
    + intros [H L]. destruct b as [|x t]; [discriminate|]. inversion H; subst. exists (x, t). split; [reflexivity|]. apply in_prod_iff. split; [apply byte_values_in; assumption|]. apply IH. split; [assumption|cbn [length] in L; lia].
Qed.
Lemma all_bytes_nodup n : NoDup (all_bytes n).
Proof.
  induction n as [|n IH]; cbn [all_bytes]; [constructor; [intros []|constructor]|]. apply nodup_map_on; [apply nodup_prod; [apply byte_values_nodup|exact IH]|].
  intros [a b] [c d] _ _ E. cbn [fst snd] in E. injection E as -> ->. reflexivity.
Qed.
Lemma all_bytes_length n : N.of_nat (length (all_bytes n)) = (256 ^ N.of_nat n)%N.
Proof.
  induction n as [|n IH]; [reflexivity|]. cbn [all_bytes]. rewrite map_length, prod_length, Nat2N.inj_mul, IH. unfold byte_values. rewrite map_length, seq_length.
  replace (N.of_nat (S n)) with (N.succ (N.of_nat n)) by lia. rewrite N.pow_succ_r'. reflexivity.
Qed.

Lemma counts_map {A} (f : A -> bytes) (l : list A) (P : bytes -> Prop) : NoDup l -> (forall x y, In x l -> In y l -> f x = f y -> x = y) ->
  (forall b, P b <-> exists x, In x l /\ b = f x) -> counts P (N.of_nat (length l)).
Proof.
  intros Hl Inj HP. exists (map f l). split; [apply nodup_map_on; assumption|]. split; [|rewrite map_length; reflexivity].
  intros b. rewrite HP, in_map_iff. split; intros (x & H1 & H2); exists x; auto.
Qed.
Lemma at_most_map {A} (f : A -> bytes) (l : list A) (P : bytes -> Prop) : (forall b, P b -> exists x, In x l /\ b = f x) -> at_most P (N.of_nat (length l)).
Proof.
  intros HP m Hm Hin. assert (L : length m <= length (map f l)). { apply NoDup_incl_length; [exact Hm|]. intros b Hb. apply in_map_iff. destruct (HP b (Hin b Hb)) as (x & H & ->). exists x. auto. }
  rewrite map_length in L. lia.
Qed.
Lemma counts_at_most P n : counts P n -> at_most P n.
Proof. intros (l & Hl & HP & <-) m Hm Hin. assert (L : length m <= length l) by (apply NoDup_incl_length; [exact Hm|]; intros b Hb; apply HP, Hin, Hb). lia. Qed.

(** Frames. *)
Definition check (c : msg_class) (body : bytes) : bytes := let v := crc16 (body ++ [mc_crc_extra c]) in [(v mod 256)%N; (v / 256)%N].
Definition wire (c : msg_class) (h pl : bytes) : bytes :=
  let body := N.of_nat (length pl) :: h ++ mc_id c :: pl in 254%N :: body ++ check c body.
Lemma crc16_bound l : (crc16 l < 65536)%N.
Proof. apply crc_bits_bound. reflexivity. Qed.
Lemma check_iff c body lo hi : (lo < 256)%N -> (hi < 256)%N -> ((lo + 256 * hi)%N = crc16 (body ++ [mc_crc_extra c]) <-> [lo; hi] = check c body).
Proof.
  intros Hl Hh. unfold check. cbv zeta. set (v := crc16 _). split.
  - intros <-. replace (lo + 256 * hi)%N with (lo + hi * 256)%N by lia. rewrite N.mod_add, N.div_add, N.mod_small, N.div_small by lia. reflexivity.
  - intros E. apply (f_equal (fun l => (nth 0 l 0 + 256 * nth 1 l 0)%N)) in E. cbn [nth] in E. rewrite E. pose proof (N.div_mod v 256). lia.
Qed.
Lemma check_bytes c body : is_bytes (check c body).
Proof.
  unfold check. cbv zeta. pose proof (crc16_bound (body ++ [mc_crc_extra c])) as B. constructor; [apply N.mod_lt; discriminate|]. constructor; [|constructor]. apply N.div_lt_upper_bound; [discriminate|exact B].
Qed.
Lemma is_msg_byte i c : is_msg i c -> (i < 256)%N.
Proof. intros [H <-]. apply cf_id, class_facts_in, H. Qed.
Lemma classes_nodup : NoDup mavlink_classes.
Proof. eapply NoDup_map_inv. exact table_ids_nodup. Qed.
Lemma classes_id c c' : In c mavlink_classes -> In c' mavlink_classes -> mc_id c = mc_id c' -> c = c'.
Proof. intros H H' E. apply (is_msg_fun (mc_id c)); split; auto. Qed.
Lemma wire_length c h pl : length h = 3 -> length (wire c h pl) = length pl + 8.
Proof. intros H. unfold wire, check. cbn [length app]. rewrite !app_length. cbn [length]. lia. Qed.
Lemma wire_bytes c h pl : In c mavlink_classes -> is_bytes h -> is_bytes pl -> length pl < 256 -> is_bytes (wire c h pl).
Proof.
  intros Hc Hh Hp L. unfold wire. cbv zeta. constructor; [reflexivity|]. apply Forall_app. split; [|apply check_bytes]. constructor; [lia|]. apply Forall_app. split; [exact Hh|].
  constructor; [apply (is_msg_byte _ c); split; auto|exact Hp].
Qed.
Lemma wire_inj c h pl c' h' pl' : In c mavlink_classes -> In c' mavlink_classes -> length h = 3 -> length h' = 3 -> length pl = length pl' -> wire c h pl = wire c' h' pl' -> c = c' /\ h = h' /\ pl = pl'.
Proof.
  intros Hc Hc' Lh Lh' Lp E. destruct h as [|a [|b [|d [|]]]]; try discriminate Lh. destruct h' as [|a' [|b' [|d' [|]]]]; try discriminate Lh'.
  unfold wire in E. cbv zeta in E. cbn [app] in E. injection E as _ -> -> -> Ei Ep.
  apply (f_equal (firstn (length pl))) in Ep. rewrite firstn_app, Nat.sub_diag, firstn_all, firstn_O, app_nil_r in Ep. rewrite Lp, firstn_app, Nat.sub_diag, firstn_all, firstn_O, app_nil_r in Ep.
  split; [apply classes_id; assumption|]. split; [reflexivity|exact Ep].
Qed.
Lemma frame_shape c b : is_bytes b -> (frame_v1 c b <-> In c mavlink_classes /\ exists h pl, length h = 3 /\ length pl < 256 /\ is_bytes h /\ is_bytes pl /\ b = wire c h pl).
Proof.
  intros Hb. unfold frame_v1, frame_of. split.
  - intros [M (body & lo & hi & sig & -> & Ls & Hl & N1 & Hk)]. destruct sig; [|discriminate]. inversion Hb as [|? ? _ Hr]; subst. rewrite Forall_app in Hr. destruct Hr as [Hbody Hck]. cbn [app] in Hck.
    inversion Hck as [|? ? Hlo Hk2]; subst. inversion Hk2 as [|? ? Hhi _]; subst. split; [apply M|].
    destruct body as [|n [|a [|x [|d [|i pl]]]]]; try (cbn [length] in Hl; lia). cbn [app nth] in N1, M. cbn [length] in N1.
    inversion Hbody as [|? ? Hn H1]; subst. inversion H1 as [|? ? Ha H2]; subst. inversion H2 as [|? ? Hx H3]; subst. inversion H3 as [|? ? Hd H4]; subst. inversion H4 as [|? ? Hi H5]; subst.
    exists [a; x; d], pl. split; [reflexivity|]. split; [lia|]. split; [repeat constructor; assumption|]. split; [exact H5|]. destruct M as [_ <-]. apply check_iff in Hk; [|assumption|assumption].
    unfold wire. cbv zeta. cbn [app]. cbn [app] in Hk. replace (S (S (S (S (S (length pl))))) + 1 - 6) with (length pl) in * by lia. rewrite <- Hk. reflexivity.
  - intros [Hc (h & pl & Lh & Lp & Hh & Hp & ->)]. destruct h as [|a [|x [|d [|]]]]; try discriminate Lh. split; [split; [exact Hc|reflexivity]|].
    unfold wire. cbv zeta. cbn [app]. set (body := N.of_nat (length pl) :: a :: x :: d :: mc_id c :: pl). pose proof (check_bytes c body) as Hk. destruct (check c body) as [|lo [|hi [|]]] eqn:Ek; try discriminate Ek.
    inversion Hk as [|? ? Hlo Hk2]; subst. inversion Hk2 as [|? ? Hhi _]; subst. exists body, lo, hi, []. split; [unfold body; cbn [app]; reflexivity|]. split; [reflexivity|]. unfold body at 1. cbn [length]. split; [lia|]. split; [unfold body; cbn [nth length]; lia|].
    apply check_iff; [assumption|assumption|symmetry; exact Ek].
Qed.

Section Decode.
Variable text : bytes -> list N.
Definition accepted (b : bytes) : Prop := exists d, decode text b = Ok d.
Lemma accepted_iff b : is_bytes b -> nth 0 b 0%N = 254%N -> (accepted b <-> exists c, frame_v1 c b).
Proof.
  intros Hb H0. unfold accepted. destruct (decode_v1 text b Hb H0) as [(c & F & D)|(Nf & D)]; rewrite D.
  - split; eauto.
  - split; [intros [d X]; discriminate|]. intros [c F]. exfalso. eapply Nf. exact F.
Qed.

Lemma place b k i m c : is_bytes b -> is_msg i c -> plen i m ->
  (frame_at accepted b k i <-> exists pre h pl rest, length pre = k /\ length h = 3 /\ length pl = m /\ b = pre ++ wire c h pl ++ rest).
Proof.
  intros Hb Hc Hm. pose proof (plen_bounds i m Hm) as (_ & Lm & _). split.
  - intros F. pose proof (decode_frame_inside text b k i Hb F) as (Fe & c' & Mc & Fv). assert (c' = c) by (eapply is_msg_fun; eassumption). subst c'.
    pose proof (frame_bytes_bytes b k Hb) as Hf. apply (frame_shape c _ Hf) in Fv as (_ & h & pl & Lh & _ & _ & _ & Ew).
    destruct F as ([L8 V] & N5 & _). assert (Ea : announced b k = m).
    { unfold announced. assert (E1 : nth 1 (firstn 6 (skipn k b)) 0%N = nth (k + 1) b 0%N) by (rewrite nth_firstn by lia; apply nth_skipn).
      assert (E5 : nth 5 (firstn 6 (skipn k b)) 0%N = nth (k + 5) b 0%N) by (rewrite nth_firstn by lia; apply nth_skipn). rewrite <- E1. rewrite <- E5 in N5. destruct V as [n q s e i' Hp]. cbn [nth] in *. subst i'. rewrite Nat2N.id. eapply plen_fun; eassumption. }
    exists (firstn k b), h, pl, (skipn (6 + announced b k + 2) (skipn k b)). split; [rewrite firstn_length; lia|]. split; [exact Lh|]. split.
    + apply (f_equal (@length N)) in Ew. rewrite wire_length in Ew by exact Lh. unfold frame_bytes in Ew. rewrite firstn_length, skipn_length in Ew. unfold frame_end in Fe. lia.
    + rewrite <- Ew. unfold frame_bytes. rewrite firstn_skipn. symmetry. apply firstn_skipn.
  - intros (pre & h & pl & rest & <- & Lh & Lp & ->). destruct h as [|a [|x [|d [|]]]]; try discriminate Lh. assert (Es : skipn (length pre) (pre ++ wire c [a; x; d] pl ++ rest) = wire c [a; x; d] pl ++ rest) by (rewrite skipn_app, skipn_all, Nat.sub_diag; reflexivity).
    assert (Ei : mc_id c = i) by apply Hc. apply Forall_app in Hb as [_ Hb]. apply Forall_app in Hb as [Hw _]. pose proof (wire_length c [a; x; d] pl eq_refl) as Lw. split; [|split].
    + split; [rewrite !app_length, Lw; lia|]. rewrite Es. unfold wire. cbv zeta. cbn [app firstn]. rewrite Ei, Lp. constructor. exact Hm.
    + rewrite app_nth2_plus. unfold wire. cbv zeta. cbn [app nth]. exact Ei.
    + unfold frame_bytes. rewrite Es. assert (Ea : announced (pre ++ wire c [a; x; d] pl ++ rest) (length pre) = m) by (unfold announced; rewrite app_nth2_plus; unfold wire; cbv zeta; cbn [app nth]; lia).
      rewrite Ea. assert (E8 : 6 + m + 2 = length (wire c [a; x; d] pl)) by lia. rewrite E8, firstn_app, Nat.sub_diag, firstn_all, firstn_O, app_nil_r.
      apply accepted_iff; [exact Hw|reflexivity|]. exists c. apply frame_shape; [exact Hw|]. split; [apply Hc|]. exists [a; x; d], pl. rewrite Lp. split; [reflexivity|]. split; [exact Lm|].
      unfold wire in Hw. cbv zeta in Hw. cbn [app] in Hw. inversion Hw as [|? ? _ H1]; subst. inversion H1 as [|? ? _ H2]; subst. inversion H2 as [|? ? Ha H3]; subst. inversion H3 as [|? ? Hx H4]; subst. inversion H4 as [|? ? Hd H5]; subst. inversion H5 as [|? ? _ H6]; subst.
      apply Forall_app in H6 as [H6 _]. split; [repeat constructor; assumption|]. split; [exact H6|reflexivity].
Qed.
Definition spread (c : msg_class) (x : bytes * (bytes * (bytes * bytes))) : bytes := fst x ++ wire c (fst (snd x)) (fst (snd (snd x))) ++ snd (snd (snd x)).
Definition parts_of (k m r : nat) : list (bytes * (bytes * (bytes * bytes))) := list_prod (all_bytes k) (list_prod (all_bytes 3) (list_prod (all_bytes m) (all_bytes r))).
Lemma parts_in k m r a h p z : In (a, (h, (p, z))) (parts_of k m r) <-> of_length k a /\ of_length 3 h /\ of_length m p /\ of_length r z.
Proof. unfold parts_of. rewrite !in_prod_iff, !all_bytes_in. tauto. Qed.
Lemma parts_nodup k m r : NoDup (parts_of k m r).
Proof. unfold parts_of. repeat (apply nodup_prod; [apply all_bytes_nodup|]). apply all_bytes_nodup. Qed.
Lemma parts_length k m r : N.of_nat (length (parts_of k m r)) = (256 ^ N.of_nat (k + 3 + m + r))%N.
Proof.
  unfold parts_of. rewrite !prod_length, !Nat2N.inj_mul, !all_bytes_length. rewrite !Nat2N.inj_add, !N.pow_add_r. rewrite !N.mul_assoc. reflexivity.
Qed.
Lemma spread_in c b k i m n : is_msg i c -> plen i m -> k + 8 + m <= n -> (of_length n b /\ frame_at accepted b k i <-> exists x, In x (parts_of k m (n - k - 8 - m)) /\ b = spread c x).
Proof.
  intros Hc Hm Hn. pose proof (plen_bounds i m Hm) as (_ & Lm & _). split.
  - intros [[Hb Lb] F]. apply (place b k i m c Hb Hc Hm) in F as (pre & h & pl & rest & Lk & Lh & Lp & ->). exists (pre, (h, (pl, rest))). split; [|reflexivity]. apply parts_in.
    rewrite !app_length, wire_length in Lb by exact Lh. apply Forall_app in Hb as [H1 H2]. apply Forall_app in H2 as [H2 H3]. unfold wire in H2. cbv zeta in H2. cbn [app] in H2. inversion H2 as [|? ? _ H4]; subst. inversion H4 as [|? ? _ H5]; subst. apply Forall_app in H5 as [H5 _]. apply Forall_app in H5 as [H5 H6]. inversion H6 as [|? ? _ H7]; subst.
    unfold of_length. repeat split; try assumption. lia.
  - intros ([pre [h [pl rest]]] & H & ->). apply parts_in in H as ([H1 L1] & [H2 L2] & [H3 L3] & [H4 L4]). unfold spread. cbn [fst snd].
    assert (Hb : is_bytes (pre ++ wire c h pl ++ rest)) by (apply Forall_app; split; [assumption|]; apply Forall_app; split; [|assumption]; apply wire_bytes; [apply Hc|assumption|assumption|lia]).
    split; [split; [exact Hb|rewrite !app_length, wire_length by exact L2; lia]|]. apply (place _ k i m c Hb Hc Hm). exists pre, h, pl, rest. auto.
Qed.
Lemma spread_inj c k m r x y : In c mavlink_classes -> In x (parts_of k m r) -> In y (parts_of k m r) -> spread c x = spread c y -> x = y.
Proof.
  destruct x as [a [h [p z]]], y as [a' [h' [p' z']]]. rewrite !parts_in. unfold of_length. intros Hc ([_ A] & [_ B] & [_ C] & [_ D]) ([_ A'] & [_ B'] & [_ C'] & [_ D']) E. unfold spread in E. cbn [fst snd] in E.
  apply app_inv_len in E; [|congruence]. destruct E as [-> E]. apply app_inv_len in E; [|rewrite !wire_length by assumption; congruence]. destruct E as [E ->]. apply wire_inj in E; [|assumption|assumption|assumption|assumption|congruence]. destruct E as (_ & -> & ->). reflexivity.
Qed.
Lemma position_count n k i m : plen i m -> k + 8 + m <= n -> counts (fun b => of_length n b /\ frame_at accepted b k i) (256 ^ N.of_nat (n - 5)).
Proof.
  intros Hm Hn. pose proof Hm as (c & Hc & _). replace (256 ^ N.of_nat (n - 5))%N with (N.of_nat (length (parts_of k m (n - k - 8 - m)))) by (rewrite parts_length; do 2 f_equal; lia).
  apply (counts_map (spread c)); [apply parts_nodup| |].
  - intros x y. apply spread_inj. apply Hc.
  - intros b. apply spread_in; assumption.
Qed.
Lemma covered_union {A} (L : list A) (P : A -> bytes -> Prop) (a : N) :
  (forall x, In x L -> exists l, (forall b, P x b -> In b l) /\ (N.of_nat (length l) <= a)%N) ->
  exists l, (forall x b, In x L -> P x b -> In b l) /\ (N.of_nat (length l) <= N.of_nat (length L) * a)%N.
Proof.
  induction L as [|x L IH]; intros H; [exists []; split; [intros x b []|cbn; lia]|]. destruct (H x (or_introl eq_refl)) as (l1 & C1 & L1). destruct IH as (l2 & C2 & L2); [intros y Hy; apply H; right; exact Hy|].
  exists (l1 ++ l2). split; [|rewrite app_length; cbn [length]; lia]. intros y b [<-|Hy] Hb; apply in_or_app; [left; apply C1; exact Hb|right; eapply C2; eassumption].
Qed.
End Decode.
