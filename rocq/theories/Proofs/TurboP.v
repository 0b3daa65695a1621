(** Lemmas about the turbo decoder. *)
From Coq Require Import List ZArith Reals Lra Bool Lia Arith.
From Verif.Model Require Import Py Float InfoTheory Clustering Turbo.
From Verif.Spec Require Import RealOps Info Cluster TurboSpec.
From Verif.Proofs Require Import Base RealP InfoP PerfP ClusterP EmleP.
Import ListNotations.
Local Close Scope R_scope.

Lemma broadcast_same {A B C} (f : A -> B -> C) l l' : length l = length l' -> broadcast f l l' = Ok (zip_with f l l').
Proof.
  intro H. unfold broadcast, zip_with. destruct l as [|a [|a' l]], l' as [|b [|b' l']]; cbn in H; try discriminate; try reflexivity.
  cbn [length]. injection H as H. rewrite H, Nat.eqb_refl. reflexivity.
Qed.
Lemma zip_with_as_seq {A B C} (f : A -> B -> C) l l' a b : length l = length l' ->
  zip_with f l l' = map (fun i => f (nth i l a) (nth i l' b)) (seq 0 (length l)).
Proof.
  intro H. apply nth_ext with (d := f a b) (d' := f a b).
  - rewrite zip_with_length, map_length, seq_length. lia.
  - intros i Hi. rewrite zip_with_length in Hi. rewrite (zip_with_nth f l l' i a b) by lia.
    rewrite (nth_map_seq _ (length l)) by lia. reflexivity.
Qed.

Lemma vplus_length a b : length (vplus a b) = length a.
Proof. unfold vplus. rewrite map_length, seq_length. reflexivity. Qed.
Lemma vminus_length a b : length (vminus a b) = length a.
Proof. unfold vminus. rewrite map_length, seq_length. reflexivity. Qed.
Lemma vplus_nth a b i : i < length a -> (nth i (vplus a b) 0 = nth i a 0 + nth i b 0)%R.
Proof. intro H. unfold vplus. rewrite (nth_map_seq _ (length a)) by lia. reflexivity. Qed.
Lemma vminus_nth a b i : i < length a -> (nth i (vminus a b) 0 = nth i a 0 - nth i b 0)%R.
Proof. intro H. unfold vminus. rewrite (nth_map_seq _ (length a)) by lia. reflexivity. Qed.
Lemma broadcast_plus (a b : list R) : length a = length b -> broadcast (fadd Rops) a b = Ok (vplus a b).
Proof. intro H. rewrite broadcast_same by auto. f_equal. exact (zip_with_as_seq Rplus a b 0%R 0%R H). Qed.
Lemma broadcast_minus (a b : list R) : length a = length b -> broadcast (fsub Rops) a b = Ok (vminus a b).
Proof. intro H. rewrite broadcast_same by auto. f_equal. exact (zip_with_as_seq Rminus a b 0%R 0%R H). Qed.
Lemma vplus_comm a b : length a = length b -> vplus a b = vplus b a.
Proof.
  intro H. apply nth_ext with (d := 0%R) (d' := 0%R); [rewrite !vplus_length; auto|].
  intros i Hi. rewrite vplus_length in Hi. rewrite (vplus_nth a b), (vplus_nth b a) by (try rewrite <- H; assumption). apply Rplus_comm.
Qed.
Lemma new_prior_R l ch p : length l = length ch -> length p = length ch -> new_prior Rops l ch p = Ok (vminus l (vplus ch p)).
Proof.
  intros H1 H2. unfold new_prior. etransitivity; [apply (f_equal (fun r => bind r _)); exact (broadcast_minus l ch H1)|]. cbn [bind].
  etransitivity; [apply broadcast_minus; exact (eq_trans (vminus_length l ch) (eq_trans H1 (eq_sym H2)))|]. f_equal. apply nth_ext with (d := 0%R) (d' := 0%R).
  - rewrite !vminus_length. reflexivity.
  - intros i Hi. rewrite !vminus_length in Hi. change (F Rops) with R in *. rewrite (vminus_nth (vminus l ch) p) by (rewrite vminus_length; lia).
    rewrite (vminus_nth l ch), (vminus_nth l (vplus ch p)), vplus_nth by lia. lra.
Qed.

(** ** The error counter *)
Lemma index_z_nat {A} (l : list A) i d : i < length l -> index_z l (Z.of_nat i) = Ok (nth i l d).
Proof.
  intro H. unfold index_z. destruct (Z.ltb_spec (Z.of_nat i) 0); [lia|]. destruct (Z.ltb_spec (Z.of_nat i) 0); [lia|].
  destruct (Z.leb_spec (Z.of_nat (length l)) (Z.of_nat i)); [lia|]. cbn [orb]. rewrite Nat2Z.id, (nth_error_nth' l d H). reflexivity.
Qed.
Lemma mark_nat errors : forall l, Forall (fun i => i < length l) errors ->
  exists l', mark l (map Z.of_nat errors) = Ok l' /\ length l' = length l /\
  forall i, i < length l -> nth i l' false = (existsb (Nat.eqb i) errors || nth i l false)%bool.
Proof.
  induction errors as [|e t IH]; intros l H.
  - exists l. repeat split; auto.
  - pose proof (Forall_inv H) as He. apply Forall_inv_tail in H. cbn [map mark]. rewrite (index_z_nat l e false) by auto. cbn [bind].
    destruct (Z.ltb_spec (Z.of_nat e) 0); [lia|]. rewrite Nat2Z.id.
    destruct (IH (set_nth l e true)) as (l' & E & L & N). { rewrite length_set_nth. exact H. }
    exists l'. rewrite length_set_nth in L. split; [exact E|]. split; [exact L|]. intros i Hi. rewrite N by (rewrite length_set_nth; lia).
    rewrite Base.nth_set_nth. cbn [existsb]. destruct (Nat.eqb_spec i e) as [->|Hne].
    + destruct (Nat.ltb_spec e (length l)); [|lia]. cbn [andb]. rewrite orb_true_r. reflexivity.
    + cbn [andb orb]. reflexivity.
Qed.

Lemma track_errors_spec rx errors e : Forall is_bit rx -> Forall (fun i => i < length rx) errors -> length e = length rx ->
  track_errors (map Z.of_nat errors) rx e = Ok (wrong_bits (sent_word rx errors) e).
Proof.
  intros B H L. unfold track_errors. destruct (mark_nat errors (repeat false (length rx))) as (l' & E & L' & N).
  { rewrite repeat_length. exact H. }
  rewrite repeat_length in L', N. rewrite E. cbn [bind]. rewrite broadcast_same by lia. cbn [bind].
  assert (X : zip_with (fun (r : Z) (e : bool) => Z.lxor r (if e then 1 else 0)) rx l' = sent_word rx errors).
  { rewrite (zip_with_as_seq _ rx l' 0%Z false) by lia. unfold sent_word. apply map_ext_in. intros i Hi. apply in_seq in Hi. rewrite N by lia.
    rewrite nth_repeat, orb_false_r. assert (Bi : is_bit (nth i rx 0%Z)) by (rewrite Forall_forall in B; apply B, nth_In; lia).
    destruct Bi as [-> | ->]; destruct (existsb (Nat.eqb i) errors); reflexivity. }
  rewrite X. assert (Ls : length (sent_word rx errors) = length rx) by (unfold sent_word; rewrite map_length, seq_length; reflexivity).
  rewrite broadcast_same by lia. cbn [bind]. f_equal. rewrite (zip_with_as_seq _ _ e 0%Z 0%Z) by lia. unfold wrong_bits.
  generalize (seq 0 (length (sent_word rx errors))). intro q. induction q as [|x q IH]; [reflexivity|]. cbn [map filter].
  destruct (negb (nth x (sent_word rx errors) 0 =? nth x e 0)%Z); cbn [length]; rewrite IH; reflexivity.
Qed.

(** ** The loop *)
Definition word_of (n : nat) {T} (d : T -> list R -> T * res (list Z * list R * bool)) : Prop :=
  forall s x s' e l ok, d s x = (s', Ok (e, l, ok)) -> bits_of_length n e.
Lemma mod_bits e : Forall is_bit e -> map (fun b => b mod 256)%Z e = e.
Proof. intro H. induction H as [|b t [-> | ->] _ IH]; [reflexivity| |]; cbn [map]; rewrite IH; reflexivity. Qed.

Section Loop.
Context {S1 S2 : Type}.
Variable first : S1 -> list R -> S1 * res (list Z * list R * bool).
Variable second : S2 -> list R -> S2 * res (list Z * list R * bool).
Variable ch : list R.
Hypothesis Hf : sound (length ch) first.
Hypothesis Hs : sound (length ch) second.
Variable debug : bool.
Variable errors : list nat.
Hypothesis Hd : debug = true -> Forall (fun i => i < length ch) errors /\ word_of (length ch) first /\ word_of (length ch) second.

Let rx := map (fun x => if Rltb x 0 then 1%Z else 0%Z) ch.

Lemma turbo_loop_session n : forall s1 s2 p last, length p = length ch -> (n = 0 -> last <> None) ->
  exists s1' s2' e l ok w err, turbo_loop Rops first second n debug ch (map Z.of_nat errors) s1 s2 p last = (s1', s2', Ok (e, l, ok, w, err)) /\
  (n = 0 /\ s1' = s1 /\ s2' = s2 /\ w = 2 /\ (exists err', last = Some (e, l, ok, err') /\ err = if debug then err' else 0) \/
   session first second ch n s1 s2 p s1' s2' (e, l, ok, w) /\
   err = if (debug && negb ok)%bool then wrong_bits (sent_word rx errors) e else 0).
Proof.
  induction n as [|n IH]; intros s1 s2 p last Lp Hl.
  - cbn [turbo_loop]. destruct last as [[[[e l] ok] err]|]; [|exfalso; apply Hl; reflexivity].
    exists s1, s2, e, l, ok, 2, (if debug then err else 0). split; [reflexivity|]. left. repeat split; auto. exists err. auto.
  - cbn [turbo_loop]. change (F Rops) with R in *. pose proof (broadcast_plus ch p ltac:(lia)) as E1.
    change (F Rops) with R in *. rewrite E1. cbv iota.
    destruct (Hf s1 (vplus ch p)) as (s1a & e1 & l1 & ok1 & Ef & Ll1). { apply vplus_length. }
    rewrite Ef. cbv iota. destruct ok1.
    + exists s1a, s2, e1, l1, true, 1, 0. split; [reflexivity|]. right. rewrite andb_false_r. split; [|reflexivity]. eapply session_first. exact Ef.
    + rewrite (new_prior_R l1 ch p Ll1 Lp). cbn [bind]. set (x1 := vminus l1 (vplus ch p)).
      assert (Lx1 : length x1 = length ch) by (unfold x1; rewrite vminus_length; lia).
      pose proof (broadcast_plus x1 ch ltac:(lia)) as E2.
      rewrite (vplus_comm x1 ch) in E2 by lia. change (F Rops) with R in *. rewrite E2.
      cbn [bind]. destruct (Hs s2 (vplus ch x1)) as (s2a & e2 & l2 & ok2 & Es & Ll2). { apply vplus_length. }
      rewrite Es. destruct ok2.
      * exists s1a, s2a, e2, l2, true, 2, 0. split; [reflexivity|]. right. rewrite andb_false_r. split; [|reflexivity]. eapply session_second; eassumption.
      * rewrite (new_prior_R l2 ch x1 Ll2 Lx1). cbn [bind]. set (x2 := vminus l2 (vplus ch x1)).
        assert (Lx2 : length x2 = length ch) by (unfold x2; rewrite vminus_length; lia).
        set (R2 := if debug then _ else _).
        assert (ER : R2 = Ok (x2, if debug then wrong_bits (sent_word rx errors) e2 else 0)).
        { unfold R2. destruct debug; [|reflexivity]. destruct (Hd eq_refl) as (He & W1 & W2).
          destruct (W1 _ _ _ _ _ _ Ef) as [L1 B1]. destruct (W2 _ _ _ _ _ _ Es) as [L2 B2]. rewrite !mod_bits by auto.
          change (map (fun x : R => if flt Rops x (fz Rops 0) then 1%Z else 0%Z) ch) with rx.
          assert (Lr : length rx = length ch) by (unfold rx; apply map_length).
          assert (Br : Forall is_bit rx).
          { unfold rx. apply Forall_forall. intros z Hz. apply in_map_iff in Hz. destruct Hz as (x & <- & _). destruct (Rltb x 0); [right|left]; reflexivity. }
          rewrite (track_errors_spec rx errors e1) by (rewrite ?Lr; auto). cbn [bind].
          rewrite (track_errors_spec rx errors e2) by (rewrite ?Lr; auto). reflexivity. }
        rewrite ER. clear R2 ER. cbv iota.
        destruct (IH s1a s2a x2 (Some (e2, l2, false, if debug then wrong_bits (sent_word rx errors) e2 else 0)) Lx2 ltac:(intros _ X; discriminate X))
          as (s1b & s2b & e & l & ok & w & err & E & [(-> & -> & -> & -> & err' & Q & ->)|(Q & ->)]).
        -- exists s1a, s2a, e, l, ok, 2, (if debug then err' else 0). split; [exact E|]. right. injection Q as <- <- <- <-. split; [eapply session_failed; eassumption|].
           destruct debug; reflexivity.
        -- eexists s1b, s2b, e, l, ok, w, _. split; [exact E|]. right. split; [|reflexivity]. eapply session_next; eassumption.
Qed.
End Loop.

Lemma session_unique {S1 S2} (first : S1 -> list R -> S1 * res (list Z * list R * bool)) (second : S2 -> list R -> S2 * res (list Z * list R * bool)) ch n s1 s2 p a b r :
  session first second ch n s1 s2 p a b r -> forall a' b' r', session first second ch n s1 s2 p a' b' r' -> a = a' /\ b = b' /\ r = r'.
Proof.
  induction 1; intros a' b' r' H'; inversion H'; subst;
    repeat match goal with H1 : ?f ?s ?x = (_, Ok _), H2 : ?f ?s ?x = (_, Ok _) |- _ => rewrite H1 in H2; inversion H2; clear H2; subst end;
    try (repeat split; reflexivity); try match goal with H : session _ _ _ 0 _ _ _ _ _ _ |- _ => inversion H end.
  apply IHsession; auto.
Qed.

Lemma sound_recorded {T} n (d : T -> list R -> T * res (list Z * list R * bool)) : sound n d -> sound n (recorded_decoder d).
Proof.
  intros H [s L] x Hx. destruct (H s x Hx) as (s' & e & l & ok & E & Ll). exists (s', L ++ [x]), e, l, ok. unfold recorded_decoder. cbn [fst snd].
  rewrite E. auto.
Qed.
Lemma word_recorded {T} n (d : T -> list R -> T * res (list Z * list R * bool)) : word_of n d -> word_of n (recorded_decoder d).
Proof.
  intros H [s L] x [s' L'] e l ok E. unfold recorded_decoder in E. cbn [fst snd] in E. destruct (d s x) as [t r] eqn:D. inversion E; subst. eapply H. exact D.
Qed.
Lemma recorded_log {T A B} (d : T -> A -> T * B) s x s' r : recorded_decoder d s x = (s', r) -> snd s' = snd s ++ [x].
Proof. unfold recorded_decoder. destruct (d (fst s) x) as [t q]. intro E. inversion E; subst. reflexivity. Qed.

Lemma session_calls {S1 S2} (first : S1 -> list R -> S1 * res (list Z * list R * bool)) (second : S2 -> list R -> S2 * res (list Z * list R * bool)) ch n s1 s2 p s1' s2' r :
  session (recorded_decoder first) (recorded_decoder second) ch n s1 s2 p s1' s2' r ->
  exists k in2, (exists t, snd s1' = snd s1 ++ vplus ch p :: t /\ length t = k) /\ snd s2' = snd s2 ++ in2 /\ k < n /\
  let '(_, _, ok, w) := r in
  (w = 1 /\ ok = true /\ length in2 = k \/ w = 2 /\ length in2 = S k) /\ (ok = false -> w = 2 /\ S k = n).
Proof.
  induction 1 as [n s1 s2 p a e l E1|n s1 s2 p a b e1 l1 e l E1 E2|s1 s2 p a b e1 l1 e l E1 E2|n s1 s2 p a b a' b' e1 l1 e l r E1 E2 Q IH].
  - exists 0, []. split; [exists []; split; [exact (recorded_log _ _ _ _ _ E1)|reflexivity]|]. rewrite app_nil_r. split; [reflexivity|]. split; [lia|].
    split; [left; auto|discriminate].
  - eexists 0, [_]. split; [exists []; split; [exact (recorded_log _ _ _ _ _ E1)|reflexivity]|]. split; [exact (recorded_log _ _ _ _ _ E2)|]. split; [lia|].
    split; [right; auto|discriminate].
  - eexists 0, [_]. split; [exists []; split; [exact (recorded_log _ _ _ _ _ E1)|reflexivity]|]. split; [exact (recorded_log _ _ _ _ _ E2)|]. split; [lia|].
    split; [right; auto|auto].
  - destruct IH as (k & in2 & (t & Ht & Lt) & H2 & Hk & IH). destruct r as [[[e' l'] ok] w].
    rewrite (recorded_log _ _ _ _ _ E1), <- app_assoc in Ht. rewrite (recorded_log _ _ _ _ _ E2), <- app_assoc in H2.
    eexists (S k), (_ :: in2). split; [eexists; split; [exact Ht|cbn; lia]|]. split; [exact H2|]. split; [lia|]. cbn [length]. destruct IH as [IH1 IH2].
    split; [destruct IH1 as [(-> & -> & ->)|(-> & ->)]; auto|]. intro Q'. destruct (IH2 Q') as [-> <-]. auto.
Qed.

Lemma turbo_no_debug (FO : fops) {S1 S2} (first : S1 -> list (F FO) -> S1 * res (list Z * list (F FO) * bool)) (second : S2 -> list (F FO) -> S2 * res (list Z * list (F FO) * bool))
  ch errors errors' n : forall a b p last,
  turbo_loop FO first second n false ch errors a b p last = turbo_loop FO first second n false ch errors' a b p last.
Proof.
  induction n as [|n IH]; intros a b p last; [reflexivity|]. cbn [turbo_loop].
  destruct (broadcast (fadd FO) ch p) as [x|]; [|reflexivity]. destruct (first a x) as [a' [[[e1 l1] [|]]|]]; try reflexivity.
  destruct (do! second_prior <- new_prior FO l1 ch p in do! in2 <- broadcast (fadd FO) second_prior ch in Ok (second_prior, in2)) as [[q y]|]; [|reflexivity].
  destruct (second b y) as [b' [[[e2 l2] [|]]|]]; try reflexivity. destruct (new_prior FO l2 ch q) as [z|]; [|reflexivity]. cbn [bind]. apply IH.
Qed.
