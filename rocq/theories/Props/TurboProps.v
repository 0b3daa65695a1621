(** C51: the control flow of the turbo decoder. *)
From Coq Require Import List ZArith Reals Lra Bool Lia Arith.
From Verif.Model Require Import Py Float InfoTheory Turbo.
From Verif.Spec Require Import RealOps Info Cluster TurboSpec.
From Verif.Proofs Require Import Base RealP EmleP TurboP.
Import ListNotations.
Local Close Scope R_scope.

(** C51.  With at least one round and decoders that answer with as many soft values as they are given, decode_buffer plays exactly the
    session described in Spec/TurboSpec.v and returns its result; the last entry counts the wrong bits of the estimate when debugging
    and no decoder succeeded, else it is 0. *)
Theorem c51_session {S1 S2 : Type} (first : S1 -> list R -> S1 * res (list Z * list R * bool)) (second : S2 -> list R -> S2 * res (list Z * list R * bool))
  (ch : list R) (max_iter : nat) (debug : bool) (errors : list nat) (s1 : S1) (s2 : S2) :
  sound (length ch) first -> sound (length ch) second -> 1 <= max_iter ->
  (debug = true -> Forall (fun i => i < length ch) errors /\
     (forall s x s' e l ok, first s x = (s', Ok (e, l, ok)) -> bits_of_length (length ch) e) /\
     (forall s x s' e l ok, second s x = (s', Ok (e, l, ok)) -> bits_of_length (length ch) e)) ->
  exists s1' s2' e l ok w,
    turbo_decode Rops first second (Z.of_nat max_iter) debug s1 s2 ch (map Z.of_nat errors) =
      (s1', s2', Ok (e, l, ok, w, if (debug && negb ok)%bool then wrong_bits (sent_word (map (fun x => if Rlt_dec x 0 then 1%Z else 0%Z) ch) errors) e else 0)) /\
    session first second ch max_iter s1 s2 (repeat 0%R (length ch)) s1' s2' (e, l, ok, w).
Proof.
  intros Hf Hs Hn Hd. unfold turbo_decode. rewrite Nat2Z.id.
  assert (Ez : map (fun _ : R => fz Rops 0) ch = repeat 0%R (length ch)).
  { clear. induction ch as [|x t IH]; [reflexivity|]. cbn [map length repeat]. rewrite IH. reflexivity. }
  change (F Rops) with R in *. rewrite Ez.
  destruct (turbo_loop_session first second ch Hf Hs debug errors Hd max_iter s1 s2 (repeat 0%R (length ch)) None) as (s1' & s2' & e & l & ok & w & err & E & C).
  { apply repeat_length. } { lia. }
  exists s1', s2', e, l, ok, w. destruct C as [(-> & _)|[C ->]]; [lia|]. split; [|exact C]. etransitivity; [exact E|]. repeat f_equal.
  destruct (debug && negb ok)%bool; [|reflexivity]. f_equal. f_equal. apply map_ext. intro x. unfold Rltb. destruct (Rlt_dec x 0); reflexivity.
Qed.
Print Assumptions c51_session.

(** A session has one result only. *)
Theorem c51_unique {S1 S2 : Type} (first : S1 -> list R -> S1 * res (list Z * list R * bool)) (second : S2 -> list R -> S2 * res (list Z * list R * bool))
  (ch : list R) (n : nat) (s1 : S1) (s2 : S2) (p : list R) a b r a' b' r' :
  session first second ch n s1 s2 p a b r -> session first second ch n s1 s2 p a' b' r' -> a = a' /\ b = b' /\ r = r'.
Proof. intros H H'. exact (session_unique first second ch n s1 s2 p a b r H a' b' r' H'). Qed.
Print Assumptions c51_unique.

(** The calls made: the first decoder is called between 1 and max_iter times, starting with the channel word, the second as often, or
    once less when the first one succeeded; failure is only reported after max_iter rounds. *)
Theorem c51_calls {S1 S2 : Type} (first : S1 -> list R -> S1 * res (list Z * list R * bool)) (second : S2 -> list R -> S2 * res (list Z * list R * bool))
  (ch : list R) (max_iter : nat) (errors : list Z) (s1 : S1) (s2 : S2) :
  sound (length ch) first -> sound (length ch) second -> 1 <= max_iter ->
  exists s1' s2' calls1 calls2 e l ok w,
    turbo_decode Rops (recorded_decoder first) (recorded_decoder second) (Z.of_nat max_iter) false (s1, []) (s2, []) ch errors =
      ((s1', calls1), (s2', calls2), Ok (e, l, ok, w, 0)) /\
    nth_error calls1 0 = Some ch /\ 1 <= length calls1 <= max_iter /\
    (w = 1 /\ ok = true /\ length calls1 = S (length calls2) \/ w = 2 /\ length calls1 = length calls2) /\
    (ok = false -> w = 2 /\ length calls1 = max_iter).
Proof.
  intros Hf Hs Hn. unfold turbo_decode. rewrite Nat2Z.id.
  assert (Ez : map (fun _ : R => fz Rops 0) ch = repeat 0%R (length ch)).
  { clear. induction ch as [|x t IH]; [reflexivity|]. cbn [map length repeat]. rewrite IH. reflexivity. }
  change (F Rops) with R in *. rewrite Ez.
  destruct (turbo_loop_session (recorded_decoder first) (recorded_decoder second) ch (sound_recorded _ _ Hf) (sound_recorded _ _ Hs) false [] ltac:(discriminate) max_iter
              (s1, []) (s2, []) (repeat 0%R (length ch)) None) as ([s1' c1] & [s2' c2] & e & l & ok & w & err & E & C).
  { apply repeat_length. } { lia. }
  destruct C as [(-> & _)|[C ->]]; [lia|]. exists s1', s2', c1, c2, e, l, ok, w. split; [etransitivity; [apply (turbo_no_debug Rops _ _ ch errors (map Z.of_nat []))|exact E]|].
  destruct (session_calls _ _ _ _ _ _ _ _ _ _ C) as (k & in2 & (t & Ht & Lt) & H2 & Hk & H3 & H4). cbn [snd app] in Ht, H2. subst c1 c2.
  assert (Ec : vplus ch (repeat 0%R (length ch)) = ch).
  { apply nth_ext with (d := 0%R) (d' := 0%R); [apply vplus_length|]. intros i Hi. rewrite vplus_length in Hi. rewrite vplus_nth by lia. rewrite nth_repeat. lra. }
  rewrite Ec. cbn [nth_error length]. rewrite Lt. split; [reflexivity|]. split; [lia|]. split.
  - destruct H3 as [(-> & -> & ->)|(-> & ->)]; auto.
  - intro Q. destruct (H4 Q). auto.
Qed.
Print Assumptions c51_calls.

(** No rounds: the answer is never assigned, UnboundLocalError, and no decoder is called. *)
Theorem c51_no_rounds (FO : fops) {S1 S2 : Type} (first : S1 -> list (F FO) -> S1 * res (list Z * list (F FO) * bool))
  (second : S2 -> list (F FO) -> S2 * res (list Z * list (F FO) * bool)) max_iter debug s1 s2 ch errors :
  (max_iter <= 0)%Z -> turbo_decode FO first second max_iter debug s1 s2 ch errors = (s1, s2, Err UnboundLocal).
Proof. intro H. unfold turbo_decode. replace (Z.to_nat max_iter) with 0 by lia. reflexivity. Qed.
Print Assumptions c51_no_rounds.

(** An exception of the first decoder is passed on at once; the second decoder is not called after it. *)
Theorem c51_first_raises (FO : fops) {S1 S2 : Type} (first : S1 -> list (F FO) -> S1 * res (list Z * list (F FO) * bool))
  (second : S2 -> list (F FO) -> S2 * res (list Z * list (F FO) * bool)) max_iter debug s1 s2 ch errors s1' e :
  (1 <= max_iter)%Z -> first s1 (map (fun x => fadd FO x (fz FO 0)) ch) = (s1', Err e) ->
  turbo_decode FO first second max_iter debug s1 s2 ch errors = (s1', s2, Err e).
Proof.
  intros H E. unfold turbo_decode. destruct (Z.to_nat max_iter) as [|n] eqn:En; [lia|]. cbn [turbo_loop].
  rewrite broadcast_same by (rewrite map_length; reflexivity).
  replace (Clustering.zip_with (fadd FO) ch (map (fun _ => fz FO 0) ch)) with (map (fun x => fadd FO x (fz FO 0)) ch).
  - rewrite E. reflexivity.
  - unfold Clustering.zip_with. clear. induction ch as [|x t IH]; [reflexivity|]. cbn [map combine fst snd]. rewrite IH. reflexivity.
Qed.
Print Assumptions c51_first_raises.

(** An exception of the second decoder is passed on at once, too. *)
Theorem c51_second_raises {S1 S2 : Type} (first : S1 -> list R -> S1 * res (list Z * list R * bool)) (second : S2 -> list R -> S2 * res (list Z * list R * bool))
  max_iter debug s1 s2 (ch : list R) errors s1' s2' e1 l1 e :
  (1 <= max_iter)%Z -> length l1 = length ch ->
  first s1 ch = (s1', Ok (e1, l1, false)) -> second s2 (vplus ch (vminus l1 ch)) = (s2', Err e) ->
  turbo_decode Rops first second max_iter debug s1 s2 ch errors = (s1', s2', Err e).
Proof.
  intros H L E1 E2. unfold turbo_decode. destruct (Z.to_nat max_iter) as [|n] eqn:En; [lia|]. cbn [turbo_loop]. change (F Rops) with R in *.
  rewrite broadcast_same by (rewrite map_length; reflexivity).
  assert (Ec : Clustering.zip_with (fadd Rops) ch (map (fun _ => fz Rops 0) ch) = ch).
  { unfold Clustering.zip_with. clear. induction ch as [|x t IH]; [reflexivity|]. cbn [map combine fst snd]. rewrite IH. f_equal. apply Rplus_0_r. }
  change (F Rops) with R in *. rewrite Ec, E1. unfold new_prior.
  rewrite broadcast_same by exact L. cbn [bind]. rewrite broadcast_same by (rewrite zip_with_length, map_length; change (F Rops) with R in *; lia). cbn [bind].
  rewrite broadcast_same by (rewrite !zip_with_length, map_length; change (F Rops) with R in *; lia). cbn [bind].
  match goal with |- context [second s2 ?x] => replace x with (vplus ch (vminus l1 ch)) end; [rewrite E2; reflexivity|].
  apply nth_ext with (d := 0%R) (d' := 0%R).
  - rewrite vplus_length, !zip_with_length, map_length. change (F Rops) with R in *. lia.
  - intros i Hi. rewrite vplus_length in Hi. rewrite vplus_nth by exact Hi. rewrite vminus_nth by lia.
    rewrite !(zip_with_nth _ _ _ i 0%R 0%R 0%R); repeat rewrite zip_with_length; repeat rewrite map_length; change (F Rops) with R in *; try lia.
    assert (Ei : forall l : list R, nth i (map (fun _ : R => fz Rops 0) l) 0%R = 0%R).
    { clear. revert i. intros i l. revert i. induction l as [|x t IH]; intros [|i]; try reflexivity. cbn [map nth]. apply IH. }
    specialize (Ei ch). cbn [fadd fsub Rops]. change (F Rops) with R in *. lra.
Qed.
Print Assumptions c51_second_raises.

(** Decoders that add 1 to every value and report success once their state, a countdown, is over. *)
Definition countdown (s : nat) (x : list R) : nat * res (list Z * list R * bool) :=
  (pred s, Ok (map (fun y => if Rltb y 0 then 1%Z else 0%Z) x, map (fun y => (y + 1)%R) x, Nat.eqb s 0)).
Lemma countdown_sound n : sound n countdown.
Proof. intros s x H. unfold countdown. do 4 eexists. split; [reflexivity|]. rewrite map_length. exact H. Qed.
Lemma countdown_bits n s x s' e l ok : length x = n -> countdown s x = (s', Ok (e, l, ok)) -> bits_of_length n e.
Proof.
  intros H E. unfold countdown in E. inversion E; subst. split; [apply map_length|]. apply Forall_forall. intros z Hz. apply in_map_iff in Hz.
  destruct Hz as (y & <- & _). destruct (Rltb y 0); [right|left]; reflexivity.
Qed.
(** The second decoder succeeds in round 2 of at most 5. *)
Example c51_ex : exists l, session countdown countdown [-5; 3]%R 5 7 1 [0; 0]%R 5 0 ([1; 0]%Z, l, true, 2).
Proof.
  assert (N : Rltb (-5 + 0 + 1 - (-5 + 0) - 5) 0 = true) by (unfold Rltb; destruct (Rlt_dec _ _); auto; lra).
  assert (P : Rltb (3 + (3 + 0 + 1 - (3 + 0))) 0 = false) by (unfold Rltb; destruct (Rlt_dec _ _); auto; lra).
  eexists. eapply session_next; [reflexivity|reflexivity|]. eapply session_second; [reflexivity|].
  unfold countdown. cbn [Nat.eqb pred]. f_equal. f_equal. f_equal. f_equal. unfold vplus, vminus. cbn [map length seq nth].
  clear. repeat (match goal with |- context [Rltb ?a 0] => let E := fresh in
      first [assert (E : Rltb a 0 = true) by (unfold Rltb; destruct (Rlt_dec a 0); auto; lra)
            |assert (E : Rltb a 0 = false) by (unfold Rltb; destruct (Rlt_dec a 0); auto; lra)]; rewrite E; clear E end). reflexivity.
Qed.
(** Two errors at positions 0 and 2, one of them left in the estimate. *)
Example c51_ex_errors : track_errors [0; 2]%Z [1; 1; 0; 0]%Z [0; 1; 0; 0]%Z = Ok 1 /\ wrong_bits (sent_word [1; 1; 0; 0]%Z [0; 2]) [0; 1; 0; 0]%Z = 1.
Proof. split; reflexivity. Qed.
