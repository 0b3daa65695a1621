(** C89: simulations run by a pool of processes. *)
From Coq Require Import List Arith ZArith Bool Lia ZifyBool ZifyNat Reals Lra.
From Verif.Model Require Import Py Float InfoTheory DecoderBase Simulation Workers.
From Verif.Spec Require Import RealOps SimulationSpec WorkersSpec.
From Verif.Proofs Require Import Base RealP WorkersP.
Import ListNotations.
Close Scope R_scope.
Ltac rlia := change (F Rops) with R in *; lia.

(** The chunks: in order, together all tasks, none empty, none larger than the size; one task each if there are at most four for each worker. *)
Theorem c89_chunks : forall A (xs : list A) workers, 0 < workers -> let size := chunk_size (length xs) workers in
  concat (cut (length xs) size xs) = xs /\ Forall (fun c => 0 < length c <= size) (cut (length xs) size xs) /\
  length (cut (length xs) size xs) = chunk_count (length xs) size /\ chunk_count (length xs) size <= 4 * workers /\
  (0 < length xs <= 4 * workers -> size = 1).
Proof.
  intros A xs workers Hw size. destruct xs as [|x xs].
  - assert (E : size = 0) by (unfold size, chunk_size; cbn [length]; rewrite Nat.mod_0_l, Nat.div_0_l by lia; reflexivity). rewrite E. cbn [length cut concat]. repeat split; try apply Forall_nil; cbn; lia.
  - set (l := x :: xs) in *. assert (Hl : 0 < length l) by (cbn; lia). assert (Hs : 0 < size) by (apply chunk_size_pos; assumption).
    split; [apply cut_concat; auto|]. split; [apply cut_chunks; auto|]. split; [apply cut_count; auto|]. unfold chunk_count. set (T := length l) in *. set (q := 4 * workers). assert (Hq : q <> 0) by lia.
    assert (B : T <= q * size).
    { unfold size, chunk_size. fold q. pose proof (Nat.div_mod T q Hq). pose proof (Nat.mod_upper_bound T q Hq). destruct (Nat.eqb_spec (T mod q) 0); nia. }
    split.
    + assert (X : (T + size - 1) / size < S q) by (apply Nat.div_lt_upper_bound; nia). lia.
    + intros [_ H]. unfold size, chunk_size. fold q. fold q in H. destruct (Nat.eq_dec T q) as [-> |N].
      * rewrite Nat.mod_same, Nat.div_same by lia. reflexivity.
      * rewrite Nat.div_small, Nat.mod_small by lia. destruct (Nat.eqb_spec T 0); lia.
Qed.
Print Assumptions c89_chunks.

(** What a run gives, for every schedule: each result is that of the step on the value, with what the worker of this task remembers after the tasks it
    ran before; and the results are in the order of the values. *)
Theorem c89_memory : forall St X Y (step : St -> X -> res Y * St) workers init xs sched ys, 0 < workers ->
  let size := chunk_size (length xs) workers in
  pool_map step workers init xs sched (Ok ys) <->
  length sched = length (cut (length xs) size xs) /\ Forall (fun w => w < workers) sched /\ length ys = length xs /\
  forall t x, nth_error xs t = Some x ->
    exists y, nth_error ys t = Some y /\ fst (step (memory step (init (owner sched size t)) (values xs (before sched size t))) x) = Ok y.
Proof. intros. apply pool_iff. assumption. Qed.
Print Assumptions c89_memory.

(** A schedule has an outcome; a run fails only with an error of some step on some value; a run that gives results under a schedule does not fail. *)
Theorem c89_outcome : forall St X Y (step : St -> X -> res Y * St) workers init xs sched, 0 < workers ->
  length sched = length (cut (length xs) (chunk_size (length xs) workers) xs) -> Forall (fun w => w < workers) sched ->
  (exists r, pool_map step workers init xs sched r) /\
  (forall e, pool_map step workers init xs sched (Err e) -> exists s x, In x xs /\ fst (step s x) = Err e) /\
  (forall ys, pool_map step workers init xs sched (Ok ys) -> forall r, pool_map step workers init xs sched r -> r = Ok ys).
Proof.
  intros St X Y step workers init xs sched Hw L F. split; [apply outcome; assumption|]. split.
  - intros e H. inversion H as [|? _ _ I]; subst. apply chunks_error in I. destruct I as (s & x & I & E). exists s, x. split; [|exact E].
    destruct (c89_chunks X xs workers Hw) as [C _]. cbv zeta in C. rewrite C in I. exact I.
  - intros ys H r H2. inversion H as [yss _ _ E|]; subst. inversion H2 as [yss2 _ _ E2|e _ _ I]; subst.
    + assert (K : map (@Ok (list Y)) yss = map Ok yss2) by congruence. clear -K. revert yss2 K. induction yss as [|a yss IH]; intros [|b yss2] K; try discriminate; [reflexivity|]. cbn [map] in K. injection K as -> K. specialize (IH yss2 K). cbn [concat]. congruence.
    + rewrite E in I. apply in_map_iff in I. destruct I as (? & ? & _). discriminate.
Qed.
Print Assumptions c89_outcome.

(** If the result of a step does not depend on what is remembered, the run is the plain map for every schedule and every number of workers (the averaged
    simulation, whose errors are drawn before the pool is made). *)
Theorem c89_independent : forall St X Y (step : St -> X -> res Y * St) f workers init xs sched r, 0 < workers ->
  (forall s x, fst (step s x) = Ok (f x)) -> pool_map step workers init xs sched r -> r = Ok (map f xs).
Proof.
  intros St X Y step f workers init xs sched r Hw Hf H. destruct r as [ys|e].
  - apply pool_iff in H; [|exact Hw]. destruct H as (_ & _ & L & H). f_equal. apply nth_error_ext''. intros t. rewrite nth_error_map. destruct (nth_error xs t) as [x|] eqn:E.
    + destruct (H t x E) as (y & Hy & E2). rewrite Hf in E2. rewrite Hy. cbn [option_map]. congruence.
    + apply nth_error_None in E. apply nth_error_None. lia.
  - inversion H as [|? _ _ I]; subst. apply chunks_error in I. destruct I as (s & x & _ & E). rewrite Hf in E. discriminate.
Qed.
Print Assumptions c89_independent.

(** Gaussian noise with one generator made before the workers are forked: the noise of a task is its standard deviation times the block of numbers whose
    index is the number of tasks that its worker ran before.  So all first tasks of the workers use the same numbers, all second tasks, and so on. *)
Theorem c89_noise : forall FO G X Y normal (sigma : X -> F FO) n nn (finish : X -> list (list (F FO)) -> res Y) workers (g : G) xs sched ys, 0 < workers ->
  pool_map (gauss_step FO normal sigma n nn finish) workers (fun _ => g) xs sched (Ok ys) ->
  forall t x, nth_error xs t = Some x -> exists y, nth_error ys t = Some y /\
    finish x (map (map (fmul FO (sigma x))) (block (fun g => normal g nn) n (length (before sched (chunk_size (length xs) workers) t)) g)) = Ok y.
Proof.
  intros FO G X Y normal sigma n nn finish workers g xs sched ys Hw H t x Hx. apply pool_iff in H; [|exact Hw]. destruct H as (_ & _ & _ & H). destruct (H t x Hx) as (y & Hy & E). exists y. split; [exact Hy|].
  rewrite gauss_memory in E. unfold gauss_step in E. rewrite noise_draws in E. cbn [fst] in E. rewrite values_length in E by (apply before_bound, nth_error_Some; rewrite Hx; discriminate). exact E.
Qed.
Print Assumptions c89_noise.

(** So the steps are not independent experiments: of two tasks with the same number of earlier tasks, the received words of the one with less noise have
    only errors that the other has too, in every word. *)
Theorem c89_same_errors : forall G X normal (sigma : X -> R) n nn encoded workers (g : G) xs sched ys t u x z, 0 < workers -> length encoded = n -> Forall (word nn) encoded ->
  (forall g, length (fst (normal g nn)) = nn) ->
  pool_map (gauss_step Rops normal sigma n nn (fun _ noise => Ok (map (fun en => hard Rops (noisy_word Rops (snd en) (fst en))) (combine encoded noise)))) workers (fun _ => g) xs sched (Ok ys) ->
  nth_error xs t = Some x -> nth_error xs u = Some z ->
  length (before sched (chunk_size (length xs) workers) t) = length (before sched (chunk_size (length xs) workers) u) ->
  (0 < sigma x <= sigma z)%R ->
  exists r q, nth_error ys t = Some r /\ nth_error ys u = Some q /\ length r = n /\ length q = n /\
    forall i, i < n -> incl (differences (nth i encoded []) (nth i r [])) (differences (nth i encoded []) (nth i q [])).
Proof.
  intros G X normal sigma n nn encoded workers g xs sched ys t u x z Hw Le We Hn H Ht Hu Hb Hs.
  destruct (c89_noise Rops G X _ normal sigma n nn _ workers g xs sched ys Hw H t x Ht) as (r & Hr & E1). destruct (c89_noise Rops G X _ normal sigma n nn _ workers g xs sched ys Hw H u z Hu) as (q & Hq & E2).
  rewrite Hb in E1. set (us := block (fun g => normal g nn) n _ g) in *. injection E1 as E1. injection E2 as E2. exists r, q. split; [exact Hr|]. split; [exact Hq|].
  assert (Us : length us = n /\ Forall (fun v => length v = nn) us).
  { unfold us, block. generalize (Nat.iter (length (before sched (chunk_size (length xs) workers) u)) (fun g => snd (draws (fun g => normal g nn) n g)) g). clear -Hn. induction n as [|n IH]; intros g; [split; [reflexivity|constructor]|].
    cbn [draws]. specialize (Hn g). destruct (normal g nn) as [v g'] eqn:E. cbn [fst] in Hn. destruct (IH g') as [H1 H2]. revert H1 H2. destruct (draws (fun g => normal g nn) n g') as [l g'']. cbn [fst]. intros H1 H2. split; [exact (f_equal S H1)|constructor; assumption]. }
  destruct Us as [Lu Wu]. clearbody us. change (F Rops) with R in *.
  assert (D : forall s i, i < n -> exists w v, nth i encoded [] = w /\ word nn w /\ length v = nn /\ In v us /\ nth i us [] = v /\
      nth i (map (fun en => hard Rops (noisy_word Rops (snd en) (fst en))) (combine encoded (map (map (fmul Rops s)) us))) [] = hard Rops (noisy_word Rops (map (fmul Rops s) v) w)).
  { intros s i Hi. exists (nth i encoded []), (nth i us []). assert (I1 : In (nth i us []) us) by (apply nth_In; rlia). split; [reflexivity|]. split; [rewrite Forall_forall in We; apply We, nth_In; rlia|]. split; [rewrite Forall_forall in Wu; apply Wu; exact I1|].
    split; [exact I1|]. split; [reflexivity|]. set (f := fun en => hard Rops (noisy_word Rops (snd en) (fst en))). rewrite (nth_indep _ [] (f ([], map (fmul Rops s) []))) by (rewrite map_length, combine_length, map_length; rlia). rewrite map_nth, combine_nth by (rewrite map_length; rlia).
    unfold f. cbn [fst snd]. f_equal. f_equal. apply (map_nth (map (fmul Rops s))). }
  split; [rewrite <- E1, map_length, combine_length, map_length; rlia|]. split; [rewrite <- E2, map_length, combine_length, map_length; rlia|]. intros i Hi.
  destruct (D (sigma x) i Hi) as (w & v & Ew & [Lw Bw] & Lv & _ & Ev & D1). destruct (D (sigma z) i Hi) as (w2 & v2 & Ew2 & _ & _ & _ & Ev2 & D2). rewrite Ew in Ew2. rewrite Ev in Ev2. subst w2 v2. assert (K1 : nth i r [] = hard Rops (noisy_word Rops (map (fmul Rops (sigma x)) v) w)) by (rewrite <- E1; exact D1). assert (K2 : nth i q [] = hard Rops (noisy_word Rops (map (fmul Rops (sigma z)) v) w)) by (rewrite <- E2; exact D2). rewrite Ew, K1, K2. clear - Lw Bw Lv Hs.
  assert (N : forall s p, p < nn -> nth p (hard Rops (noisy_word Rops (map (fmul Rops s) v) w)) 0%Z = if Rltb (IZR (1 - 2 * nth p w 0%Z) + s * nth p v 0)%R 0 then 1%Z else 0%Z).
  { intros s p Hp. unfold hard, noisy_word, Clustering.zip_with. rewrite map_map.
    set (f := fun xy => if flt Rops (fadd Rops (fz Rops (1 - 2 * fst xy)) (snd xy)) (fz Rops 0) then 1%Z else 0%Z). rewrite (nth_indep _ 0%Z (f (0%Z, fmul Rops s 0%R))) by (rewrite map_length, combine_length, map_length; rlia).
    rewrite map_nth, combine_nth by (rewrite map_length; rlia). unfold f. cbn [fst snd]. rewrite (map_nth (fmul Rops s)). reflexivity. }
  intros p Hp. unfold differences in *. apply filter_In in Hp. destruct Hp as [Hi Hp]. apply filter_In. split; [exact Hi|]. apply in_seq in Hi. rewrite N in * by rlia.
  assert (B : bit (nth p w 0%Z)) by (rewrite Forall_forall in Bw; apply Bw, nth_In; rlia). set (a := nth p v 0%R) in *.
  clear N. destruct B as [B|B]; rewrite B in *.
  - change (IZR (1 - 2 * 0)) with 1%R in *. destruct (Rltb (1 + sigma x * a) 0) eqn:H1; [|discriminate]. destruct (Rltb (1 + sigma z * a) 0) eqn:H2; [reflexivity|exfalso].
    apply (proj1 (Rltb_spec _ _)) in H1. apply (proj1 (Rltb_false _ _)) in H2. clear -Hs H1 H2. clearbody a. assert (a < 0)%R by nra. nra.
  - change (IZR (1 - 2 * 1)) with (-1)%R in *. destruct (Rltb (-1 + sigma x * a) 0) eqn:H1; [discriminate|]. destruct (Rltb (-1 + sigma z * a) 0) eqn:H2; [exfalso|reflexivity].
    apply (proj1 (Rltb_false _ _)) in H1. apply (proj1 (Rltb_spec _ _)) in H2. clear -Hs H1 H2. clearbody a. assert (0 < a)%R by nra. nra.
Qed.
Print Assumptions c89_same_errors.

(** Binary symmetric channel: of two tasks, the earlier tasks of whose workers drew the same numbers of errors, and which draw the same number, the errors
    are the same in every word. *)
Theorem c89_choice : forall G X Y choice (size : X -> nat) nn n (finish : X -> list (list nat) -> res Y) workers (g : G) xs sched ys t u x z, 0 < workers ->
  pool_map (flip_step choice size nn n finish) workers (fun _ => g) xs sched (Ok ys) ->
  nth_error xs t = Some x -> nth_error xs u = Some z -> size x = size z ->
  map size (values xs (before sched (chunk_size (length xs) workers) t)) = map size (values xs (before sched (chunk_size (length xs) workers) u)) ->
  exists errors y v, nth_error ys t = Some y /\ nth_error ys u = Some v /\ finish x errors = Ok y /\ finish z errors = Ok v.
Proof.
  intros G X Y choice size nn n finish workers g xs sched ys t u x z Hw H Ht Hu Es Eb. apply pool_iff in H; [|exact Hw]. destruct H as (_ & _ & _ & H). destruct (H t x Ht) as (y & Hy & E1). destruct (H u z Hu) as (v & Hv & E2).
  rewrite flip_memory in E1, E2. rewrite Eb in E1. set (g1 := fold_left _ _ g) in *. unfold flip_step in E1, E2. rewrite error_draws in E1, E2. rewrite <- Es in E2. destruct (draws (fun g0 => choice g0 nn (size x)) n g1) as [errors g2]. exists errors, y, v. auto.
Qed.
Print Assumptions c89_choice.

(** Bit flipping decoders: the number of iterations of a task is the largest need of the tasks that its worker ran up to it (or the given number). *)
Theorem c89_iterations : forall FO G X Y normal (sigma : X -> F FO) need n nn (finish : X -> Z -> list (list (F FO)) -> res Y) workers it (g : G) xs sched ys, 0 < workers ->
  pool_map (bf_step FO normal sigma need n nn finish) workers (fun _ => (it, g)) xs sched (Ok ys) ->
  forall t x, nth_error xs t = Some x -> exists y iterations, nth_error ys t = Some y /\
    finish x iterations (map (map (fmul FO (sigma x))) (block (fun g => normal g nn) n (length (before sched (chunk_size (length xs) workers) t)) g)) = Ok y /\
    (it <= iterations)%Z /\ (need x <= iterations)%Z /\ (forall v, In v (values xs (before sched (chunk_size (length xs) workers) t)) -> (need v <= iterations)%Z) /\
    (iterations = it \/ iterations = need x \/ exists v, In v (values xs (before sched (chunk_size (length xs) workers) t)) /\ iterations = need v).
Proof.
  intros FO G X Y normal sigma need n nn finish workers it g xs sched ys Hw H t x Hx. apply pool_iff in H; [|exact Hw]. destruct H as (_ & _ & _ & H). destruct (H t x Hx) as (y & Hy & E). exists y.
  rewrite bf_memory in E. unfold bf_step in E. cbn [fst snd] in E. rewrite noise_draws in E. cbn [fst] in E. rewrite values_length in E by (apply before_bound, nth_error_Some; rewrite Hx; discriminate).
  eexists. split; [exact Hy|]. split; [exact E|]. clear. set (l := values xs (before sched (chunk_size (length xs) workers) t)). clearbody l.
  assert (K : (it <= fold_right Z.max it (map need l))%Z /\ (forall v, In v l -> (need v <= fold_right Z.max it (map need l))%Z) /\ (fold_right Z.max it (map need l) = it \/ exists v, In v l /\ fold_right Z.max it (map need l) = need v)).
  { induction l as [|a l (I1 & I2 & I3)]; cbn [map fold_right]; [repeat split; [lia|intros v []|auto]|]. split; [lia|]. split; [intros v [-> |Hv]; [lia|specialize (I2 v Hv); lia]|].
    destruct (Z.max_spec (need a) (fold_right Z.max it (map need l))) as [[_ ->]|[_ ->]].
    - destruct I3 as [I3|(v & Hv & I3)]; [auto|]. right. exists v. split; [right; exact Hv|exact I3].
    - right. exists a. split; [left; reflexivity|reflexivity]. }
  destruct K as (K1 & K2 & K3). split; [lia|]. split; [lia|]. split; [intros v Hv; specialize (K2 v Hv); lia|].
  destruct (Z.max_spec (need x) (fold_right Z.max it (map need l))) as [[_ ->]|[_ ->]]; [|auto]. destruct K3 as [K3|K3]; auto.
Qed.
Print Assumptions c89_iterations.

(** The results depend on the schedule: with two workers and two values the second step has its own number of iterations or that of the first, depending
    on which worker takes it. *)
Theorem c89_schedule : exists (need : nat -> Z) xs s1 s2 r1 r2,
  let step := bf_step Rops (fun (g : unit) nn => (repeat 0%R nn, g)) (fun _ : nat => 1%R) need 1 1 (fun _ iterations _ => Ok iterations) in
  pool_map step 2 (fun _ => (20%Z, tt)) xs s1 (Ok r1) /\ pool_map step 2 (fun _ => (20%Z, tt)) xs s2 (Ok r2) /\ r1 = [300; 300]%Z /\ r2 = [300; 30]%Z.
Proof.
  exists (fun x => match x with 0 => 300%Z | _ => 30%Z end), [0; 1], [0; 0], [0; 1], [300; 300]%Z, [300; 30]%Z. cbv zeta. split; [|split; [|split; reflexivity]].
  - apply (pool_done _ 2 (fun _ => (20%Z, tt)) [0; 1] [0; 0] [[300%Z]; [300%Z]]); [reflexivity|repeat constructor|reflexivity].
  - apply (pool_done _ 2 (fun _ => (20%Z, tt)) [0; 1] [0; 1] [[300%Z]; [30%Z]]); [reflexivity|repeat constructor|reflexivity].
Qed.
Print Assumptions c89_schedule.

(** Examples: chunks, owners and the tasks before; a generator that counts. *)
Example c89_ex_chunks : chunk_size 10 1 = 3 /\ cut 10 3 [1; 2; 3; 4; 5; 6; 7; 8; 9; 10] = [[1; 2; 3]; [4; 5; 6]; [7; 8; 9]; [10]] /\ chunk_size 10 3 = 1 /\ chunk_size 12 3 = 1 /\ chunk_size 13 3 = 2 /\ chunk_size 0 3 = 0.
Proof. repeat split. Qed.
Example c89_ex_before : before [0; 1; 0; 1] 3 7 = [0; 1; 2; 6] /\ owner [0; 1; 0; 1] 3 7 = 0 /\ before [0; 1; 0; 1] 3 4 = [3] /\ values [10; 11; 12] [0; 2; 5] = [10; 12].
Proof. repeat split. Qed.
Definition c89_count (g : Z) (nn : nat) : list Z * Z := (map (fun i => (g + Z.of_nat i)%Z) (seq 0 nn), (g + Z.of_nat nn)%Z).
Definition c89_step (g : Z) (x : Z) : res (list (list Z)) * Z :=
  let '(rows, g') := draws (fun g => c89_count g 2) 2 g in (if (x =? 9)%Z then Err ValueError else Ok (map (map (Z.mul x)) rows), g').
(** Three values, two workers: the first and second step use the same numbers; a value that makes the step fail. *)
Example c89_ex_pool : pool_map c89_step 2 (fun _ => 1%Z) [1; 10; 100]%Z [0; 1; 0] (Ok [[[1; 2]; [3; 4]]; [[10; 20]; [30; 40]]; [[500; 600]; [700; 800]]]%Z) /\
  pool_map c89_step 2 (fun _ => 1%Z) [1; 9; 100]%Z [0; 1; 0] (Err ValueError).
Proof.
  split.
  - apply (pool_done c89_step 2 (fun _ => 1%Z) [1; 10; 100]%Z [0; 1; 0] [[[[1; 2]; [3; 4]]]; [[[10; 20]; [30; 40]]]; [[[500; 600]; [700; 800]]]]%Z); [reflexivity|repeat constructor|reflexivity].
  - apply pool_failed; [reflexivity|repeat constructor|]. right. left. reflexivity.
Qed.
Example c89_ex_block : block (fun g => c89_count g 2) 2 1 1%Z = [[5; 6]; [7; 8]]%Z.
Proof. reflexivity. Qed.
(** Two values of one rank for the theorem on the errors. *)
Example c89_ex_same : let encoded := [[1; 0]%Z] in
  (exists ys, pool_map (gauss_step Rops (fun (g : unit) nn => (repeat (-3)%R nn, g)) (fun x : R => x) 1 2
                 (fun _ noise => Ok (map (fun en => hard Rops (noisy_word Rops (snd en) (fst en))) (combine encoded noise)))) 2 (fun _ => tt) [1; 2]%R [0; 1] (Ok ys)) /\
  Forall (word 2) encoded /\ length (before [0; 1] (chunk_size 2 2) 0) = length (before [0; 1] (chunk_size 2 2) 1).
Proof.
  cbv zeta. split; [|split; [|reflexivity]].
  - match goal with |- exists ys, pool_map ?st ?w ?i ?xs ?sc (Ok ys) => destruct (c89_outcome _ _ _ st w i xs sc ltac:(lia) eq_refl ltac:(repeat constructor)) as ((r & H) & E & _); destruct r as [ys|e]; [exists ys; exact H|] end.
    destruct (E e H) as (s & x & _ & C). unfold gauss_step in C. destruct (noise_rows _ _ _ _ _ s). discriminate.
  - constructor; [|constructor]. split; [reflexivity|]. repeat (apply Forall_cons; [unfold bit; auto|]). apply Forall_nil.
Qed.
