(** Proofs about Model/Threads.v. *)
From Coq Require Import List ZArith Bool Lia Arith.
From Verif.Model Require Import Py Struct Mavlink Threads.
From Verif.Spec Require Import Bytes Header ThreadsSpec.
From Verif.Proofs Require Import Base.
Import ListNotations.

Section Run.
Variables (s0 : mav) (todo : list (list message)).

(** Frames written whose packet, or whose bytes, are not counted yet. *)
Definition uncounted (t : thread) : nat := match th_place t with AtSeq _ | AtSetSeq _ _ | AtPackets _ | AtSetPackets _ _ => 1 | _ => 0 end.
Definition unadded (t : thread) : Z := match th_place t with
  AtSeq n | AtSetSeq n _ | AtPackets n | AtSetPackets n _ | AtBytes n | AtSetBytes n _ => n | _ => 0%Z end.
Definition total (w : list written) : Z := Z.of_nat (length (concat (map w_frame w))).
Definition zsum (l : list Z) : Z := fold_right Z.add 0%Z l.

(** Thread i is as it should be after [w] was written, [c] packets and [b] bytes were counted. *)
Definition local_ok (i : nat) (w : list written) (c b : Z) (t : thread) : Prop :=
  match th_place t with
  | AtWrite buf => exists m q, nth i todo [] = sent_by i w ++ m :: th_todo t /\ message_pack m q (mav_sys s0) (mav_comp s0) = Ok buf
  | Failed e => exists m q, (0 <= q < 256)%Z /\ nth i todo [] = sent_by i w ++ m :: th_todo t /\ message_pack m q (mav_sys s0) (mav_comp s0) = Err e
  | AtSetSeq n q => nth i todo [] = sent_by i w ++ th_todo t /\ (0 <= q < 256)%Z
  | AtSetPackets n k => nth i todo [] = sent_by i w ++ th_todo t /\ (k <= mav_packets s0 + c)%Z
  | AtSetBytes n k => nth i todo [] = sent_by i w ++ th_todo t /\ (k <= mav_bytes s0 + b)%Z
  | _ => nth i todo [] = sent_by i w ++ th_todo t
  end.
Definition inv (s : mav) (ts : list thread) (w : list written) : Prop :=
  mav_sys s = mav_sys s0 /\ mav_comp s = mav_comp s0 /\ (0 <= mav_seq s < 256)%Z /\
  mav_file s = mav_file s0 ++ concat (map w_frame w) /\
  Forall (fun x => w_thread x < length ts /\ message_pack (w_msg x) (w_seq x) (mav_sys s0) (mav_comp s0) = Ok (w_frame x)) w /\
  exists c b, (0 <= c)%Z /\ (0 <= b)%Z /\ (c + zsum (map (fun t => Z.of_nat (uncounted t)) ts) = Z.of_nat (length w))%Z /\ (b + zsum (map unadded ts) = total w)%Z /\
    Forall (fun t => 0 <= unadded t)%Z ts /\
    (mav_packets s <= mav_packets s0 + c)%Z /\ (mav_bytes s <= mav_bytes s0 + b)%Z /\
    forall i t, nth_error ts i = Some t -> local_ok i w c b t.

Lemma zsum_set {A} (f : A -> Z) : forall l i x y, nth_error l i = Some x -> (zsum (map f (set_nth l i y)) = zsum (map f l) - f x + f y)%Z.
Proof.
  induction l as [|a l IH]; intros [|i] x y H; cbn [nth_error] in H; try discriminate; cbn [set_nth map]; unfold zsum in *; cbn [fold_right].
  - inversion H; subst. lia.
  - rewrite (IH i x y H). lia.
Qed.
Lemma nth_error_set {A} : forall (l : list A) i j x, nth_error (set_nth l i x) j = if Nat.eqb i j then (match nth_error l i with Some _ => Some x | None => None end) else nth_error l j.
Proof. induction l as [|a l IH]; intros [|i] [|j] x; cbn; auto. destruct (Nat.eqb i j); reflexivity. Qed.
Lemma set_len {A} : forall (l : list A) i x, length (set_nth l i x) = length l.
Proof. induction l as [|a l IH]; intros [|i] x; cbn; auto. Qed.
Lemma forall_set {A} (P : A -> Prop) : forall l i x, Forall P l -> P x -> Forall P (set_nth l i x).
Proof. induction l as [|a l IH]; intros [|i] x H Px; cbn; auto; inversion H; subst; constructor; auto. Qed.

Lemma local_mono i w c b c' b' t : (c <= c')%Z -> (b <= b')%Z -> local_ok i w c b t -> local_ok i w c' b' t.
Proof. intros H1 H2. unfold local_ok. destruct (th_place t); auto; intros [A B]; split; auto; lia. Qed.
Lemma sent_by_app i w x : sent_by i (w ++ [x]) = sent_by i w ++ (if Nat.eqb (w_thread x) i then [w_msg x] else []).
Proof. unfold sent_by. rewrite filter_app, map_app. cbn. destruct (Nat.eqb (w_thread x) i); reflexivity. Qed.
Lemma local_other i w c b t x : w_thread x <> i -> local_ok i w c b t -> local_ok i (w ++ [x]) c b t.
Proof.
  intros N. unfold local_ok. rewrite sent_by_app. apply Nat.eqb_neq in N. rewrite N, app_nil_r. auto.
Qed.
Lemma total_app w x : total (w ++ [x]) = (total w + Z.of_nat (length (w_frame x)))%Z.
Proof. unfold total. rewrite map_app, concat_app, app_length. cbn. rewrite app_nil_r. lia. Qed.

Lemma step_inv s ts w i t : inv s ts w -> nth_error ts i = Some t -> let '(s', t') := thread_step s t in exists w', inv s' (set_nth ts i t') w'.
Proof.
  intros (Es & Ec & Hq & Ef & Fw & c & b & Hc & Hb & Sc & Sb & Fu & Pk & By & Lo) Hi.
  pose proof (Lo i t Hi) as Li.
  assert (Fw' : forall y, Forall (fun x => w_thread x < length (set_nth ts i y) /\ message_pack (w_msg x) (w_seq x) (mav_sys s0) (mav_comp s0) = Ok (w_frame x)) w)
    by (intro y; rewrite set_len; exact Fw).
  assert (Hlen : i < length ts) by (apply nth_error_Some; congruence).
  assert (Ut : (0 <= unadded t)%Z) by (rewrite Forall_forall in Fu; apply Fu; eapply nth_error_In; eauto).
  assert (KEEP : forall s' t' c' b', mav_sys s' = mav_sys s -> mav_comp s' = mav_comp s -> (0 <= mav_seq s' < 256)%Z -> mav_file s' = mav_file s ->
    (c <= c')%Z -> (b <= b')%Z -> (c' + Z.of_nat (uncounted t') = c + Z.of_nat (uncounted t))%Z -> (b' + unadded t' = b + unadded t)%Z -> (0 <= unadded t')%Z ->
    (mav_packets s' <= mav_packets s0 + c')%Z -> (mav_bytes s' <= mav_bytes s0 + b')%Z -> local_ok i w c' b' t' -> exists w', inv s' (set_nth ts i t') w').
  { intros s' t' c' b' A1 A2 A3 A4 A5 A6 A7 A8 A9 A10 A11 A12. exists w. unfold inv. rewrite A1, A2, A4. repeat (split; [auto; try lia|]); try lia. exists c', b'.
    rewrite (zsum_set (fun t => Z.of_nat (uncounted t)) ts i t t' Hi), (zsum_set unadded ts i t t' Hi).
    repeat (split; [lia|]). split; [apply forall_set; auto|]. split; [lia|]. split; [lia|]. intros j u Hj. rewrite nth_error_set in Hj. destruct (Nat.eqb_spec i j) as [<-|N].
    - rewrite Hi in Hj. inversion Hj; subst. exact A12.
    - eapply local_mono; [| |apply Lo; exact Hj]; lia. }
  unfold thread_step. unfold local_ok in Li. destruct t as [td pl]. cbn [th_place th_todo] in *. unfold uncounted, unadded in KEEP, Ut. cbn [th_place] in KEEP, Ut.
  destruct pl as [|buf|n|n q|n|n k|n|n k|e].
  - destruct td as [|m rest]; [apply (KEEP s (Thread [] AtPack) c b); cbn; auto; lia|].
    destruct (message_pack m (mav_seq s) (mav_sys s) (mav_comp s)) as [buf|e] eqn:E; rewrite Es, Ec in E.
    + apply (KEEP s (Thread rest (AtWrite buf)) c b); cbn; auto; try lia. exists m, (mav_seq s). auto.
    + apply (KEEP s (Thread rest (Failed e)) c b); cbn; auto; try lia. exists m, (mav_seq s). auto.
  - destruct Li as (m & q & En & E). set (x := Written i m q buf). exists (w ++ [x]). unfold inv. cbn [mav_sys mav_comp mav_seq mav_file mav_packets mav_bytes].
    split; [exact Es|]. split; [exact Ec|]. split; [exact Hq|]. split; [rewrite Ef, map_app, concat_app; cbn; rewrite app_nil_r, app_assoc; reflexivity|].
    split; [apply Forall_app; split; [apply Fw'|constructor; [rewrite set_len; auto|constructor]]|]. exists c, b.
    rewrite (zsum_set (fun t => Z.of_nat (uncounted t)) ts i _ _ Hi), (zsum_set unadded ts i _ _ Hi). rewrite app_length, total_app. cbn [length w_frame x].
    change (uncounted (Thread td (AtWrite buf))) with 0%nat. change (unadded (Thread td (AtWrite buf))) with 0%Z.
    change (uncounted (Thread td (AtSeq (Z.of_nat (length buf))))) with 1%nat. change (unadded (Thread td (AtSeq (Z.of_nat (length buf))))) with (Z.of_nat (length buf)).
    split; [lia|]. split; [lia|]. split; [lia|]. split; [lia|].
    split; [apply forall_set; [exact Fu|unfold unadded; cbn; lia]|]. split; [lia|]. split; [lia|]. intros j u Hj. rewrite nth_error_set in Hj. destruct (Nat.eqb_spec i j) as [<-|N].
    + rewrite Hi in Hj. inversion Hj; subst. unfold local_ok. cbn [th_place th_todo]. rewrite sent_by_app. cbn [w_thread w_msg x]. rewrite Nat.eqb_refl, <- app_assoc. exact En.
    + apply local_other; [exact N|]. apply Lo. exact Hj.
  - apply (KEEP s (Thread td (AtSetSeq n (mav_seq s))) c b); cbn; auto; lia.
  - destruct Li as [En Rq]. apply (KEEP _ (Thread td (AtPackets n)) c b); cbn; auto; try lia. apply Z.mod_pos_bound. lia.
  - apply (KEEP s (Thread td (AtSetPackets n (mav_packets s))) c b); cbn; auto; lia.
  - destruct Li as [En Rk]. apply (KEEP _ (Thread td (AtBytes n)) (c + 1)%Z b); cbn; auto; try lia.
  - apply (KEEP s (Thread td (AtSetBytes n (mav_bytes s))) c b); cbn; auto; lia.
  - destruct Li as [En Rk]. apply (KEEP _ (Thread td AtPack) c (b + n)%Z); cbn; auto; try lia.
  - apply (KEEP s (Thread td (Failed e)) c b); cbn; auto; lia.
Qed.

Lemma run_inv : forall sched s ts w, inv s ts w -> let '(s', ts') := run_threads sched s ts in exists w', inv s' ts' w'.
Proof.
  induction sched as [|i sched IH]; intros s ts w H; cbn [run_threads]; [eauto|].
  destruct (nth_error ts i) as [t|] eqn:E; [|eapply IH; eauto]. pose proof (step_inv s ts w i t H E) as S. destruct (thread_step s t) as [s' t']. destruct S as [w' S]. eapply IH; eauto.
Qed.
Lemma zsum_zero {A} (f : A -> Z) l : (forall x, In x l -> f x = 0%Z) -> zsum (map f l) = 0%Z.
Proof. induction l as [|x l IH]; intro H; [reflexivity|]. cbn. rewrite (H x) by (left; auto). fold (zsum (map f l)). rewrite IH; [lia|]. intros; apply H; right; auto. Qed.
Lemma init_inv : (0 <= mav_seq s0 < 256)%Z -> inv s0 (threads todo) [].
Proof.
  intro H. unfold inv. repeat (split; [auto|]); [cbn; rewrite app_nil_r; reflexivity|]. exists 0%Z, 0%Z.
  assert (I : forall t, In t (threads todo) -> th_place t = AtPack) by (intros t Ht; apply in_map_iff in Ht; destruct Ht as (l & <- & _); reflexivity).
  split; [lia|]. split; [lia|]. split; [rewrite zsum_zero; [reflexivity|intros t Ht; unfold uncounted; rewrite (I t Ht); reflexivity]|].
  split; [rewrite zsum_zero; [reflexivity|intros t Ht; unfold unadded; rewrite (I t Ht); reflexivity]|].
  split; [apply Forall_forall; intros t Ht; unfold unadded; rewrite (I t Ht); lia|]. split; [lia|]. split; [lia|].
  intros i t Ht. pose proof (I t (nth_error_In _ _ Ht)) as P. unfold local_ok. rewrite P. cbn. unfold threads in Ht. rewrite nth_error_map in Ht.
  destruct (nth_error todo i) as [l|] eqn:E; [|discriminate]. inversion Ht; subst. cbn. apply nth_error_nth. exact E.
Qed.
End Run.

Lemma zsum_nonneg l : Forall (fun x => 0 <= x)%Z l -> (0 <= zsum l)%Z.
Proof. induction 1; cbn; [lia|]. fold (zsum l). lia. Qed.
Lemma run_len : forall sched s ts, length (snd (run_threads sched s ts)) = length ts.
Proof.
  induction sched as [|i sched IH]; intros s ts; cbn [run_threads]; [reflexivity|]. destruct (nth_error ts i) as [t|]; [|apply IH].
  destruct (thread_step s t) as [s' t']. rewrite IH. apply set_len.
Qed.

Lemma every_schedule sched todo s0 : (0 <= mav_seq s0 < 256)%Z ->
  let '(s, ts) := run_threads sched s0 (threads todo) in
  exists w, mav_file s = mav_file s0 ++ concat (map w_frame w) /\
    Forall (fun x => w_thread x < length todo /\ message_pack (w_msg x) (w_seq x) (mav_sys s0) (mav_comp s0) = Ok (w_frame x)) w /\
    (forall i, exists rest, nth i todo [] = sent_by i w ++ rest) /\
    (finished ts -> forall i, sent_by i w = nth i todo []) /\
    (forall i t e, nth_error ts i = Some t -> th_place t = Failed e ->
       exists m q, (0 <= q < 256)%Z /\ nth i todo [] = sent_by i w ++ m :: th_todo t /\ message_pack m q (mav_sys s0) (mav_comp s0) = Err e) /\
    (0 <= mav_seq s < 256)%Z /\ (mav_packets s <= mav_packets s0 + Z.of_nat (length w))%Z /\
    (mav_bytes s <= mav_bytes s0 + Z.of_nat (length (concat (map w_frame w))))%Z.
Proof.
  intro H. pose proof (run_inv s0 todo sched s0 (threads todo) [] (init_inv s0 todo H)) as R. pose proof (run_len sched s0 (threads todo)) as L.
  destruct (run_threads sched s0 (threads todo)) as [s ts]. cbn [snd] in L. unfold threads in L. rewrite map_length in L.
  destruct R as (w & Es & Ec & Hq & Ef & Fw & c & b & Hc & Hb & Sc & Sb & Fu & Pk & By & Lo).
  exists w. split; [exact Ef|]. split; [rewrite <- L; exact Fw|].
  assert (OUT : forall i, length todo <= i -> nth i todo [] = sent_by i w).
  { intros i Hi. rewrite nth_overflow by exact Hi. unfold sent_by. rewrite L in Fw.
    replace (filter (fun x => Nat.eqb (w_thread x) i) w) with (@nil written); [reflexivity|]. symmetry. clear - Fw Hi.
    induction Fw as [|x w [A _] _ IH]; [reflexivity|]. cbn. destruct (Nat.eqb_spec (w_thread x) i); [lia|exact IH]. }
  assert (IN : forall i t, nth_error ts i = Some t -> exists rest, nth i todo [] = sent_by i w ++ rest).
  { intros i t Ht. pose proof (Lo i t Ht) as Li. unfold local_ok in Li. destruct (th_place t); eauto; try (destruct Li as [E _]; eauto; fail);
      [destruct Li as (m & q & E & _)|destruct Li as (m & q & _ & E & _)]; eauto. }
  split.
  { intro i. destruct (nth_error ts i) as [t|] eqn:E; [eapply IN; eauto|]. apply nth_error_None in E. exists []. rewrite app_nil_r. apply OUT. lia. }
  split.
  { intros Fin i. destruct (nth_error ts i) as [t|] eqn:E; [|apply nth_error_None in E; symmetry; apply OUT; lia].
    pose proof (Lo i t E) as Li. unfold finished in Fin. rewrite Forall_forall in Fin. rewrite (Fin t (nth_error_In _ _ E)) in Li. unfold local_ok in Li. cbn in Li. rewrite Li, app_nil_r. reflexivity. }
  split.
  { intros i t e Ht E. pose proof (Lo i t Ht) as Li. unfold local_ok in Li. rewrite E in Li. exact Li. }
  split; [exact Hq|].
  assert (Z1 : (0 <= zsum (map (fun t => Z.of_nat (uncounted t)) ts))%Z) by (apply zsum_nonneg, Forall_forall; intros x Hx; apply in_map_iff in Hx; destruct Hx as (u & <- & _); lia).
  assert (Z2 : (0 <= zsum (map unadded ts))%Z) by (apply zsum_nonneg, Forall_forall; intros x Hx; apply in_map_iff in Hx; destruct Hx as (u & <- & Hu); rewrite Forall_forall in Fu; apply Fu; exact Hu).
  unfold total in Sb. split; lia.
Qed.

(** ** Whole sends in turns *)
Lemma run_app a b s ts : run_threads (a ++ b) s ts = let '(s', ts') := run_threads a s ts in run_threads b s' ts'.
Proof. revert s ts. induction a as [|i a IH]; intros s ts; cbn [run_threads app]; [reflexivity|]. destruct (nth_error ts i); [|apply IH]. destruct (thread_step s t). apply IH. Qed.
Lemma set_set {A} : forall (l : list A) i x y, set_nth (set_nth l i x) i y = set_nth l i y.
Proof. induction l as [|a l IH]; intros [|i] x y; cbn; auto. rewrite IH. reflexivity. Qed.
Lemma run_one i sched s ts t : nth_error ts i = Some t -> run_threads (i :: sched) s ts = let '(s', t') := thread_step s t in run_threads sched s' (set_nth ts i t').
Proof. intro H. cbn [run_threads]. rewrite H. reflexivity. Qed.
Lemma nth_set_same {A} (l : list A) i x y : nth_error l i = Some x -> nth_error (set_nth l i y) i = Some y.
Proof. intro H. rewrite nth_error_set, Nat.eqb_refl, H. reflexivity. Qed.

Lemma whole_send i s s' ts m rest : nth_error ts i = Some (Thread (m :: rest) AtPack) -> mav_send s m = Ok s' ->
  run_threads (repeat i 8) s ts = (s', set_nth ts i (Thread rest AtPack)).
Proof.
  intros H E. unfold mav_send in E. destruct (message_pack m (mav_seq s) (mav_sys s) (mav_comp s)) as [buf|e] eqn:P; [|discriminate]. cbn [bind] in E. inversion E as [E']. clear E.
  change (repeat i 8) with [i; i; i; i; i; i; i; i].
  assert (ST : forall sched s ts t s1 t1, nth_error ts i = Some t -> thread_step s t = (s1, t1) ->
     run_threads (i :: sched) s ts = run_threads sched s1 (set_nth ts i t1)) by (intros sched u us t s1 t1 A B; rewrite (run_one _ _ _ _ _ A), B; reflexivity).
  erewrite ST; [|exact H|unfold thread_step; cbn [th_place th_todo]; rewrite P; reflexivity].
  do 7 (erewrite ST; [|eapply nth_set_same; eassumption || (rewrite ?set_set; eapply nth_set_same; eassumption)|unfold thread_step; cbn [th_place th_todo]; reflexivity]; rewrite ?set_set).
  cbn [run_threads]. cbn [mav_seq mav_sys mav_comp mav_file mav_packets mav_bytes]. reflexivity.
Qed.

Lemma threads_set todo i r : set_nth (threads todo) i (Thread r AtPack) = threads (set_nth todo i r).
Proof. revert i. induction todo as [|l todo IH]; intros [|i]; cbn; auto. unfold threads in IH. rewrite IH. reflexivity. Qed.

Lemma turns order todo l : picked order todo l -> forall s s', fold_res mav_send l s = Ok s' ->
  exists todo', run_threads (in_turns order) s (threads todo) = (s', threads todo') /\
    (length (concat todo) = length l + length (concat todo'))%nat.
Proof.
  induction 1 as [todo|i order todo m rest l H P IH]; intros s s' E; cbn [fold_res] in E.
  - inversion E; subst. exists todo. split; reflexivity.
  - apply bind_ok in E. destruct E as (s1 & E1 & E2). destruct (IH _ _ E2) as (todo' & R & C). exists todo'. split.
    + unfold in_turns. cbn [flat_map]. rewrite run_app. rewrite (whole_send i s s1 (threads todo) m rest); [|unfold threads; rewrite nth_error_map, H; reflexivity|exact E1].
      rewrite threads_set. exact R.
    + cbn [length]. rewrite Nat.add_succ_l, <- C. clear - H. revert i H. induction todo as [|k todo IH]; intros [|i] H; cbn in *; try discriminate.
      * inversion H; subst. cbn. reflexivity.
      * rewrite !app_length, (IH i H). lia.
Qed.

(** ** Every thread comes to its end *)
Definition rank (t : thread) : nat := match th_place t with
  | AtPack => 8 * length (th_todo t) | AtWrite _ => 8 * length (th_todo t) + 7 | AtSeq _ => 8 * length (th_todo t) + 6 | AtSetSeq _ _ => 8 * length (th_todo t) + 5
  | AtPackets _ => 8 * length (th_todo t) + 4 | AtSetPackets _ _ => 8 * length (th_todo t) + 3 | AtBytes _ => 8 * length (th_todo t) + 2
  | AtSetBytes _ _ => 8 * length (th_todo t) + 1 | Failed _ => 0 end.
Lemma step_rank s t : rank (snd (thread_step s t)) <= rank t - 1.
Proof.
  destruct t as [td pl]. unfold thread_step. cbn [th_place th_todo]. destruct pl; unfold rank; cbn [snd th_place th_todo]; try lia.
  destruct td as [|m rest]; [cbn; lia|]. destruct (message_pack _ _ _ _); cbn [snd th_place th_todo length]; lia.
Qed.
Lemma run_rank : forall sched s ts i t, nth_error ts i = Some t ->
  exists t', nth_error (snd (run_threads sched s ts)) i = Some t' /\ rank t' <= rank t - count_occ Nat.eq_dec sched i.
Proof.
  induction sched as [|j sched IH]; intros s ts i t H; cbn [run_threads count_occ].
  - exists t. split; [exact H|lia].
  - destruct (nth_error ts j) as [u|] eqn:E.
    + pose proof (step_rank s u) as R. destruct (thread_step s u) as [s' u']. cbn [snd] in R. destruct (Nat.eq_dec j i) as [->|N].
      * rewrite H in E. inversion E; subst u. destruct (IH s' (set_nth ts i u') i u') as (t' & E1 & E2); [eapply nth_set_same; eauto|]. exists t'. split; [exact E1|lia].
      * apply IH. rewrite nth_error_set. apply Nat.eqb_neq in N. rewrite N. exact H.
    + destruct (Nat.eq_dec j i) as [->|N]; [congruence|]. apply IH. exact H.
Qed.
Lemma rank_zero t : rank t = 0 -> t = Thread [] AtPack \/ exists e, th_place t = Failed e.
Proof. destruct t as [td pl]. destruct pl; unfold rank; cbn [th_place th_todo]; try lia; [|eauto]. destruct td; [auto|cbn; lia]. Qed.
Lemma fair sched todo s0 : (forall i, 8 * length (nth i todo []) <= count_occ Nat.eq_dec sched i) ->
  Forall (fun t => t = Thread [] AtPack \/ exists e, th_place t = Failed e) (snd (run_threads sched s0 (threads todo))).
Proof.
  intro H. apply Forall_forall. intros t' Ht. apply In_nth_error in Ht. destruct Ht as [i Ht]. apply rank_zero.
  assert (L : i < length todo). { apply nth_error_Some_lt in Ht || (assert (i < length (snd (run_threads sched s0 (threads todo)))) by (apply nth_error_Some; congruence)). rewrite run_len in *. unfold threads in *. rewrite map_length in *. assumption. }
  destruct (nth_error todo i) as [l|] eqn:E; [|apply nth_error_None in E; lia].
  destruct (run_rank sched s0 (threads todo) i (Thread l AtPack)) as (t & E1 & E2); [unfold threads; rewrite nth_error_map, E; reflexivity|].
  rewrite Ht in E1. inversion E1; subst. unfold rank in E2 at 2. cbn [th_place th_todo] in E2. specialize (H i). rewrite (nth_error_nth _ _ _ E) in H. lia.
Qed.

(** ** The counts never fall below their first values *)
Definition low (p b : Z) (t : thread) : Prop := match th_place t with
  | AtPack | AtWrite _ | Failed _ => True
  | AtSeq n | AtSetSeq n _ | AtPackets n | AtBytes n => (0 <= n)%Z
  | AtSetPackets n k => (p <= k)%Z /\ (0 <= n)%Z
  | AtSetBytes n k => (b <= k)%Z /\ (0 <= n)%Z end.
Definition early (l : list message) (t : thread) : Prop := match th_place t with
  | AtPack => th_todo t = l | AtBytes _ | AtSetBytes _ _ => False | _ => True end.
Definition low_inv (todo : list (list message)) (p b : Z) (s : mav) (ts : list thread) : Prop :=
  (p <= mav_packets s)%Z /\ (b <= mav_bytes s)%Z /\ Forall (low p b) ts /\
  ((p + 1 <= mav_packets s)%Z \/ forall i t, nth_error ts i = Some t -> early (nth i todo []) t).
Lemma step_low todo p b s ts i t : low_inv todo p b s ts -> nth_error ts i = Some t -> let '(s', t') := thread_step s t in low_inv todo p b s' (set_nth ts i t').
Proof.
  intros (P & B & L & X) Hi. pose proof (nth_error_In _ _ Hi) as HI. pose proof (proj1 (Forall_forall _ _) L _ HI) as Lt.
  assert (E : forall t', (early (nth i todo []) t -> early (nth i todo []) t') ->
     (forall j u, nth_error ts j = Some u -> early (nth j todo []) u) -> forall j u, nth_error (set_nth ts i t') j = Some u -> early (nth j todo []) u).
  { intros t' Ht H j u. rewrite nth_error_set. destruct (Nat.eqb_spec i j) as [<-|]; [|apply H]. rewrite Hi. intro E. inversion E; subst. apply Ht. apply H. exact Hi. }
  destruct t as [td pl]. unfold thread_step. cbn [th_place th_todo]. unfold low in Lt. cbn [th_place] in Lt.
  destruct pl as [|buf|n|n q|n|n k|n|n k|e]; unfold low_inv; cbn [mav_packets mav_bytes].
  - destruct td as [|m rest].
    + repeat split; try assumption. { apply forall_set; [assumption|exact I]. } destruct X as [X|X]; [left; exact X|right]. apply E; auto.
    + destruct (message_pack _ _ _ _); (repeat split; try assumption; [apply forall_set; [assumption|exact I]|]); (destruct X as [X|X]; [left; exact X|right]; apply E; [intros _; exact I|exact X]).
  - repeat split; try assumption. { apply forall_set; [assumption|]. unfold low; cbn; lia. } destruct X as [X|X]; [left; exact X|right]; apply E; [intros _; exact I|exact X].
  - repeat split; try assumption. { apply forall_set; [assumption|]. unfold low; cbn; lia. } destruct X as [X|X]; [left; exact X|right]; apply E; [intros _; exact I|exact X].
  - repeat split; try assumption. { apply forall_set; [assumption|]. unfold low; cbn; lia. } destruct X as [X|X]; [left; exact X|right]; apply E; [intros _; exact I|exact X].
  - repeat split; try assumption. { apply forall_set; [assumption|]. unfold low; cbn; lia. } destruct X as [X|X]; [left; exact X|right]; apply E; [intros _; exact I|exact X].
  - repeat split; try assumption; try lia. apply forall_set; [assumption|]. unfold low; cbn; lia.
  - repeat split; try assumption. { apply forall_set; [assumption|]. unfold low; cbn; lia. } destruct X as [X|X]; [left; exact X|right]; apply E; [intros []|exact X].
  - repeat split; try assumption; try lia. { apply forall_set; [assumption|exact I]. } destruct X as [X|X]; [left; exact X|right]; apply E; [intros []|exact X].
  - repeat split; try assumption. { apply forall_set; [assumption|exact I]. } destruct X as [X|X]; [left; exact X|right]; apply E; [intros _; exact I|exact X].
Qed.
Lemma run_low todo p b : forall sched s ts, low_inv todo p b s ts -> let '(s', ts') := run_threads sched s ts in low_inv todo p b s' ts'.
Proof.
  induction sched as [|i sched IH]; intros s ts H; cbn [run_threads]; [exact H|]. destruct (nth_error ts i) as [t|] eqn:E; [|apply IH; exact H].
  pose proof (step_low todo p b s ts i t H E) as S1. destruct (thread_step s t) as [s' t']. apply IH. exact S1.
Qed.
Lemma not_below sched todo s0 : let '(s, ts) := run_threads sched s0 (threads todo) in
  (mav_packets s0 <= mav_packets s)%Z /\ (mav_bytes s0 <= mav_bytes s)%Z /\ (finished ts -> concat todo <> [] -> (mav_packets s0 + 1 <= mav_packets s)%Z).
Proof.
  pose proof (run_low todo (mav_packets s0) (mav_bytes s0) sched s0 (threads todo)) as R. pose proof (run_len sched s0 (threads todo)) as L.
  destruct (run_threads sched s0 (threads todo)) as [s ts]. cbn [snd] in L. unfold threads in L. rewrite map_length in L.
  destruct R as (P & B & _ & X).
  - split; [lia|]. split; [lia|]. split.
    + apply Forall_forall. intros t Ht. unfold threads in Ht. apply in_map_iff in Ht. destruct Ht as (l & <- & _). exact I.
    + right. intros i t Ht. unfold threads in Ht. rewrite nth_error_map in Ht. destruct (nth_error todo i) as [l|] eqn:E; [|discriminate]. cbn in Ht. inversion Ht; subst.
      cbn. symmetry. apply nth_error_nth. exact E.
  - split; [exact P|]. split; [exact B|]. intros Fin NE. destruct X as [X|X]; [exact X|]. exfalso. apply NE.
    assert (A : forall l, In l todo -> l = []).
    { intros l Hl. apply In_nth_error in Hl. destruct Hl as [i Hl]. destruct (nth_error ts i) as [t|] eqn:E.
      - pose proof (X i t E) as Y. unfold finished in Fin. rewrite Forall_forall in Fin. rewrite (Fin t (nth_error_In _ _ E)) in Y. cbn in Y. rewrite (nth_error_nth _ _ _ Hl) in Y. congruence.
      - apply nth_error_None in E. assert (i < length todo) by (apply nth_error_Some; congruence). lia. }
    clear - A. induction todo as [|l todo IH]; [reflexivity|]. cbn. rewrite (A l (or_introl eq_refl)). apply IH. intros; apply A; right; assumption.
Qed.

(** ** One thread alone *)
Lemma run_single : forall sched s t, run_threads sched s [t] = run_threads (repeat 0 (count_occ Nat.eq_dec sched 0)) s [t].
Proof.
  induction sched as [|i sched IH]; intros s t; [reflexivity|]. cbn [run_threads count_occ]. destruct (Nat.eq_dec i 0) as [->|N].
  - cbn [nth_error repeat run_threads]. destruct (thread_step s t) as [s' t']. cbn [set_nth]. apply IH.
  - destruct i as [|i]; [congruence|]. cbn [nth_error]. destruct i; cbn [nth_error]; apply IH.
Qed.
Lemma picked_single : forall l, picked (repeat 0 (length l)) [l] l.
Proof. induction l as [|m l IH]; cbn [length repeat]; [constructor|]. eapply picked_cons; [reflexivity|]. exact IH. Qed.
Lemma turns_single n : in_turns (repeat 0 n) = repeat 0 (8 * n).
Proof. induction n as [|n IH]; [reflexivity|]. replace (8 * S n) with (8 + 8 * n) by lia. rewrite repeat_app, <- IH. reflexivity. Qed.
Lemma idle : forall n s, run_threads (repeat 0 n) s [Thread [] AtPack] = (s, [Thread [] AtPack]).
Proof. induction n as [|n IH]; intro s; [reflexivity|]. cbn. apply IH. Qed.
Lemma alone sched l s s' : fold_res mav_send l s = Ok s' -> 8 * length l <= count_occ Nat.eq_dec sched 0 ->
  run_threads sched s (threads [l]) = (s', threads [[]]).
Proof.
  intros E H. destruct (turns (repeat 0 (length l)) [l] l (picked_single l) s s' E) as (todo' & R & L). rewrite turns_single in R.
  unfold threads at 1. cbn [map]. rewrite run_single. replace (count_occ Nat.eq_dec sched 0) with (8 * length l + (count_occ Nat.eq_dec sched 0 - 8 * length l)) by lia.
  rewrite repeat_app, run_app. change [Thread l AtPack] with (threads [l]). rewrite R.
  assert (T : todo' = [[]]).
  { pose proof (run_len (repeat 0 (8 * length l)) s (threads [l])) as K. rewrite R in K. cbn [snd] in K. unfold threads in K. rewrite !map_length in K. cbn [length] in K.
    destruct todo' as [|x [|y r]]; try discriminate. cbn [concat] in L. rewrite !app_nil_r in L. destruct x; [reflexivity|cbn in L; lia]. }
  subst todo'. apply idle.
Qed.
