(** C121: threads that send on one MAVLink object. *)
From Coq Require Import String Ascii List NArith ZArith Arith Bool Lia.
From Verif.Model Require Import Py Dialect ProtocolMeta Struct Mavlink Parser Threads.
From Verif.Spec Require Import Bytes Bits Header CrcSpec Frame StreamSpec ThreadsSpec.
From Verif.Proofs Require Import Base DialectP MavlinkP FieldsP PackP SendP ThreadsP.
From Verif.Props Require Import MavlinkProps StreamProps.
Import ListNotations.
Local Open Scope list_scope.
Local Notation length := List.length.
Local Opaque mavlink_classes.

(** C121.  Whatever the schedule, the file grows by whole frames, each the packing of a message of a thread with some sequence number; a thread's messages are
    written once each and in its order; a thread ends early only if packing its message raises; the counts never exceed what was written. *)
Theorem c121_every_schedule : forall sched todo s0, (0 <= mav_seq s0 < 256)%Z ->
  let '(s, ts) := run_threads sched s0 (threads todo) in
  exists w, mav_file s = mav_file s0 ++ concat (map w_frame w) /\
    Forall (fun x => w_thread x < length todo /\ message_pack (w_msg x) (w_seq x) (mav_sys s0) (mav_comp s0) = Ok (w_frame x)) w /\
    (forall i, exists rest, nth i todo [] = sent_by i w ++ rest) /\
    (finished ts -> forall i, sent_by i w = nth i todo []) /\
    (forall i t e, nth_error ts i = Some t -> th_place t = Failed e ->
       exists m q, (0 <= q < 256)%Z /\ nth i todo [] = sent_by i w ++ m :: th_todo t /\ message_pack m q (mav_sys s0) (mav_comp s0) = Err e) /\
    (0 <= mav_seq s < 256)%Z /\ (mav_packets s <= mav_packets s0 + Z.of_nat (length w))%Z /\
    (mav_bytes s <= mav_bytes s0 + Z.of_nat (length (concat (map w_frame w))))%Z.
Proof. exact every_schedule. Qed.
Print Assumptions c121_every_schedule.

(** A schedule that lets every thread make eight steps for each of its messages brings every thread to its end. *)
Theorem c121_fair : forall sched todo s0, (forall i, 8 * length (nth i todo []) <= count_occ Nat.eq_dec sched i) ->
  Forall (fun t => t = Thread [] AtPack \/ exists e, th_place t = Failed e) (snd (run_threads sched s0 (threads todo))).
Proof. exact fair. Qed.
Print Assumptions c121_fair.

(** What a receiver makes of it: messages of the dialect whose values fit never end a thread, and from any splitting of the file into blocks the receiver gets every
    message that was written, with its field values, in the order of each thread, with no error. *)
Theorem c121_received : forall text sched todo sys comp blocks, in_byte sys -> in_byte comp ->
  (forall l m, In l todo -> In m l -> In (m_class m) mavlink_classes /\ fits_all (m_class m) (m_fields m)) ->
  let '(s, ts) := run_threads sched (Mav 0 sys comp [] 0 0) (threads todo) in
  Forall (fun t => forall e, th_place t <> Failed e) ts /\
  (concat blocks = mav_file s ->
   exists w p ms, feed_blocks (plain_decode text) (parser_new false tt) blocks = (p, Ok (map Message ms)) /\ pending p = [] /\ p_errors p = 0 /\
     Forall2 (fun x d => sent text (m_class (w_msg x)) (m_fields (w_msg x)) (Z.to_N (w_seq x)) (Z.to_N sys) (Z.to_N comp) d) w ms /\
     (forall i, exists rest, nth i todo [] = sent_by i w ++ rest) /\ (finished ts -> forall i, sent_by i w = nth i todo [])).
Proof.
  intros text sched todo sys comp blocks Hs Hc OK.
  pose proof (every_schedule sched todo (Mav 0 sys comp [] 0 0)) as R. cbn [mav_seq mav_sys mav_comp mav_file mav_packets mav_bytes] in R. specialize (R ltac:(lia)).
  destruct (run_threads sched (Mav 0 sys comp [] 0 0) (threads todo)) as [s ts]. destruct R as (w & Ef & Fw & Pre & Fin & Fl & _).
  assert (OKi : forall i m, In m (nth i todo []) -> In (m_class m) mavlink_classes /\ fits_all (m_class m) (m_fields m)).
  { intros i m Hm. destruct (nth_in_or_default i todo []) as [I|E]; [eauto|]. rewrite E in Hm. destruct Hm. }
  split.
  - apply Forall_forall. intros t Ht e E. apply In_nth_error in Ht. destruct Ht as [i Ht]. destruct (Fl i t e Ht E) as (m & q & Hq & Em & P).
    destruct (OKi i m) as [A B]; [rewrite Em; apply in_or_app; right; left; reflexivity|].
    destruct (c09_pack_decode text (m_class m) (m_fields m) q sys comp A B) as (b & d & Eb & _); try assumption; [unfold in_byte; lia|]. destruct m; cbn in *. congruence.
  - intro Eb. rewrite Ef in Eb. cbn [app] in Eb.
    assert (OKw : Forall (fun x => In (m_class (w_msg x)) mavlink_classes /\ fits_all (m_class (w_msg x)) (m_fields (w_msg x))) w).
    { apply Forall_forall. intros x Hx. apply (OKi (w_thread x)). destruct (Pre (w_thread x)) as [rest E]. rewrite E. apply in_or_app. left.
      unfold sent_by. apply in_map. apply filter_In. split; [exact Hx|apply Nat.eqb_refl]. }
    assert (T : clean_transmission (concat (map w_frame w)) (map (fun x => Sending (m_class (w_msg x)) (m_fields (w_msg x)) (w_seq x) sys comp) w)).
    { clear - Fw OKw. induction w as [|x w IH]; cbn [map concat]; [constructor|]. inversion Fw as [|? ? [_ P] Fw']. inversion OKw as [|? ? [A B] OKw']. subst.
      apply ct_message; [|cbn; destruct (w_msg x); exact P|apply IH; assumption].
      destruct (pack_bad_header _ _ _ _ _ P) as (Q1 & Q2 & Q3). unfold legit. cbn. auto. }
    rewrite <- Eb in T. destruct (c70_strict_blocks text blocks _ T) as (p & ms & E1 & E2 & E3 & _ & _ & E4).
    exists w, p, ms. repeat split; auto. clear - E2. remember (map _ w) as l eqn:El. revert w El. induction E2 as [|y d l ms' Y _ IH]; intros [|x w] El; try discriminate; [constructor|].
    cbn in El. inversion El; subst. constructor; [exact Y|]. apply IH. reflexivity.
Qed.
Print Assumptions c121_received.

(** Sends that do not overlap give what the same messages give one after the other. *)
Theorem c121_in_turns : forall order todo l, picked order todo l -> forall s s', fold_res mav_send l s = Ok s' ->
  exists todo', run_threads (in_turns order) s (threads todo) = (s', threads todo') /\ length (concat todo) = length l + length (concat todo').
Proof. exact turns. Qed.
Print Assumptions c121_in_turns.

(** A thread alone: every schedule that lets it finish gives the sequential result, with every sequence number and every count. *)
Theorem c121_alone : forall sched l s s', fold_res mav_send l s = Ok s' -> 8 * length l <= count_occ Nat.eq_dec sched 0 ->
  run_threads sched s (threads [l]) = (s', threads [[]]).
Proof. exact alone. Qed.
Print Assumptions c121_alone.

(** The counts never fall below their first values, and when all threads have finished at least one packet has been counted. *)
Theorem c121_not_below : forall sched todo s0, let '(s, ts) := run_threads sched s0 (threads todo) in
  (mav_packets s0 <= mav_packets s)%Z /\ (mav_bytes s0 <= mav_bytes s)%Z /\
  (finished ts -> concat todo <> [] -> (mav_packets s0 + 1 <= mav_packets s)%Z).
Proof. exact not_below. Qed.
Print Assumptions c121_not_below.

(** Overlapping sends: two frames with one sequence number, and a count of one. *)
Theorem c121_race_refuted : exists sched s f, run_threads sched (Mav 0 1 1 [] 0 0) (threads [[Msg (class_of 0) hb_fields]; [Msg (class_of 0) hb_fields]]) = (s, threads [[]; []]) /\
  mav_file s = f ++ f /\ length f = 17 /\ mav_seq s = 1%Z /\ mav_packets s = 1%Z /\ mav_bytes s = 17%Z.
Proof.
  exists (flat_map (fun _ => [0; 1]) (repeat tt 8)).
  eexists. exists (firstn 17 (mav_file (fst (run_threads [0; 0] (Mav 0 1 1 [] 0 0) (threads [[Msg (class_of 0) hb_fields]]))))).
  split; [vm_compute; reflexivity|]. vm_compute. repeat split.
Qed.
Print Assumptions c121_race_refuted.

(** A count, and the sequence number, can even go back. *)
Theorem c121_backwards_refuted : exists a b todo,
  (let s1 := fst (run_threads a (Mav 0 1 1 [] 0 0) (threads todo)) in let s2 := fst (run_threads (a ++ b) (Mav 0 1 1 [] 0 0) (threads todo)) in
   (mav_packets s2 < mav_packets s1)%Z) /\
  exists c d, (let s1 := fst (run_threads c (Mav 0 1 1 [] 0 0) (threads todo)) in let s2 := fst (run_threads (c ++ d) (Mav 0 1 1 [] 0 0) (threads todo)) in
   mav_seq s1 = 2%Z /\ mav_seq s2 = 1%Z).
Proof.
  exists (repeat 0 5 ++ repeat 1 16), [0], [[Msg (class_of 0) hb_fields]; [Msg (class_of 0) hb_fields; Msg (class_of 0) hb_fields]].
  split; [vm_compute; reflexivity|]. exists (repeat 0 3 ++ repeat 1 16), [0]. vm_compute. split; reflexivity.
Qed.
Print Assumptions c121_backwards_refuted.

(** Two threads with two and one heartbeats, one step each in turn: all three frames are in the file. *)
Definition ex_todo : list (list message) := [[Msg (class_of 0) hb_fields; Msg (class_of 0) hb_fields]; [Msg (class_of 0) hb_fields]].
Example c121_ex_fair : (forall i, 8 * length (nth i ex_todo []) <= count_occ Nat.eq_dec (flat_map (fun _ => [0; 1]) (repeat tt 16)) i) /\
  (let '(s, ts) := run_threads (flat_map (fun _ => [0; 1]) (repeat tt 16)) (Mav 255 1 1 [] 0 0) (threads ex_todo) in finished ts /\ length (mav_file s) = 51).
Proof. split; [intros [|[|[|i]]]; vm_compute; lia|]. vm_compute. split; [repeat constructor|reflexivity]. Qed.
Example c121_ex_fits : forall l m, In l ex_todo -> In m l -> In (m_class m) mavlink_classes /\ fits_all (m_class m) (m_fields m).
Proof.
  assert (H : In (class_of 0) mavlink_classes /\ fits_all (class_of 0) hb_fields) by exact c09_ex_fits.
  intros l m [<-|[<-|[]]] Hm; cbn in Hm; intuition (subst; cbn; tauto).
Qed.
Example c121_ex_turns : picked [0; 1; 0] ex_todo (repeat (Msg (class_of 0) hb_fields) 3) /\
  exists s', fold_res mav_send (repeat (Msg (class_of 0) hb_fields) 3) (Mav 255 1 1 [] 0 0) = Ok s' /\ mav_seq s' = 2%Z /\ mav_packets s' = 3%Z.
Proof. split; [repeat (econstructor; [reflexivity|]); constructor|]. eexists. split; [vm_compute; reflexivity|]. split; reflexivity. Qed.
