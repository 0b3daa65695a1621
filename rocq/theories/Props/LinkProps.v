(** C118: connections whose callbacks do what they like. *)
From Coq Require Import String Ascii List NArith ZArith Arith Bool Lia Permutation.
From Verif.Model Require Import Py Dialect ProtocolMeta Struct Mavlink Parser Link.
From Verif.Spec Require Import Bytes Bits Header CrcSpec Frame StreamSpec LinkSpec.
From Verif.Proofs Require Import Base DialectP MavlinkP FieldsP PackP SendP MavlinkMore StreamP StreamMore LinkP.
From Verif.Props Require Import MavlinkProps StreamProps.
Import ListNotations.
Local Open Scope list_scope.
Local Notation length := List.length.

(** Whatever the program and the callbacks do - call the parser from within a callback, send, raise exceptions, change the callbacks - the messages
    found are those of the first pieces of all bytes fed, in the order of the calls; nothing is found twice or left out, what is not yet parsed
    waits in the buffer, and the counters are exact. *)
Theorem c118_received : forall D M (decode : D -> bytes -> D * res M) d sys comp l c ev pieces rest,
  only_mav_errors decode -> run decode (conn_new true d sys comp) l = (c, ev) -> is_bytes (fed l) -> cut (fed l) pieces rest ->
  exists done todo, pieces = done ++ todo /\ parsed ev = snd (tolerant decode d done) /\
    pending (c_parser c) = concat (map piece_bytes todo) ++ rest /\ p_decoder (c_parser c) = fst (tolerant decode d done) /\
    p_packets (c_parser c) = length done /\ p_bytes (c_parser c) = length (fed l) /\ p_errors (c_parser c) = length (filter is_bad (parsed ev)).
Proof.
  intros D M decode d sys comp l c ev pieces rest Hm E B C.
  pose proof (run_through decode Hm d l _ [] [] (new_through decode true d sys comp eq_refl) B) as T. rewrite E in T. exact (through_cut decode _ _ _ _ _ _ T C).
Qed.
Print Assumptions c118_received.

(** When a call of parse_buffer returns, by whomever it was made, no complete piece of what was fed so far is left, and all have been found. *)
Theorem c118_complete : forall D M (decode : D -> bytes -> D * res M) d sys comp l a c ev c' ev' pieces rest,
  only_mav_errors decode -> run decode (conn_new true d sys comp) l = (c, ev) -> step decode c a = (c', ev') -> Exists is_list_returned ev' ->
  is_bytes (fed (l ++ [a])) -> cut (fed (l ++ [a])) pieces rest ->
  parsed (ev ++ ev') = snd (tolerant decode d pieces) /\ pending (c_parser c') = rest.
Proof.
  intros D M decode d sys comp l a c ev c' ev' pieces rest Hm E E' X B C.
  assert (F : fed (l ++ [a]) = fed l ++ block a) by (unfold fed; rewrite map_app, concat_app; cbn; rewrite app_nil_r; reflexivity). rewrite F in B, C.
  assert (Bl : is_bytes (fed l)) by (unfold is_bytes in *; apply Forall_app in B; apply B).
  pose proof (run_through decode Hm d l _ [] [] (new_through decode true d sys comp eq_refl) Bl) as T. rewrite E in T. cbn [fst snd app] in T.
  destruct (step_settled decode Hm d c a _ _ T B) as (T1 & U & _). rewrite E' in T1, U. cbn [fst snd] in *. rewrite parsed_app.
  exact (through_unfinished decode _ _ _ _ _ _ T1 C (U X)).
Qed.
Print Assumptions c118_complete.

(** A callback that is set and not changed is called with every message found, once, in order. *)
Theorem c118_callback : forall D M (decode : D -> bytes -> D * res M) d sys comp k l c ev,
  only_mav_errors decode -> run decode (conn_new true d sys comp) (SetCallback (Some k) :: l) = (c, ev) -> is_bytes (fed l) ->
  Forall (fun a => ~ sets_callback a) l -> called_with k ev = parsed ev.
Proof.
  intros D M decode d sys comp k l c ev Hm E B F. apply called_all. intros j it Hin. cbn [run step] in E.
  match type of E with context[run decode ?x l] => pose proof (run_callback decode Hm d (Some k) l x [] []) as R end.
  match type of E with context[run decode ?x l] => destruct (run decode x l) as [c1 ev1] end. injection E as <- <-. cbn [snd app] in *.
  apply (R (new_through decode true d sys comp eq_refl) B eq_refl F j it Hin).
Qed.
Print Assumptions c118_callback.

(** Every message found is returned by exactly one call, the one that found it, or that call still waits for a callback; only messages whose call was
    ended by an exception of a callback are lost to the caller. *)
Theorem c118_returned : forall D M (decode : D -> bytes -> D * res M) d sys comp l c ev,
  only_mav_errors decode -> run decode (conn_new true d sys comp) l = (c, ev) -> is_bytes (fed l) ->
  exists lost, Permutation (parsed ev) (returned ev ++ held (c_stack c) ++ lost) /\ (Forall (fun a => ~ is_throw a) l -> lost = []).
Proof.
  intros D M decode d sys comp l c ev Hm E B.
  destruct (run_accounts decode Hm d l _ [] [] (new_through decode true d sys comp eq_refl) B) as (lost & P & N). rewrite E in P. exists lost. auto.
Qed.
Print Assumptions c118_returned.

(** If moreover no callback calls the parser, messages are returned in the order in which they arrive. *)
Theorem c118_in_order : forall D M (decode : D -> bytes -> D * res M) d sys comp l c ev,
  only_mav_errors decode -> run decode (conn_new true d sys comp) l = (c, ev) -> is_bytes (fed l) ->
  no_nesting decode (conn_new true d sys comp) l -> Forall (fun a => ~ is_throw a) l -> parsed ev = returned ev ++ held (c_stack c).
Proof.
  intros D M decode d sys comp l c ev Hm E B N T.
  pose proof (run_order decode Hm d l _ [] [] (new_through decode true d sys comp eq_refl) B I N T) as P. rewrite E in P. exact P.
Qed.
Print Assumptions c118_in_order.

(** What is written, by whomever it is sent and whatever the parser and the callbacks do: the frames one after another with consecutive numbers;
    a message that cannot be packed leaves no trace, one whose writing fails leaves what was written, and the next one gets its number. *)
Theorem c118_sent : forall D M (decode : D -> bytes -> D * res M) robust d sys comp l c ev, run decode (conn_new robust d sys comp) l = (c, ev) ->
  let n := length (delivered sys comp 0 (attempts l)) in
  mav_file (c_mav c) = written sys comp 0 (attempts l) /\ mav_seq (c_mav c) = (Z.of_nat n mod 256)%Z /\ mav_packets (c_mav c) = Z.of_nat n /\
  mav_bytes (c_mav c) = Z.of_nat (delivered_bytes sys comp 0 (attempts l)).
Proof.
  intros D M decode robust d sys comp l c ev E. pose proof (run_sender decode sys comp l (conn_new robust d sys comp) 0 0 [] eq_refl) as R.
  rewrite E in R. cbn [fst] in R. rewrite R. auto.
Qed.
Print Assumptions c118_sent.

(** The send callback is called with every message sent, once, in order. *)
Theorem c118_confirmed : forall D M (decode : D -> bytes -> D * res M) robust d sys comp k l c ev,
  run decode (conn_new robust d sys comp) (SetSendCallback (Some k) :: l) = (c, ev) -> Forall (fun a => ~ sets_send_callback a) l ->
  confirmed k ev = delivered sys comp 0 (attempts l).
Proof.
  intros D M decode robust d sys comp k l c ev E F. cbn [run step] in E.
  match type of E with context[run decode ?x l] => pose proof (run_confirmed decode sys comp k l x 0 0 [] eq_refl eq_refl F) as R; destruct (run decode x l) as [c1 ev1] end.
  injection E as <- <-. exact R.
Qed.
Print Assumptions c118_confirmed.

Lemma written_clean sys comp l : in_byte sys -> in_byte comp -> Forall well_sent l -> forall k,
  clean_transmission (written sys comp k l) (numbered sys comp k (delivered sys comp k l)).
Proof.
  intros Hs Hc. induction 1 as [|[m fl] l (H1 & H2 & H3) _ IH]; intros k; [constructor|]. cbn [written delivered fst snd] in *.
  destruct (frame_of sys comp k m) as [f|] eqn:F; [|apply IH]. destruct H3 as [->| ->]; [|apply IH].
  cbn [numbered]. constructor; [|unfold frame_of in F|apply IH].
  - repeat split; cbn; auto; try (apply H2); try (apply Hs); try (apply Hc); pose proof (Z.mod_pos_bound (Z.of_nat k) 256); lia.
  - cbn. destruct m as [cl fs]. cbn in *. destruct (message_pack _ _ _ _); congruence.
Qed.

Lemma accepted_items {D M} (dec : D -> bytes -> D * res M) l : forall d ms, accepted dec d l ms -> snd (tolerant dec d l) = map Message ms.
Proof.
  induction l as [|[x|f] l IH]; intros d ms A; destruct ms as [|m ms]; cbn [accepted tolerant] in *; try contradiction; [reflexivity|].
  destruct A as [A1 A2]. specialize (IH _ _ A2). destruct (outcome dec d f) as [d' r]. cbn [fst snd] in *. subst r.
  destruct (tolerant dec d' l). cbn [snd map] in *. rewrite IH. reflexivity.
Qed.

(** From one connection to another: what one side wrote is fed to the other, in any blocks and from anywhere.  If no message is left in the buffer, the
    callback has been called with exactly the messages sent, in order, whatever the callbacks of both sides do. *)
Theorem c118_delivery : forall text D M (decode : D -> bytes -> D * res M) robust d sys comp la a eva sysb compb k lb b evb,
  in_byte sys -> in_byte comp -> Forall well_sent (attempts la) -> run decode (conn_new robust d sys comp) la = (a, eva) ->
  fed lb = mav_file (c_mav a) -> Forall (fun x => ~ sets_callback x) lb ->
  run (plain_decode text) (conn_new true tt sysb compb) (SetCallback (Some k) :: lb) = (b, evb) -> unfinished (pending (c_parser b)) ->
  exists ms, called_with k evb = map Message ms /\
    Forall2 (sent_as text) (numbered sys comp 0 (delivered sys comp 0 (attempts la))) ms /\ pending (c_parser b) = [].
Proof.
  intros text D M decode robust d sys comp la a eva sysb compb k lb b evb Hs Hc W Ea Ef Fb Eb U.
  destruct (c118_sent _ _ _ _ _ _ _ _ _ _ Ea) as (Ew & _). rewrite Ew in Ef.
  destruct (clean_cut text _ _ (written_clean sys comp _ Hs Hc W 0)) as (B & pieces & ms & C & A & S2). rewrite <- Ef in B, C.
  assert (Fd : fed (SetCallback (Some k) :: lb) = fed lb) by reflexivity.
  rewrite (c118_callback _ _ _ _ _ _ _ _ _ _ (plain_mav text) Eb B Fb).
  pose proof (run_through (plain_decode text) (plain_mav text) tt (SetCallback (Some k) :: lb) _ [] [] (new_through _ true tt sysb compb eq_refl)) as T.
  rewrite Fd, Eb in T. cbn [fst snd app] in T. destruct (through_unfinished _ _ _ _ _ _ _ (T B) C U) as [E1 E2].
  exists ms. rewrite E1, E2. split; [|auto]. exact (accepted_items _ _ _ _ A).
Qed.
Print Assumptions c118_delivery.

(** A callback that raises an exception costs the caller of parse_buffer the messages found before, too. *)
Theorem c118_lost_refuted : exists text l c ev, is_bytes (fed l) /\ run (plain_decode text) (conn_new true tt 1 1) l = (c, ev) /\
  length (parsed ev) = 3 /\ c_stack c = [] /\ pending (c_parser c) = [] /\ length (returned ev) = 1.
Proof.
  exists text0, [SetCallback (Some 7); FeedAll (hb ++ hb ++ hb); Leave; Throw ValueError; Feed []; Leave]. eexists _, _.
  split; [repeat constructor|]. split; [vm_compute; reflexivity|]. vm_compute. auto.
Qed.
Print Assumptions c118_lost_refuted.

(** A writing that fails in the middle of a frame costs the receiver the next message, too. *)
Theorem c118_partial_write_refuted : exists text m c ev p, in_byte 1 /\ In (m_class m) mavlink_classes /\ fits_all (m_class m) (m_fields m) /\
  run (plain_decode text) (conn_new true tt 1 1) [Send m (Some (5, RuntimeError)); Send m None] = (c, ev) /\
  delivered 1 1 0 (attempts [Send m (Some (5, RuntimeError)); Send m None]) = [m] /\
  fst (feed_blocks (plain_decode text) (parser_new true tt) [mav_file (c_mav c)]) = p /\
  (forall items x, snd (feed_blocks (plain_decode text) (parser_new true tt) [mav_file (c_mav c)]) = Ok items -> ~ In (Message x) items).
Proof.
  exists text0, (Msg (class_of 0) hb_fields). eexists _, _, _. split; [split; lia|]. split; [exact (proj1 c09_ex_fits)|]. split; [exact (proj2 c09_ex_fits)|].
  split; [vm_compute; reflexivity|]. split; [vm_compute; reflexivity|]. split; [reflexivity|]. vm_compute. intros items x [= <-] H. cbn in H. intuition discriminate.
Qed.
Print Assumptions c118_partial_write_refuted.

(** Three heartbeats in one block.  The callback is called with the first and returns; called with the second it calls parse_char, which calls it with
    the third; it sends a heartbeat, whose send callback raises an exception that it catches. *)
Definition history0 : list action :=
  [SetCallback (Some 7); SetSendCallback (Some 8); FeedAll (hb ++ hb ++ hb ++ [254; 9]%N); Leave; Feed []; Send (Msg (class_of 0) hb_fields) None;
   Throw ValueError; Leave; Leave].
Example c118_ex : exists d, decode text0 hb = Ok d /\
  (let '(c, ev) := run (plain_decode text0) (conn_new true tt 1 1) history0 in
   ev = [Parsed (Some 7) (Message d); Parsed (Some 7) (Message d); Parsed (Some 7) (Message d); SendCalled 8 (Msg (class_of 0) hb_fields); Raised ValueError;
         ReturnedItem (Some (Message d)); ReturnedList (Some [Message d; Message d])] /\
   pending (c_parser c) = [254; 9]%N /\ mav_packets (c_mav c) = 1%Z /\ mav_seq (c_mav c) = 1%Z /\ c_stack c = []).
Proof. eexists. split; [vm_compute; reflexivity|]. vm_compute. auto. Qed.
(** The hypotheses can be met: a history without nesting and exceptions. *)
Example c118_ex_quiet : let l := [SetCallback (Some 7); FeedAll (hb ++ hb); Send (Msg (class_of 0) hb_fields) (Some (0, RuntimeError)); Leave; Leave; Feed hb; Leave] in
  is_bytes (fed l) /\ no_nesting (plain_decode text0) (conn_new true tt 1 1) l /\ Forall (fun a => ~ is_throw a) l /\ Forall well_sent (attempts l).
Proof.
  cbn zeta. split; [repeat constructor|]. split; [vm_compute; tauto|]. split; [repeat constructor; intros []|].
  constructor; [|constructor]. split; [exact (proj1 c09_ex_fits)|]. split; [exact (proj2 c09_ex_fits)|right; reflexivity].
Qed.
(** Two heartbeats sent by one side, one of them by its send callback, and fed to the other in two blocks, the second one by its callback. *)
Example c118_ex_delivery : exists a eva b evb,
  run (plain_decode text0) (conn_new true tt 1 1) [SetSendCallback (Some 8); Send (Msg (class_of 0) hb_fields) None; Send (Msg (class_of 0) hb_fields) None] = (a, eva) /\
  run (plain_decode text0) (conn_new true tt 1 1) [SetCallback (Some 7); FeedAll (firstn 20 (mav_file (c_mav a))); FeedAll (skipn 20 (mav_file (c_mav a)))] = (b, evb) /\
  length (called_with 7 evb) = 2 /\ unfinished (pending (c_parser b)) /\ length (c_stack b) = 2.
Proof. eexists _, _, _, _. split; [vm_compute; reflexivity|]. split; [vm_compute; reflexivity|]. split; [reflexivity|]. split; [left; reflexivity|reflexivity]. Qed.
