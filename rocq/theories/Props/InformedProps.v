(** C90: experiments whose decoder is told where the received word is wrong. *)
From Coq Require Import List Arith NArith ZArith Bool Lia QArith.
From Verif.Model Require Import Py Float Mavlink Segmentation StatModels Clustering DecoderBase Rectify MavlinkDecoder CombinedDecoder Simulation Informed.
From Verif.Spec Require Import RealOps Bytes SimulationSpec InformedSpec.
From Verif.Proofs Require Import Base SimulationP ExperimentP SegmentP InformedP.
From Verif.Props Require Import SegmentProps StatProps RectifyProps MavDecProps CombinedProps ExperimentProps.
Import ListNotations.
Local Close Scope Q_scope.
Local Close Scope R_scope.

(** The run with the MAVLink decoder: the decoder is given each received word with the positions where it differs from the sent word (none when this is unknown),
    and the report is that of C80 with thirteen columns. *)
Theorem c90_mavlink_run : forall FO S ldpc (aided : S -> _) n k tx rx la aa s ml ma,
  0 < n -> tx <> [] -> Forall (sent_row n) tx -> length rx = length tx -> Forall (fun r => length r = n) rx ->
  Forall2 (fun r a => ldpc r = Ok a) rx la ->
  feeds (fun s x => aided s (fst x) (snd x)) s (combine rx (map (fun tr => told_always (fst tr) (hard FO (snd tr))) (combine tx rx))) aa ->
  proper_answers n ml la -> proper_answers n ma aa ->
  reports FO 13 n k tx rx la aa ml ma (run_mavlink FO ldpc aided n k tx rx s).
Proof.
  intros FO S ldpc aided n k tx rx la aa s ml ma Hn Ht Wt Lr Wr Fl Fa Pl Pa. unfold run_mavlink. apply run_reports; try assumption.
  rewrite (told_rows FO tell_always told_always n) by (try assumption; intros; unfold tell_always; eapply told_row; eassumption). exact Fa.
Qed.
Print Assumptions c90_mavlink_run.

(** The run with the unified decoder: for unknown words nothing is told; six columns. *)
Theorem c90_unified_run : forall FO S ldpc (aided : S -> _) n k tx rx la aa s ml ma,
  0 < n -> tx <> [] -> Forall (sent_row n) tx -> length rx = length tx -> Forall (fun r => length r = n) rx ->
  Forall2 (fun r a => ldpc r = Ok a) rx la ->
  feeds (fun s x => aided s (fst x) (snd x)) s (combine rx (map (fun tr => told_known (fst tr) (hard FO (snd tr))) (combine tx rx))) aa ->
  proper_answers n ml la -> proper_answers n ma aa ->
  reports FO 6 n k tx rx la aa ml ma (run_unified FO ldpc aided n k tx rx s).
Proof.
  intros FO S ldpc aided n k tx rx la aa s ml ma Hn Ht Wt Lr Wr Fl Fa Pl Pa. unfold run_unified. apply run_reports; try assumption.
  rewrite (told_rows FO tell_known told_known n) by (try assumption; intros; eapply told_known_row; eassumption). exact Fa.
Qed.
Print Assumptions c90_unified_run.

(** What the run sees of an answer of the two decoders: the estimate, the success, and as many items as the tables of the two theorems above
    expect besides the count of errors, twelve and five. *)
Theorem c90_answers : forall FO pack erf kl D (parser : bytes -> res D) info X (ldpc' : _ -> res (_ * X)) s r,
  (forall c e, md_informed FO pack erf kl parser info c ldpc' s r e =
    match md_decode FO pack erf kl parser info c ldpc' s r e with
    | (s', Ok (est, _, ok, _, _, _, _, _, _, _, _)) => Ok (Answer est ok 12, s')
    | (_, Err x) => Err x
    end) /\
  (forall c s2 e, co_informed FO pack erf kl parser info c ldpc' s2 r e =
    match co_decode FO pack erf kl parser info c ldpc' s2 r e with
    | (s', Ok (est, _, ok, _, _, _)) => Ok (Answer est ok 5, s')
    | (_, Err x) => Err x
    end).
Proof.
  intros. split; intros; [unfold md_informed; destruct (md_decode _ _ _ _ _ _ _ _ _ _ _) as [s' [[[[[[[[[[[? ?] ?] ?] ?] ?] ?] ?] ?] ?] ?]|?]]; reflexivity|].
  unfold co_informed. destruct (co_decode _ _ _ _ _ _ _ _ _ _ _) as [s' [[[[[[? ?] ?] ?] ?] ?]|?]]; reflexivity.
Qed.
Print Assumptions c90_answers.
(** So a run with the decoders, if every word is answered and every estimate has the length of a code word, reports in tables of this width. *)
Theorem c90_real_run : forall FO pack erf kl D (parser : bytes -> res D) info X (ldpc' : _ -> res (_ * X)) ldpc n k tx rx la ml,
  0 < n -> tx <> [] -> Forall (sent_row n) tx -> length rx = length tx -> Forall (fun r => length r = n) rx ->
  Forall2 (fun r a => ldpc r = Ok a) rx la -> proper_answers n ml la ->
  (forall c s aa, feeds (fun s x => md_informed FO pack erf kl parser info c ldpc' s (fst x) (snd x)) s
       (combine rx (map (fun tr => told_always (fst tr) (hard FO (snd tr))) (combine tx rx))) aa -> Forall (fun a => word n (a_estimate a)) aa ->
     reports FO 13 n k tx rx la aa ml 12 (run_mavlink FO ldpc (md_informed FO pack erf kl parser info c ldpc') n k tx rx s)) /\
  (forall c s aa, feeds (fun s x => co_informed FO pack erf kl parser info c ldpc' s (fst x) (snd x)) s
       (combine rx (map (fun tr => told_known (fst tr) (hard FO (snd tr))) (combine tx rx))) aa -> Forall (fun a => word n (a_estimate a)) aa ->
     reports FO 6 n k tx rx la aa ml 5 (run_unified FO ldpc (co_informed FO pack erf kl parser info c ldpc') n k tx rx s)).
Proof.
  intros FO pack erf kl D parser info X ldpc' ldpc n k tx rx la ml Hn Ht Wt Lr Wr Fl Pl.
  split; intros c s aa Fe Wa; [apply c90_mavlink_run|apply c90_unified_run]; try assumption; unfold proper_answers; (apply Forall_and; [exact Wa|]);
    clear - Fe; (induction Fe as [|s x a s' xs l E _ IH]; [constructor|constructor; [|exact IH]]).
  - destruct (c90_answers FO pack erf kl D parser info X ldpc' s (fst x)) as [Q _]. rewrite Q in E.
    destruct (md_decode _ _ _ _ _ _ _ _ _ _ _) as [s1 [[[[[[[[[[[? ?] ?] ?] ?] ?] ?] ?] ?] ?] ?]|?]]; [|discriminate]. injection E as <- _. reflexivity.
  - unfold co_informed in E. destruct (co_decode _ _ _ _ _ _ _ _ _ _ _) as [s1 [[[[[[? ?] ?] ?] ?] ?]|?]]; cbn [bind] in E; [|discriminate]. injection E as <- _. reflexivity.
Qed.
Print Assumptions c90_real_run.

(** Telling the truth does not help: with lies instead, any positions that depend on anything, the run is the same to the last number (also when it raises).
    Without debugging (as the MAVLink scripts do) even impossible positions change nothing. *)
Theorem c90_mavlink_blind : forall FO pack erf kl D (parser : bytes -> res D) info X (ldpc' : _ -> res (_ * X)) ldpc c lie n k tx rx s,
  md_debug c = false \/ (forall s r e, positions (length r) (lie s r e)) ->
  run_mavlink FO ldpc (fun s r e => md_informed FO pack erf kl parser info c ldpc' s r (lie s r e)) n k tx rx s =
  run_mavlink FO ldpc (md_informed FO pack erf kl parser info c ldpc') n k tx rx s.
Proof.
  intros FO pack erf kl D parser info X ldpc' ldpc c lie n k tx rx s H. apply run_ext. intros s1 r e (known & er & L & -> ). apply md_blind. destruct H as [H|H]; [left; exact H|right]. split; [apply H|].
  eapply Forall_impl; [|apply (where_one_range er)]. cbn beta. intros; lia.
Qed.
Print Assumptions c90_mavlink_blind.

Theorem c90_unified_blind : forall FO pack erf kl D (parser : bytes -> res D) info X (ldpc' : _ -> res (_ * X)) ldpc c lie n k tx rx s,
  (forall s r e, positions (length r) (lie s r e)) ->
  run_unified FO ldpc (fun s r e => co_informed FO pack erf kl parser info c ldpc' s r (match e with Some e => Some (lie s r e) | None => None end)) n k tx rx s =
  run_unified FO ldpc (co_informed FO pack erf kl parser info c ldpc') n k tx rx s.
Proof.
  intros FO pack erf kl D parser info X ldpc' ldpc c lie n k tx rx s H. apply run_ext. intros s1 r e (known & er & L & -> ). unfold tell_known. destruct known; [|reflexivity].
  unfold co_informed. rewrite (co_blind FO pack erf kl parser info c ldpc' s1 r (lie s1 r (where_one er)) (where_one er)); [reflexivity|apply H|]. eapply Forall_impl; [|apply (where_one_range er)]. cbn beta. intros; lia.
Qed.
Print Assumptions c90_unified_blind.

(** If the run ends with a report, it ends with the same report when the decoder is told nothing. *)
Theorem c90_unified_untold : forall FO pack erf kl D (parser : bytes -> res D) info X (ldpc' : _ -> res (_ * X)) ldpc c n k tx rx s ex,
  run_unified FO ldpc (co_informed FO pack erf kl parser info c ldpc') n k tx rx s = Ok ex ->
  run_unified FO ldpc (fun s r _ => co_informed FO pack erf kl parser info c ldpc' s r None) n k tx rx s = Ok ex.
Proof.
  intros FO pack erf kl D parser info X ldpc' ldpc c n k tx rx s ex E. eapply (run_ok FO ldpc tell_known 6 tell_known); [|exact E].
  intros s1 r known er y _ Y. cbn beta. eapply co_none. exact Y.
Qed.
Print Assumptions c90_unified_untold.

(** The structure set for all words is that of the first one, however it was sent: an unknown word has no messages. *)
Theorem c90_first_unknown : forall text k row, Forall (fun x => x <> 0%Z) row -> first_structure (decode text) k row = Ok [].
Proof. intros text k row H. apply unknown_structure; [|exact H]. intros b B. apply c11_mavlink_total. exact B. Qed.
Print Assumptions c90_first_unknown.

(** Then the given model has no influence on any word of the run: all models give the same report (defect: nobody is warned). *)
Theorem c90_model_unused : forall FO pack erf kl D (parser : bytes -> res D) info X (ldpc' : _ -> res (_ * X)) ldpc c n k tx rx structs running classifier model1 model2,
  rc_learning (md_rect c) = false -> md_debug c = false -> Forall (fun st => st = Some []) structs ->
  run_mavlink FO ldpc (md_informed FO pack erf kl parser info c ldpc') n k tx rx (MdState FO structs model1 running classifier) =
  run_mavlink FO ldpc (md_informed FO pack erf kl parser info c ldpc') n k tx rx (MdState FO structs model2 running classifier).
Proof.
  intros FO pack erf kl D parser info X ldpc' ldpc c n k tx rx structs running classifier model1 model2 Hl Hd B. unfold run_mavlink.
  apply (run_related FO ldpc tell_always 13 (md_informed FO pack erf kl parser info c ldpc') (fun s1 s2 => alike FO s1 s2 /\ blank FO s1)).
  - intros s1 s2 r e [A Bl]. pose proof (md_informed_alike FO pack erf kl parser info c Hl ldpc' s1 s2 r e Hd A Bl) as Q.
    destruct (md_informed _ _ _ _ _ _ _ _ s1 _ _) as [[a1 t1]|], (md_informed _ _ _ _ _ _ _ _ s2 _ _) as [[a2 t2]|]; try contradiction; [|exact Q]. destruct Q as (Q1 & Q2 & Q3). auto.
  - split; [repeat split|exact B].
Qed.
Print Assumptions c90_model_unused.

(** Examples: a decoder that trusts what it is told repairs the known word. *)
Definition ex_repair (s : nat) (l : list Q) (e : list Z) : res (answer * nat) :=
  Ok (Answer (map (fun p => if existsb (Z.eqb (Z.of_nat (fst p))) e then (1 - snd p)%Z else snd p) (combine (seq 0 (length l)) (hard Qops l))) true 12, s + length e).
Example c90_ex :
  ex_view (run_mavlink Qops ex_plain ex_repair 4 2 [[1; 0; 1; 0]; [2; 2; 2; 2]]%Z [[1; -2; -3; 4]; [-1; 1; 1; 1]]%Q 0) =
  Some ([([1; 1; 0; 0]%Z, 2%Z, 0%Z, (1 # 2)%Q); ([2; 2; 2; 2]%Z, (-1)%Z, (-1)%Z, (-1 # 1)%Q)], [2; -1]%Z, [0; -1]%Z, (0, 1, 1 # 2, 0)%Q).
Proof. vm_compute. reflexivity. Qed.
Example c90_ex_told : map (fun tr => told_known (fst tr) (hard Qops (snd tr))) (combine [[1; 0; 1; 0]; [2; 2; 2; 2]]%Z [[1; -2; -3; 4]; [-1; 1; 1; 1]]%Q) = [Some [0; 1]%Z; None].
Proof. vm_compute. reflexivity. Qed.

(** A run of the real decoders: one heartbeat, three wrong bits. *)
Definition ex_sent : list Z := hard Qops hb_word.
Definition ex_received : list Q := map (fun p => if existsb (Nat.eqb (fst p)) [3; 60; 143] then (- snd p)%Q else snd p) (combine (seq 0 144) hb_word).
Definition ex_mavlink (errs : list Z -> list Z) (structs : list (option structure)) : option (list Z * list Z) :=
  let '(c, s) := md_new Qops (repeat true 144) 144 144 (1 # 10)%Q (1 # 100)%Q 1 (5 # 4)%Q (1 # 2)%Q 3 false None (Some one_heartbeat) (40 # 1)%Q (3 # 10)%Q false 1 in
  match run_mavlink Qops ex_plain (fun s r e => md_informed Qops no_pack (fun x => x) no_kl (decode (fun b => b)) word_info c (echo (fun _ => true)) s r (errs e)) 144 96
          [ex_sent] [ex_received] (fst (md_set_structures Qops c s structs)) with
  | Ok ex => Some (map snd (ex_ldpc Qops ex), map snd (ex_aided Qops ex))
  | Err _ => None
  end.
Example c90_ex_blind : ex_mavlink (fun e => e) [Some [(0, 0%N)]] = ex_mavlink (fun _ => [7%Z]) [Some [(0, 0%N)]] /\ ex_mavlink (fun e => e) [Some [(0, 0%N)]] <> None.
Proof. split; [vm_compute; reflexivity|]. vm_compute. discriminate. Qed.
(** With the structure of the word the statistics repair two bits, with the structure of an unknown first word they do not. *)
Example c90_ex_unused : ex_mavlink (fun e => e) [Some [(0, 0%N)]] = Some ([3]%Z, [1]%Z) /\ ex_mavlink (fun e => e) [Some []] = Some ([3]%Z, [3]%Z) /\
  first_structure (decode (fun b => b)) 144 ex_sent = Ok [(0, 0%N)] /\ first_structure (decode (fun b => b)) 144 (repeat 2%Z 144) = Ok [].
Proof. vm_compute. repeat split. Qed.
