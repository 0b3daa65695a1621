(** Properties of the MAVLink decoder, and examples. *)
From Coq Require Import String Ascii List ZArith NArith QArith Bool Lia Sorting.Sorted.
From Verif.Model Require Import Py Float Dialect Struct Mavlink Segmentation StatModels Clustering DecoderBase Rectify MavlinkDecoder.
From Verif.Spec Require Import RealOps Bytes Bits Header Frame Segment Stats Info DecoderSpec MavDecSpec DebugSpec.
From Verif.Proofs Require Import MavDecP DebugP.
From Verif.Props Require Import MavlinkProps StatProps RectifyProps.
Import ListNotations.
Local Close Scope Q_scope.

(** The information bytes can be read off every word. *)
Definition readable (info : list Z -> res bytes) : Prop := forall l, exists b, info l = Ok b /\ is_bytes b.

(** C53.  A new decoder is in a proper state, knows no structure, and has an empty model or the given one. *)
Theorem c53_new : forall FO info_idx n ml vt it k vf inf ct cl w dm ce sl db rounds c s, md_new FO info_idx n ml vt it k vf inf ct cl w dm ce sl db rounds = (c, s) ->
  well FO c s /\ md_structs s = repeat None k /\ md_model s = match dm with Some m => m | None => bm_init FO [] w end /\
  rc_learning (md_rect c) = match dm with Some _ => false | None => true end /\ md_clusters c = k /\ md_rounds c = rounds /\ md_debug c = db.
Proof. intros. pose proof (new_well FO info_idx n ml vt it k vf inf ct cl w dm ce sl db rounds) as W. rewrite H in W. inversion H; subst. split; [exact W|]. repeat split. Qed.
Print Assumptions c53_new.

(** Setting the structures: exactly one (or None) for each cluster. *)
Theorem c53_set_structures : forall FO c (s : md_state FO) l,
  (length l = md_clusters c -> exists s', md_set_structures FO c s l = (s', Ok tt) /\ md_structs s' = l /\ md_model s' = md_model s /\ md_running s' = md_running s /\ md_classifier s' = md_classifier s) /\
  (length l <> md_clusters c -> md_set_structures FO c s l = (s, Err ValueError)).
Proof.
  intros. unfold md_set_structures. split; intro H.
  - rewrite (proj2 (Nat.eqb_eq _ _) H). eexists. split; [reflexivity|]. repeat split.
  - apply Nat.eqb_neq in H. rewrite H. reflexivity.
Qed.
Print Assumptions c53_set_structures.

(** The answer of a call: while the classifier is trained that of the LDPC decoder for the received word, else that of the last run; and what is
    learned. *)
Theorem c53_answer : forall FO pack erf kl text info c X (ldpc : list (F FO) -> res (list Z * list (F FO) * bool * Z * X)) s llr errs s' a label seg good bad ca fa,
  readable info -> well FO c s -> md_debug c = false ->
  (md_decode FO pack erf kl (decode text) info c ldpc s llr errs = (s', Ok (a, label, seg, good, bad, ca, fa)) <->
   ca = None /\ fa = None /\
   ((exists n st st' adds, md_rounds c = S n /\ label = (-1)%Z /\ seg = [] /\ good = [] /\ bad = [] /\ labels FO c kl (hard FO llr) (md_running s) (md_classifier s) [-1]%Z (md_running s') (md_classifier s') /\
     ldpc llr = Ok a /\ nth_error (md_structs s) (md_clusters c - 1) = Some st /\ learned FO text info c st a (hard FO llr) st' adds /\ takes (md_model s) adds /\
     md_structs s' = set_nth (md_structs s) (md_clusters c - 1) st' /\ md_model s' = bm_run FO pack erf (md_model s) adds) \/
    (exists runs r p, works FO pack erf text info c ldpc (hard FO llr) (md_rounds c) (md_structs s) (md_model s) llr runs p (md_structs s') (md_model s') /\
      labels FO c kl (hard FO llr) (md_running s) (md_classifier s) (map r_label runs) (md_running s') (md_classifier s') /\ Forall (fun r => (0 <= r_label r)%Z) runs /\
      List.last (map Some runs) None = Some r /\ label = r_label r /\ a = final runs r /\ seg = pr_segmented p /\ good = pr_good_fields p /\ bad = pr_bad_fields p))).
Proof. intros. apply decode_label; assumption. Qed.
Print Assumptions c53_answer.

(** A negative label is given exactly while the classifier is trained. *)
Theorem c53_label : forall FO kl c bits i k x i' k', sane k -> labels FO c kl bits i k [x] i' k' ->
  x = (-1)%Z /\ 1 < md_clusters c /\ md_cluster c = true /\ (k_samples k + 1 < k_min k)%Z \/ (0 <= x)%Z /\ (1 < md_clusters c -> md_cluster c = true -> (k_min k' <= k_samples k')%Z).
Proof. exact labels_one. Qed.
Print Assumptions c53_label.

(** Any history of calls, whatever they return: the structures and the model are the result of the lessons of at most [md_rounds] runs for each
    call; everything else done to the model is reading. *)
Theorem c53_history : forall FO pack erf kl text info c X (ldpc : list (F FO) -> res (list Z * list (F FO) * bool * Z * X)) l s, readable info -> well FO c s ->
  let s' := fold_left (fun s x => fst (md_decode FO pack erf kl (decode text) info c ldpc s (fst x) (snd x))) l s in
  exists runs adds, lessons FO text info c ldpc (md_structs s) (combine (map (fun x => hard FO (fst x)) l) runs) (md_structs s') adds /\
    length runs = length l /\ Forall (fun rs => length rs <= md_rounds c) runs /\ grown pack erf (md_model s) adds (md_model s') /\ well FO c s'.
Proof. intros. apply (calls_lessons FO pack erf kl text info c ldpc H l s H0). Qed.
Print Assumptions c53_history.

(** One buffer is added for each run that succeeds or whose structure is known, none for the others. *)
Theorem c53_one_each : forall FO text info c X st (a : list Z * list (F FO) * bool * Z * X) bits st' adds, learned FO text info c st a bits st' adds -> rc_learning (md_rect c) = true ->
  length adds = (if an_ok a then 1 else match st with Some _ => 1 | None => 0 end).
Proof. intros. eapply learned_adds; eassumption. Qed.
Print Assumptions c53_one_each.

(** A structure stays once it is known. *)
Theorem c53_kept : forall FO text info c X (ldpc : list (F FO) -> res (list Z * list (F FO) * bool * Z * X)) l ss ss' adds i s,
  lessons FO text info c ldpc ss l ss' adds -> nth_error ss i = Some (Some s) -> nth_error ss' i = Some (Some s).
Proof. intros FO text info c X ldpc l ss ss' adds i s. apply lessons_keep. Qed.
Print Assumptions c53_kept.

(** A given data model is only read, and structures are never derived. *)
Theorem c53_given : forall FO pack erf kl text info c X (ldpc : list (F FO) -> res (list Z * list (F FO) * bool * Z * X)) s llr errs s' r, readable info -> well FO c s -> rc_learning (md_rect c) = false ->
  md_decode FO pack erf kl (decode text) info c ldpc s llr errs = (s', r) -> md_structs s' = md_structs s /\ grown pack erf (md_model s) [] (md_model s').
Proof.
  intros FO pack erf kl text info c X ldpc s llr errs s' r I W Hl E. destruct (decode_taught FO pack erf kl text info c ldpc I s llr errs s' r W E) as (runs & adds & T & G & _).
  destruct (taught_fixed _ _ _ _ _ _ _ _ _ _ Hl T) as [-> ->]. split; [reflexivity|exact G].
Qed.
Print Assumptions c53_given.

(** Over any history the learned model is one of the models of C24-C27: it holds what the outcomes of the additions say. *)
Theorem c53_model : forall FO pack erf w m adds os, grown pack erf (bm_init FO [] w) adds m -> Forall2 outcome adds os ->
  exists os', reachable FO pack erf w os' m /\ recorded os' = recorded os /\ accepted os' = accepted os.
Proof. exact grown_reachable. Qed.
Print Assumptions c53_model.

(** Without rounds there is no answer. *)
Theorem c53_no_rounds : forall FO pack erf kl text info c X (ldpc : list (F FO) -> res (list Z * list (F FO) * bool * Z * X)) s llr errs, md_rounds c = 0 ->
  md_decode FO pack erf kl (decode text) info c ldpc s llr errs = (s, Err UnboundLocal).
Proof. intros. unfold md_decode. rewrite H. reflexivity. Qed.
Print Assumptions c53_no_rounds.

(** Examples over the rationals.  The LDPC decoder answers with the received bits; [good] says whether it succeeds. *)
Definition echo (good : list Q -> bool) (llr : list Q) : res (list Z * list Q * bool * Z * unit) := Ok (hard Qops llr, llr, good llr, 5%Z, tt).
Definition no_kl (p q : list Q) : Q := 0%Q.
Definition new2 (cluster : bool) (k rounds : nat) (debug : bool) : md_conf Qops * md_state Qops :=
  md_new Qops (repeat true 144) 144 144 (1 # 10)%Q (1 # 100)%Q k (5 # 4)%Q (1 # 2)%Q 3 cluster None None (40 # 1)%Q (3 # 10)%Q debug rounds.
(** The structures, the number of buffers and the labels after calls. *)
Definition after_calls (cs : md_conf Qops * md_state Qops) (good : list Q -> bool) (l : list (list Q)) : list (option structure) * Z * list (res (bool * Z * Z * Z)) :=
  let '(s, out) := fold_left (fun so llr => let '(s, r) := md_decode Qops no_pack (fun x => x) no_kl (decode (fun b => b)) word_info (fst cs) (echo good) (fst so) llr [] in
    (s, snd so ++ [match r with Ok (a, label, seg, _, _, _, _) => Ok (an_ok a, an_iterations a, label, Z.of_nat (length (filter (fun x => x) seg))) | Err e => Err e end])) l (snd cs, []) in
  (md_structs s, bm_size Qops (md_model s), out).
Definition hb_word : list Q := llr_word 4 (hb ++ [0%N]).
Definition zero_word : list Q := llr_word 4 (repeat 0%N 18).

(** One cluster: the first success gives the structure, later words add one buffer each (the last one succeeds
    because its header is replaced by that of the model). *)
Example c53_ex : after_calls (new2 false 1 1 false) (fun l => Qle_bool (nth 6 l 0%Q) 0%Q) [zero_word; hb_word; hb_word; zero_word] =
  ([Some [(0, 0%N)]], 3%Z, [Ok (false, 5, 0, 0)%Z; Ok (true, 5, 0, 0)%Z; Ok (true, 5, 0, 136)%Z; Ok (true, 5, 0, 0)%Z]).
Proof. vm_compute. reflexivity. Qed.

(** While the classifier is trained the label is -1, and what is decoded is learned as the structure of the last cluster. *)
Theorem c53_training_refuted : exists word, after_calls (new2 true 2 1 false) (fun _ => true) [word] = ([None; Some [(0, 0%N)]], 1%Z, [Ok (true, 5, -1, 0)%Z]).
Proof. exists hb_word. vm_compute. reflexivity. Qed.
Print Assumptions c53_training_refuted.

(** A success without messages gives the empty structure, which is never replaced; no later word teaches the model anything. *)
Theorem c53_empty_refuted : exists word, after_calls (new2 false 1 1 false) (fun _ => true) [word; hb_word; hb_word] =
  ([Some []], 3%Z, [Ok (true, 5, 0, 0)%Z; Ok (true, 5, 0, 136)%Z; Ok (true, 5, 0, 136)%Z]).
Proof. exists zero_word. vm_compute. reflexivity. Qed.
Print Assumptions c53_empty_refuted.

(** Without classifier the labels are counted by runs, not by words: a word that needs two runs is decoded once for each of two labels. *)
Theorem c53_count_refuted : exists word, after_calls (new2 false 2 2 false) (fun _ => false) [word; word] =
  ([None; None], 0%Z, [Ok (false, 10, 1, 0)%Z; Ok (false, 10, 1, 0)%Z]).
Proof. exists hb_word. vm_compute. reflexivity. Qed.
Print Assumptions c53_count_refuted.

(** C67.  With debugging a call returns the same answer with two analyses, if these do not raise. *)
Theorem c67_answer : forall FO pack erf kl text info c X (ldpc : list (F FO) -> res (list Z * list (F FO) * bool * Z * X)) s llr errs s' a label seg good bad ca fa,
  readable info -> well FO c s -> md_debug c = true ->
  (md_decode FO pack erf kl (decode text) info c ldpc s llr errs = (s', Ok (a, label, seg, good, bad, ca, fa)) <->
   (ca = None /\ fa = None /\ exists n st st' adds, md_rounds c = S n /\ label = (-1)%Z /\ seg = [] /\ good = [] /\ bad = [] /\ labels FO c kl (hard FO llr) (md_running s) (md_classifier s) [-1]%Z (md_running s') (md_classifier s') /\
     ldpc llr = Ok a /\ nth_error (md_structs s) (md_clusters c - 1) = Some st /\ learned FO text info c st a (hard FO llr) st' adds /\ takes (md_model s) adds /\
     md_structs s' = set_nth (md_structs s) (md_clusters c - 1) st' /\ md_model s' = bm_run FO pack erf (md_model s) adds) \/
    (exists runs r p st v, works FO pack erf text info c ldpc (hard FO llr) (md_rounds c) (md_structs s) (md_model s) llr runs p (md_structs s') (md_model s') /\
      labels FO c kl (hard FO llr) (md_running s) (md_classifier s) (map r_label runs) (md_running s') (md_classifier s') /\ Forall (fun r => (0 <= r_label r)%Z) runs /\
      List.last (map Some runs) None = Some r /\ label = r_label r /\ a = final runs r /\ seg = pr_segmented p /\ good = pr_good_fields p /\ bad = pr_bad_fields p /\
      nth_error (md_structs s') (addressed (length (md_structs s')) label) = Some st /\ classifier_analysis st (pr_good_fields p) (pr_bad_fields p) errs (pr_fields p) (md_n c) = Ok ca /\
      forcing_analysis FO pack (md_model s') st (pr_forced p) errs (hard FO llr) = Ok v /\ fa = Some v)).
Proof. intros. apply decode_debug; assumption. Qed.
Print Assumptions c67_answer.

(** Debugging raises as long as no structure is known, also when the word was decoded: the first call returns only while the classifier is
    trained. *)
Theorem c67_unknown : forall FO pack erf kl text info c X (ldpc : list (F FO) -> res (list Z * list (F FO) * bool * Z * X)) s llr errs s' a label seg good bad ca fa,
  readable info -> well FO c s -> md_debug c = true -> Forall (fun st => st = None) (md_structs s) ->
  md_decode FO pack erf kl (decode text) info c ldpc s llr errs = (s', Ok (a, label, seg, good, bad, ca, fa)) -> label = (-1)%Z.
Proof. intros until 4. eapply decode_unknown; eassumption. Qed.
Print Assumptions c67_unknown.
Theorem c67_first_call_refuted : exists word, after_calls (new2 false 1 1 false) (fun _ => true) [word; word] = ([Some [(0, 0%N)]], 2%Z, [Ok (true, 5, 0, 0)%Z; Ok (true, 5, 0, 136)%Z]) /\
  after_calls (new2 false 1 1 true) (fun _ => true) [word; word] = ([Some [(0, 0%N)]], 2%Z, [Err IndexError; Ok (true, 5, 0, 136)%Z]).
Proof. exists hb_word. split; vm_compute; reflexivity. Qed.
Print Assumptions c67_first_call_refuted.

(** The analysis of the fields: the confusion of the bad fields with the damaged ones and of the good fields with the others.  The number of
    damaged fields is given where it is asked for, but the negatives are counted with one field for each damaged bit. *)
Theorem c67_fields : forall s good bad errs nf n l, find_damaged_fields errs s (Nat.div n 8) = Ok (Some l) -> l <> [] ->
  exists damaged whole gp bp, StronglySorted Z.lt damaged /\ (forall j, In j damaged <-> exists nm k, In (nm, k) l /\ j = Z.of_nat k) /\
    StronglySorted Z.lt whole /\ (forall j, In j whole <-> (0 <= j < Z.of_nat nf)%Z /\ ~ In j damaged) /\
    classifier_analysis (Some s) good bad errs nf n = Ok (Some (nf, length damaged, gp, bp)) /\
    counts (map Z.of_nat bad) damaged (Z.of_nat nf - Z.of_nat (length l)) bp /\ counts (map Z.of_nat good) whole (Z.of_nat (length l)) gp.
Proof. exact fields_spec. Qed.
Print Assumptions c67_fields.
Theorem c67_no_damage : forall st good bad errs nf n, st = None \/ (exists s r, st = Some s /\ find_damaged_fields errs s (Nat.div n 8) = Ok r /\ (r = None \/ r = Some [])) ->
  classifier_analysis st good bad errs nf n = Ok None.
Proof. exact fields_none. Qed.
Print Assumptions c67_no_damage.
(** Two wrong bits in one of twelve fields: ten negatives instead of eleven, and two whole fields counted as negatives of the good ones instead of one. *)
Theorem c67_negatives_refuted : exists errs, classifier_analysis (Some [(0, 0%N)]) [0; 1; 2; 3; 4; 5; 7; 8; 9; 10; 11] [6] errs 12 144 =
  Ok (Some (12, 1, [11; 0; 2; 0; 11; 2]%Z, [1; 0; 10; 0; 1; 10]%Z)).
Proof. exists [50; 51]%Z. vm_compute. reflexivity. Qed.
Print Assumptions c67_negatives_refuted.

(** The analysis of the forced bits: how many there are, how many of them were changed, how many of these were wrong and right before, and the
    fraction of them that differs from the sent word. *)
Theorem c67_forcing : forall FO pack m s f errs rx picture, value_of (bitwise_model_mean FO pack m (map Z.of_nat (seq 0 (8 * Nat.div (length rx) 8))) (Nat.div (length rx) 8) s) = Ok picture ->
  Forall is_bit rx -> Forall (fun p => p < 8 * Nat.div (length rx) 8) f -> Forall (fun e => (- Z.of_nat (length rx) <= e < Z.of_nat (length rx))%Z) errs ->
  exists bc tp fp rest, forcing_analysis FO pack m (Some s) (Some f) errs rx =
      Ok (bc, tp :: fp :: rest,
          [fz FO (Z.of_nat (length errs)); fz FO (Z.of_nat (length f)); fz FO (Z.of_nat (length (differing picture (got rx) f))); fz FO tp; fz FO fp;
           match f with [] => fz FO 0 | _ => fdiv FO (fz FO (Z.of_nat (length (differing picture (sent rx errs) f)))) (fz FO (Z.of_nat (length f))) end]) /\
    counts (map Z.of_nat f) errs (Z.of_nat (length rx) - Z.of_nat (length errs)) bc /\
    counts (map Z.of_nat (differing picture (got rx) f)) errs (Z.of_nat (length rx) - Z.of_nat (length errs)) (tp :: fp :: rest).
Proof. exact forcing_spec. Qed.
Print Assumptions c67_forcing.
Example c67_ex : forcing_analysis Qops no_pack one_heartbeat (Some [(0, 0%N)]) (Some (seq 48 32)) [50; 49; -1]%Z (map (fun b : bool => if b then 1 else 0)%Z (bytes_bits (set_nth hb 6 101%N ++ [1%N]))) =
  Ok ([2; 30; 111; 1; 3; 141]%Z, [2; 0; 141; 1; 3; 141]%Z, [3; 32; 2; 2; 0; 0]%Q).
Proof. vm_compute. reflexivity. Qed.
