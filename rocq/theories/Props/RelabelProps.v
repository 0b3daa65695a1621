(** C56: relabelling clusters.  C57: cutting buffers into code words. *)
From Coq Require Import List ZArith Arith Bool Lia.
From Verif.Model Require Import Py InfoTheory Perf Clustering Relabel.
From Verif.Spec Require Import RelabelSpec.
From Verif.Proofs Require Import Base PerfP RelabelP.
Import ListNotations.

(** relabel succeeds exactly when there is a class and the labels can be arranged by class: as many real labels as predicted ones, or,
    without real labels, a multiple of the number of classes (or fewer labels than classes). *)
Theorem c56_succeeds predicted n real : (exists r, relabel predicted n real = Ok r) <->
  0 < n /\ match real with
           | None => length predicted mod n = 0 \/ length predicted < n
           | Some real => length real = length predicted
           end.
Proof.
  split.
  - intros [r E]. destruct n as [|n'].
    + exfalso. unfold relabel in E. destruct real as [real|]; cbn in E; discriminate.
    + split; [lia|]. unfold relabel in E. apply bind_ok in E. destruct E as (rows & E & _). destruct real as [real|].
      * cbn [prediction_rows] in E. rewrite <- cons_seq in E. cbn [map_res] in E. apply bind_ok in E. destruct E as (x & E & _). apply bind_ok in E. destruct E as (y & E & _). unfold where_real in E.
        destruct (Nat.eqb_spec (length predicted) (length real)); [auto|discriminate].
      * destruct (Nat.eq_dec (length predicted mod S n') 0); [left; assumption|]. destruct (Nat.lt_ge_cases (length predicted) (S n')); [right; assumption|]. rewrite rows_ragged in E by lia. discriminate.
  - intros [Hn H]. destruct real as [real|].
    + destruct (rows_given predicted n real (eq_sym H)) as (rows & E & C). destruct (relabel_spec predicted n (Some real) rows _ Hn E C) as (out & m & R & _). eauto.
    + destruct H as [H|H].
      * destruct (rows_ordered predicted n Hn H) as (rows & E & C). destruct (relabel_spec predicted n None rows _ Hn E C) as (out & m & R & _). eauto.
      * destruct (rows_few predicted n H) as (rows & E & C). destruct (relabel_spec predicted n None rows (fun _ _ => 0) Hn E C) as (out & m & R & _). eauto.
Qed.
Print Assumptions c56_succeeds.

(** Otherwise the error tells why. *)
Theorem c56_fails predicted n real : (forall r, relabel predicted n real <> Ok r) ->
  relabel predicted n real = Err (match real with
    | None => if Nat.eqb n 0 then ZeroDivision else ValueError
    | Some _ => if Nat.eqb n 0 then ValueError else IndexError
    end).
Proof.
  intros H. assert (N : ~ (0 < n /\ match real with None => length predicted mod n = 0 \/ length predicted < n | Some real => length real = length predicted end)).
  { intros K. apply c56_succeeds in K as [r K]. exact (H r K). }
  destruct n as [|n']; [destruct real; reflexivity|]. cbn [Nat.eqb]. unfold relabel. destruct real as [real|].
  - cbn [prediction_rows]. rewrite <- cons_seq. cbn [map_res]. unfold where_real at 1.
    destruct (Nat.eqb_spec (length predicted) (length real)) as [E|E]; [|reflexivity]. exfalso. apply N. split; [lia|auto].
  - rewrite rows_ragged; [reflexivity|lia| |]; [intros E; apply N; split; [lia|left; exact E]|].
    destruct (Nat.le_gt_cases (S n') (length predicted)); [assumption|]. exfalso. apply N. split; [lia|right; lia].
Qed.
Print Assumptions c56_fails.

(** The returned table pairs every predicted label with one real label, greedily by the number of common samples; the new labels are
    looked up in it, 255 standing for predicted labels that are not classes.  (When fewer labels than classes are given without real
    labels all samples are ignored in the counts.) *)
Theorem c56_table predicted n real out m : relabel predicted n real = Ok (out, m) ->
  greedy_table (if (match real with None => Nat.ltb (length predicted) n | Some _ => false end) then fun _ _ => 0 else together predicted n real) n m /\
  length out = length predicted /\
  forall i, i < length predicted ->
    (forall p t, In (p, t) m -> nth i predicted 0%Z = Z.of_nat p -> nth i out 0%Z = Z.of_nat t) /\
    (~ (0 <= nth i predicted 0 < Z.of_nat n)%Z -> nth i out 0%Z = 255%Z).
Proof.
  intro E. destruct (proj1 (c56_succeeds predicted n real)) as [Hn H]; [eauto|]. destruct real as [real|].
  - destruct (rows_given predicted n real (eq_sym H)) as (rows & E1 & C). destruct (relabel_spec predicted n (Some real) rows _ Hn E1 C) as (out' & m' & Q & G). rewrite E in Q. inversion Q; subst. exact G.
  - destruct (Nat.ltb_spec (length predicted) n) as [Hl|Hl].
    + destruct (rows_few predicted n Hl) as (rows & E1 & C). destruct (relabel_spec predicted n None rows (fun _ _ => 0) Hn E1 C) as (out' & m' & Q & G). rewrite E in Q. inversion Q; subst. exact G.
    + destruct (rows_ordered predicted n Hn) as (rows & E1 & C); [destruct H; [assumption|lia]|]. destruct (relabel_spec predicted n None rows _ Hn E1 C) as (out' & m' & Q & G). rewrite E in Q. inversion Q; subst. exact G.
Qed.
Print Assumptions c56_table.

(** Every predicted label is a key exactly once, and every value is a class. *)
Theorem c56_keys predicted n real out m : relabel predicted n real = Ok (out, m) ->
  NoDup (map fst m) /\ (forall p, In p (map fst m) <-> p < n) /\ Forall (fun pt => snd pt < n) m.
Proof.
  intro E. destruct (c56_table _ _ _ _ _ E) as [(L & ND & G & B1 & B2 & _) _]. split; [exact ND|].
  assert (Rg : forall j, j < n -> fst (nth j m (0, 0)) < n /\ snd (nth j m (0, 0)) < n).
  { intros j Hj. destruct (Nat.eq_dec j (n - 1)) as [->|]; [split; assumption|]. destruct (G j ltac:(lia)) as (Q1 & Q2 & _). split; assumption. }
  assert (I : incl (map fst m) (seq 0 n)).
  { intros x Hx. apply in_map_iff in Hx. destruct Hx as ([p t] & <- & Hx). apply (In_nth _ _ (0, 0)) in Hx. destruct Hx as (j & Hj & Q). apply in_seq. destruct (Rg j ltac:(lia)) as [Q1 _]. rewrite Q in Q1. cbn [fst] in *. lia. }
  split.
  - intro p. split; [intro Hp; apply I, in_seq in Hp; lia|]. intro Hp. apply (NoDup_length_incl ND) in I; [|rewrite seq_length, map_length; lia]. apply I, in_seq. lia.
  - apply Forall_forall. intros x Hx. apply (In_nth _ _ (0, 0)) in Hx. destruct Hx as (j & Hj & Q). rewrite <- Q. apply Rg. lia.
Qed.
Print Assumptions c56_keys.

(** A clustering that is right up to the names of the clusters is relabelled to the real labels. *)
Theorem c56_perfect predicted n real (name : nat -> nat) :
  (match real with None => length predicted mod n = 0 | Some r => length r = length predicted end) -> 0 < n ->
  (forall t u, t < n -> u < n -> name t = name u -> t = u) -> (forall t, t < n -> name t < n) ->
  (forall i, i < length predicted -> exists t, t < n /\ real_label n real i = Z.of_nat t /\ nth i predicted (-1)%Z = Z.of_nat (name t)) ->
  exists m, relabel predicted n real = Ok (map (real_label n real) (seq 0 (length predicted)), m).
Proof.
  intros H Hn Inj Rg Pf. destruct (proj2 (c56_succeeds predicted n real)) as [[out m] E]; [split; [exact Hn|]; destruct real; auto|]. exists m. rewrite E. f_equal. f_equal.
  destruct (c56_table _ _ _ _ _ E) as (G & L & O). apply nth_ext_eq with (d := 0%Z); [rewrite L, map_length, seq_length; reflexivity|]. intros i Hi. rewrite L in Hi. rewrite nth_map_seq by exact Hi. cbn [Nat.add].
  destruct (Pf i Hi) as (t & Ht & R1 & R2). rewrite R1. destruct (O i Hi) as [O1 _].
  assert (G' : greedy_table (together predicted n real) n m).
  { destruct real as [real|]; [exact G|]. destruct (Nat.ltb_spec (length predicted) n); [|exact G]. rewrite Nat.mod_small in H by assumption. lia. }
  apply (O1 (name t) t); [eapply perfect; eauto|]. rewrite (nth_indep _ 0%Z (-1)%Z) by exact Hi. exact R2.
Qed.
Print Assumptions c56_perfect.

(** Clusters 2, 0, 1 stand for the classes 0, 1, 2. *)
Example c56_ex : relabel [2; 0; 1; 2; 0; 1]%Z 3 None = Ok ([0; 1; 2; 0; 1; 2]%Z, [(2, 0); (0, 1); (1, 2)]).
Proof. reflexivity. Qed.
Example c56_ex_perfect : exists m, relabel [2; 0; 1; 2; 0; 1]%Z 3 None = Ok ([0; 1; 2; 0; 1; 2]%Z, m).
Proof.
  apply (c56_perfect [2; 0; 1; 2; 0; 1]%Z 3 None (fun t => match t with 0 => 2 | 1 => 0 | _ => 1 end)); [reflexivity|lia| | |].
  - intros t u. do 3 (destruct t as [|t]; [do 3 (destruct u as [|u]; [cbn; lia|]); lia|]). lia.
  - intros t. do 3 (destruct t as [|t]; [lia|]). lia.
  - intros i Hi. cbn [length] in Hi. do 6 (destruct i as [|i]; [cbn; first [exists 0; split; [lia|split; reflexivity] | exists 1; split; [lia|split; reflexivity] | exists 2; split; [lia|split; reflexivity]]|]). lia.
Qed.

(** Defect: the clusters are not paired one to one with the classes.  Clusters 0 and 1 are both called class 0, so no sample is called
    class 2 although cluster 2 holds samples of the classes 1 and 2 only. *)
Theorem c56_bijection_refuted : exists predicted real out m,
  relabel predicted 3 (Some real) = Ok (out, m) /\ ~ NoDup (map snd m) /\ In 2%Z real /\ ~ In 2%Z out.
Proof.
  exists [0; 0; 1; 1; 2; 2]%Z, [0; 0; 0; 0; 1; 2]%Z, [0; 0; 0; 0; 1; 1]%Z, [(0, 0); (1, 0); (2, 1)]. split; [reflexivity|]. split; [intro N; inversion N as [|? ? N1 _]; apply N1; left; reflexivity|]. split; [cbn; tauto|]. cbn. intuition discriminate.
Qed.
Print Assumptions c56_bijection_refuted.

(** Every buffer is cut into words that carry it, and the words are encoded in order. *)
Theorem c57_words {W} (encode : list bool -> res W) random k buffers out : (forall c l, length (random c l) = l) ->
  encode_data encode random k buffers = Ok out ->
  exists groups, Forall2 (carries k) buffers groups /\ map_res encode (concat groups) = Ok out.
Proof.
  intros Rnd E. unfold encode_data in E. apply bind_ok in E. destruct E as ([o c] & E & Q). inversion Q; subst o. destruct (encode_fold encode random Rnd k _ _ _ _ E) as (groups & ws & F & M & O & _). cbn [fst app] in O. subst ws. eauto.
Qed.
Print Assumptions c57_words.

(** With an encoder that accepts every k-bit word, encoding succeeds exactly when no buffer has k bits (and k is not 0, unless there is no
    buffer).  Defect: a buffer that fits one word exactly raises, because a random padding of 0 bits is asked for. *)
Theorem c57_succeeds {W} (encode : list bool -> res W) random k buffers : (forall c l, length (random c l) = l) ->
  (forall w, length w = k -> exists x, encode w = Ok x) ->
  ((exists out, encode_data encode random k buffers = Ok out) <-> Forall (fun b => 0 < k /\ length b <> k) buffers).
Proof.
  intros Rnd T. split.
  - intros [out E]. unfold encode_data in E. apply bind_ok in E. destruct E as ([o c] & E & _). destruct (encode_fold encode random Rnd k _ _ _ _ E) as (groups & ws & _ & _ & _ & U). exact U.
  - intro U. destruct (encode_fold_ok encode random Rnd k buffers T U ([], 0)) as [[o c] E]. exists o. unfold encode_data. rewrite E. reflexivity.
Qed.
Print Assumptions c57_succeeds.

Theorem c57_exact_fit_refuted {W} (encode : list bool -> res W) random data rest :
  encode_data encode random (length data) (data :: rest) = Err CreationError.
Proof. unfold encode_data. cbn [fold_res snd]. unfold cut_words. rewrite Nat.leb_refl, Nat.sub_diag. reflexivity. Qed.
Print Assumptions c57_exact_fit_refuted.

(** With a systematic encoder (each code word starts with the k bits it encodes) the data can be read off the code words: cutting the
    sequence of code words into groups of the known sizes, each buffer is the start of the information bits of its group. *)
Theorem c57_recover (encode : list bool -> res (list bool)) random k buffers out : (forall c l, length (random c l) = l) ->
  (forall w x, length w = k -> encode w = Ok x -> firstn k x = w) -> encode_data encode random k buffers = Ok out ->
  exists groups, out = concat groups /\
  Forall2 (fun data ws => length ws = (match data with [] => 1 | _ => (length data + k - 1) / k end) /\
                          firstn (length data) (concat (map (firstn k) ws)) = data) buffers groups.
Proof.
  intros Rnd Sys E. destruct (c57_words encode random k buffers out Rnd E) as (groups & F & M). clear E. revert out M. induction F as [|data words buffers groups Cr F IH]; intros out M.
  - cbn in M. inversion M. exists []. split; [reflexivity|constructor].
  - cbn [concat] in M. rewrite map_res_app in M. apply bind_ok in M. destruct M as (a & Ma & M). apply bind_ok in M. destruct M as (b & Mb & M). inversion M; subst out. destruct (IH b Mb) as (gs & -> & F'). exists (a :: gs). split; [reflexivity|]. constructor; [|exact F'].
    destruct Cr as (Lw & Pre & Cnt). split; [rewrite (map_res_length _ _ Ma); exact Cnt|]. enough (Q : map (firstn k) a = words) by (rewrite Q; exact Pre).
    clear - Ma Lw Sys. revert a Ma. induction Lw as [|w l Hw Lw IH]; intros a Ma; [inversion Ma; reflexivity|]. cbn [map_res] in Ma. apply bind_ok in Ma. destruct Ma as (x & Mx & Ma). apply bind_ok in Ma. destruct Ma as (xs & Mxs & Ma). inversion Ma; subst a. cbn [map]. rewrite (Sys w x Hw Mx), (IH xs Mxs). reflexivity.
Qed.
Print Assumptions c57_recover.

(** Seven bits in three words of three bits, two bits in one word; the encoder repeats the word. *)
Example c57_ex : encode_data (fun w => Ok (w ++ w)) (fun _ l => repeat false l) 3 [[true; true; false; true; false; true; true]; [true; true]] =
  Ok [[true; true; false; true; true; false]; [true; false; true; true; false; true]; [true; false; false; true; false; false]; [true; true; false; true; true; false]].
Proof. reflexivity. Qed.
Example c56_ex_fails : relabel [0; 1]%Z 0 (Some [0; 1]%Z) = Err ValueError /\ relabel [0; 1]%Z 2 (Some [0]%Z) = Err IndexError /\ relabel [0; 1; 1]%Z 2 None = Err ValueError.
Proof. repeat split; vm_compute; reflexivity. Qed.
