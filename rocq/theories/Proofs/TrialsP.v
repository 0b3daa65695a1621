(** Lemmas on the clustering trials. *)
From Coq Require Import List Arith ZArith Bool Lia Permutation.
From Verif.Model Require Import Py Float InfoTheory Clustering Legacy Trials.
From Verif.Spec Require Import RealOps Info Cluster SimulationSpec TrialsSpec.
From Verif.Proofs Require Import Base InfoP SimulationP LegacyP.
From Verif.Props Require Import ClusterProps.
Import ListNotations.

Lemma in_turn_S first n nc c : in_turn first (S n) nc c = in_turn first n nc c ++ (if Nat.leb first n && Nat.eqb (n mod nc) c then [n] else []).
Proof. unfold in_turn. rewrite seq_S, filter_app. cbn [filter Nat.add]. reflexivity. Qed.

Lemma stride_nil {A} skip step (l : list A) : length l <= skip -> stride l skip step = [].
Proof. revert skip. induction l as [|x l IH]; intros [|k] H; cbn in *; try reflexivity; try lia. apply IH. lia. Qed.
Lemma stride_snoc {A} step : 0 < step -> forall (l : list A) skip x,
  stride (l ++ [x]) skip step = stride l skip step ++ (if Nat.leb skip (length l) && Nat.eqb ((length l - skip) mod step) 0 then [x] else []).
Proof.
  intros Hs. induction l as [|y l IH]; intros skip x.
  - cbn [app stride length]. destruct skip; cbn [Nat.leb andb]; [rewrite Nat.mod_0_l by lia|]; reflexivity.
  - cbn [app stride length]. destruct skip as [|k].
    + cbn [app]. f_equal. rewrite IH. f_equal. cbn [Nat.leb andb]. rewrite Nat.sub_0_r. destruct (Nat.leb_spec (step - 1) (length l)) as [H|H]; cbn [andb].
      * replace (S (length l)) with (length l - (step - 1) + 1 * step) by lia. rewrite Nat.mod_add by lia. reflexivity.
      * rewrite Nat.mod_small by lia. reflexivity.
    + rewrite IH. cbn [Nat.leb Nat.sub]. reflexivity.
Qed.
Lemma mod_shift a b n : 0 < n -> b <= a -> ((a - b) mod n =? 0) = (a mod n =? b mod n).
Proof.
  intros Hn H. destruct (Nat.eqb_spec ((a - b) mod n) 0) as [E|E]; symmetry.
  - apply Nat.eqb_eq. replace a with (b + (a - b)) by lia. rewrite Nat.add_mod, E by lia. rewrite Nat.add_0_r. apply Nat.mod_mod. lia.
  - apply Nat.eqb_neq. intros K. apply E. pose proof (Nat.div_mod a n). pose proof (Nat.div_mod b n).
    replace (a - b) with ((a / n - b / n) * n). { apply Nat.mod_mul. lia. } nia.
Qed.
Lemma stride_in_turn (l : list Z) first i nc : i < nc -> stride l (first + i) nc = map (fun j => nth j l 0%Z) (in_turn first (length l) nc ((first + i) mod nc)).
Proof.
  intros Hi. induction l as [|x l IH] using rev_ind; [reflexivity|]. rewrite stride_snoc, IH, app_length by lia. cbn [length]. rewrite Nat.add_1_r, in_turn_S, map_app. f_equal.
  - apply map_ext_in. intros j Hj. apply filter_In in Hj as [Hj _]. apply in_seq in Hj. rewrite app_nth1 by lia. reflexivity.
  - destruct (Nat.leb_spec (first + i) (length l)) as [H|H]; cbn [andb].
    + rewrite mod_shift by lia. destruct (Nat.leb_spec first (length l)); [|lia]. cbn [andb]. destruct (_ =? _); [|reflexivity]. cbn [map]. rewrite nth_middle. reflexivity.
    + destruct (Nat.leb_spec first (length l)) as [G|G]; [|reflexivity]. cbn [andb]. destruct (Nat.eqb_spec (length l mod nc) ((first + i) mod nc)) as [E|E]; [|reflexivity].
      exfalso. symmetry in E. apply Nat.eqb_eq in E. rewrite <- mod_shift in E by lia. apply Nat.eqb_eq in E. rewrite Nat.mod_small in E by lia. lia.
Qed.

Lemma unique_counts_in l v n : In (v, n) (unique_counts l) <-> n = occurrences l v /\ 0 < n.
Proof.
  unfold unique_counts. rewrite in_map_iff. split.
  - intros (u & E & Hu). assert (u = v) by congruence. assert (n = count_of l u) by congruence. subst u n. rewrite count_of_occ. split; [reflexivity|]. destruct (unique_alphabet l) as [_ M]. apply M in Hu. unfold occurrences. apply count_occ_In. exact Hu.
  - intros [-> H]. exists v. rewrite count_of_occ. split; [reflexivity|]. destruct (unique_alphabet l) as [_ M]. apply M. unfold occurrences in H. apply count_occ_In in H. exact H.
Qed.
Lemma unique_counts_sum l : list_sum (map snd (unique_counts l)) = length l.
Proof.
  unfold unique_counts. rewrite map_map. cbn [snd]. rewrite (map_ext _ (occurrences l)) by (intros; apply count_of_occ). apply occ_sum; [apply unique_nodup|]. intros x Hx. destruct (unique_alphabet l) as [_ M]. apply M. exact Hx.
Qed.
Lemma occurrences_tally l ps v : occurrences (map (fun j => nth j l 0%Z) ps) v = tally l ps v.
Proof.
  unfold occurrences, tally. induction ps as [|p ps IH]; [reflexivity|]. cbn [map count_occ filter]. destruct (Z.eq_dec (nth p l 0%Z) v) as [E|E].
  - rewrite (proj2 (Z.eqb_eq _ _) E). cbn [length]. f_equal. exact IH.
  - rewrite (proj2 (Z.eqb_neq _ _) E). exact IH.
Qed.

Lemma tot_in_turn first n nc : 0 < nc -> list_sum (map (fun i => length (in_turn first n nc ((first + i) mod nc))) (seq 0 nc)) = n - first.
Proof.
  intros Hn. induction n as [|n IH].
  - cbn. clear. induction (seq 0 nc) as [|x l IH]; [reflexivity|exact IH].
  - assert (Q : forall l, NoDup l -> Forall (fun i => i < nc) l -> list_sum (map (fun i => length (in_turn first (S n) nc ((first + i) mod nc))) l) = list_sum (map (fun i => length (in_turn first n nc ((first + i) mod nc))) l) + (if Nat.leb first n && existsb (fun i => n mod nc =? (first + i) mod nc) l then 1 else 0)).
    { induction l as [|i l IHl]; intros Nd Hl; [cbn; destruct (first <=? n); reflexivity|]. inversion Nd as [|? ? Ni Nd']. inversion Hl as [|? ? Hi Hl']. subst. specialize (IHl Nd' Hl'). cbn [map list_sum fold_right existsb] in *. unfold list_sum in *. rewrite IHl. rewrite in_turn_S, app_length. rewrite Forall_forall in Hl'.
      destruct (first <=? n) eqn:F; cbn [andb length]; [|lia]. destruct (Nat.eqb_spec (n mod nc) ((first + i) mod nc)) as [E|E]; cbn [orb length]; [|lia].
      replace (existsb (fun i0 => n mod nc =? (first + i0) mod nc) l) with false; [lia|]. symmetry. apply not_true_is_false. intros X. apply existsb_exists in X as (j & Hj & Ej). apply Nat.eqb_eq in Ej.
      assert (i = j); [|congruence]. specialize (Hl' j Hj). rewrite E in Ej. destruct (le_lt_dec i j) as [G|G].
      - symmetry in Ej. apply Nat.eqb_eq in Ej. rewrite <- mod_shift in Ej by lia. apply Nat.eqb_eq in Ej. rewrite Nat.mod_small in Ej by lia. lia.
      - apply Nat.eqb_eq in Ej. rewrite <- mod_shift in Ej by lia. apply Nat.eqb_eq in Ej. rewrite Nat.mod_small in Ej by lia. lia. }
    rewrite Q; [|apply seq_NoDup|apply Forall_forall; intros x Hx; apply in_seq in Hx; lia]. rewrite IH. destruct (Nat.leb_spec first n) as [H|H]; cbn [andb]; [|lia].
    replace (existsb (fun i => n mod nc =? (first + i) mod nc) (seq 0 nc)) with true; [lia|]. symmetry. apply existsb_exists. exists ((n - first) mod nc). pose proof (Nat.mod_upper_bound (n - first) nc). split; [apply in_seq; lia|].
    apply Nat.eqb_eq. rewrite Nat.add_mod_idemp_r by lia. f_equal. lia.
Qed.

Lemma fold_set_ok : forall idx (w : list Z), (Forall (fun i => i < length w) idx -> exists r, toggle w idx = Ok r) /\ (~ Forall (fun i => i < length w) idx -> toggle w idx = Err IndexError).
Proof.
  induction idx as [|i idx IH]; intros w.
  - split; [intros _; exists w; reflexivity|]. intros H. exfalso. apply H. constructor.
  - unfold toggle. cbn [fold_res]. unfold index at 1 3. destruct (nth_error w i) as [b|] eqn:E; cbn [bind].
    + assert (Hi : i < length w) by (apply nth_error_Some; congruence). destruct (IH (set_nth w i (if (b =? 0)%Z then 1%Z else 0%Z))) as [A B]. rewrite set_nth_length in A, B. split.
      * intros H. inversion H; subst. apply A. assumption.
      * intros H. apply B. intros K. apply H. constructor; assumption.
    + apply nth_error_None in E. split; [intros H; inversion H; subst; lia|reflexivity].
Qed.

Lemma map_res_ok_or {A B} (f : A -> res B) e l : (forall x, In x l -> (exists y, f x = Ok y) \/ f x = Err e) -> (exists r, map_res f l = Ok r) \/ map_res f l = Err e.
Proof.
  induction l as [|x l IH]; intros H; [left; exists []; reflexivity|]. cbn [map_res]. destruct (H x (or_introl eq_refl)) as [(y & ->)| ->]; cbn [bind]; [|right; reflexivity].
  destruct IH as [(r & ->)| ->]; [intros z Hz; apply H; right; exact Hz| |]; cbn [bind]; [left; eexists; reflexivity|right; reflexivity].
Qed.
Lemma map_res_all_ok {A B} (f : A -> res B) l : (forall x, In x l -> exists y, f x = Ok y) <-> exists r, map_res f l = Ok r.
Proof.
  split.
  - induction l as [|x l IH]; intros H; [exists []; reflexivity|]. cbn [map_res]. destruct (H x (or_introl eq_refl)) as (y & ->). cbn [bind]. destruct IH as (r & ->); [intros z Hz; apply H; right; exact Hz|]. cbn [bind]. eauto.
  - induction l as [|x l IH]; intros (r & E) z Hz; [destruct Hz|]. cbn [map_res] in E. destruct (f x) as [y|e] eqn:F; cbn [bind] in E; [|discriminate]. destruct (map_res f l) as [ys|e] eqn:G; cbn [bind] in E; [|discriminate]. destruct Hz as [<- |Hz]; [eauto|]. apply IH; [eauto|exact Hz].
Qed.
Lemma combine_seq_in {A} (l : list A) : forall b i x, In (i, x) (combine (seq b (length l)) l) <-> exists j, i = b + j /\ nth_error l j = Some x.
Proof.
  induction l as [|y l IH]; intros b i x; cbn [length seq combine In].
  - split; [tauto|]. intros (j & _ & E). destruct j; discriminate.
  - rewrite IH. split.
    + intros [E|(j & -> & E)]; [exists 0; injection E as <- <-; split; [lia|reflexivity]|]. exists (S j). split; [lia|exact E].
    + intros ([|j] & -> & E); [left; cbn in E; injection E as ->; f_equal; lia|]. right. exists j. split; [lia|exact E].
Qed.
Lemma combine_seq_nth {A} (l : list A) d t : t < length l -> nth t (combine (seq 0 (length l)) l) (0, d) = (t, nth t l d).
Proof. intros H. rewrite combine_nth by apply seq_length. rewrite seq_nth by exact H. reflexivity. Qed.
Lemma concat_nth {A} n (l : list (list A)) t c : Forall (fun x => length x = n) l -> t < length l -> c < n -> nth_error (concat l) (t * n + c) = nth_error (nth t l []) c.
Proof.
  intros F. revert t. induction l as [|x l IH]; intros t Ht Hc; [cbn in Ht; lia|]. inversion F; subst. cbn [concat]. destruct t as [|t].
  - cbn [Nat.mul Nat.add nth]. apply nth_error_app1. exact Hc.
  - rewrite nth_error_app2 by nia. cbn [nth]. replace (S t * length x + c - length x) with (t * length x + c) by nia. apply IH; cbn in *; auto; lia.
Qed.
Lemma concat_len {A} n (l : list (list A)) : Forall (fun x => length x = n) l -> length (concat l) = length l * n.
Proof. induction 1 as [|x l H F IH]; [reflexivity|]. cbn [concat length]. rewrite app_length, IH. lia. Qed.

Section Words.
Variable pad : nat -> nat -> nat -> list Z.
Variable errors : nat -> nat -> list nat.
(** The words in order. *)
Lemma words_ok parts rows words : trial_words pad errors parts rows = Ok words -> length words = length rows * length parts /\
  forall t c row p, nth_error rows t = Some row -> nth_error parts c = Some p -> exists w, nth_error words (t * length parts + c) = Some (w, c) /\ trial_word pad errors t c row p = Ok w.
Proof.
  unfold trial_words. intros E. apply bind_ok in E as (l & E & X). injection X as <-. pose proof (Base.map_res_length _ _ E) as L. rewrite combine_length, seq_length, Nat.min_id in L.
  assert (R : forall t row, nth_error rows t = Some row -> map_res (fun cp => do! w <- trial_word pad errors t (fst cp) row (snd cp) in Ok (w, fst cp)) (combine (seq 0 (length parts)) parts) = Ok (nth t l [])).
  { intros t row Hr. assert (Ht : t < length rows) by (apply nth_error_Some; congruence).
    pose proof (Base.map_res_nth _ _ (i := t) (0, []) [] E ltac:(rewrite combine_length, seq_length; lia)) as H. rewrite combine_seq_nth in H by exact Ht. cbn [fst snd] in H. apply nth_error_nth with (d := []) in Hr. rewrite Hr in H. exact H. }
  assert (F : Forall (fun x => length x = length parts) l).
  { apply Forall_forall. intros x Hx. apply (In_nth _ _ []) in Hx as (t & Ht & <-). destruct (nth_error rows t) as [row|] eqn:G; [|apply nth_error_None in G; lia]. apply R in G. apply Base.map_res_length in G. rewrite combine_length, seq_length in G. lia. }
  split; [rewrite (concat_len _ _ F), L; reflexivity|]. intros t c row p Hr Hp. assert (Ht : t < length rows) by (apply nth_error_Some; congruence). assert (Hc : c < length parts) by (apply nth_error_Some; congruence).
  specialize (R t row Hr). pose proof (Base.map_res_length _ _ R) as Lr. rewrite combine_length, seq_length, Nat.min_id in Lr. pose proof (Base.map_res_nth _ _ (i := c) (0, p) ([], 0) R ltac:(rewrite combine_length, seq_length; lia)) as H. rewrite combine_seq_nth in H by exact Hc. cbn [fst snd] in H.
  apply nth_error_nth with (d := p) in Hp. rewrite Hp in H. destruct (trial_word pad errors t c row p) as [w|] eqn:W; cbn [bind] in H; [|discriminate]. exists w. split; [|reflexivity].
  rewrite (concat_nth (length parts)); [|exact F|lia|exact Hc]. rewrite (nth_error_nth' _ ([], 0)) by lia. f_equal. assert (Q : @eq (res (list Z * nat)) (Ok (w, c)) (Ok (nth c (nth t l []) ([], 0)))) by exact H. congruence.
Qed.
(** When there are words at all. *)
Lemma words_when parts rows : let fits := forall t c row p, nth_error rows t = Some row -> nth_error parts c = Some p ->
    Forall (fun i => i < length (slice row (pt_from p) (match pt_to p with Some j => j | None => length row end) ++ pad t c (pt_pad p))) (errors t c) in
  (fits <-> exists words, trial_words pad errors parts rows = Ok words) /\ ((exists words, trial_words pad errors parts rows = Ok words) \/ trial_words pad errors parts rows = Err IndexError).
Proof.
  cbv zeta. unfold trial_words.
  set (inner := fun tr : nat * list Z => map_res (fun cp => do! w <- trial_word pad errors (fst tr) (fst cp) (snd tr) (snd cp) in Ok (w, fst cp)) (combine (seq 0 (length parts)) parts)).
  assert (One : forall t c row p, (Forall (fun i => i < length (slice row (pt_from p) (match pt_to p with Some j => j | None => length row end) ++ pad t c (pt_pad p))) (errors t c) <-> exists w, trial_word pad errors t c row p = Ok w) /\ ((exists w, trial_word pad errors t c row p = Ok w) \/ trial_word pad errors t c row p = Err IndexError)).
  { intros t c row p. unfold trial_word. destruct (fold_set_ok (errors t c) (slice row (pt_from p) (match pt_to p with Some j => j | None => length row end) ++ pad t c (pt_pad p))) as [A B].
    destruct (Forall_dec (fun i => i < length (slice row (pt_from p) (match pt_to p with Some j => j | None => length row end) ++ pad t c (pt_pad p))) (fun i => lt_dec i _) (errors t c)) as [Y|N].
    - specialize (A Y). split; [tauto|]. left. exact A.
    - specialize (B N). split; [|right; exact B]. split; [tauto|]. intros (w & W). congruence. }
  split.
  - transitivity (exists l, map_res inner (combine (seq 0 (length rows)) rows) = Ok l).
    + rewrite <- map_res_all_ok. split.
      * intros H [t row] Hin. apply combine_seq_in in Hin as (j & -> & Hr). apply map_res_all_ok. intros [c p] Hc. apply combine_seq_in in Hc as (i & -> & Hp). cbn [fst snd Nat.add]. specialize (H j i row p Hr Hp). apply One in H as (w & ->). cbn [bind]. eauto.
      * intros H t c row p Hr Hp. destruct (H (t, row)) as (l & El); [apply combine_seq_in; exists t; split; [reflexivity|exact Hr]|]. unfold inner in El. cbn [fst snd] in El. assert (Q : exists r, map_res (fun cp => do! w <- trial_word pad errors t (fst cp) row (snd cp) in Ok (w, fst cp)) (combine (seq 0 (length parts)) parts) = Ok r) by eauto.
        rewrite <- map_res_all_ok in Q. destruct (Q (c, p)) as (y & Ey); [apply combine_seq_in; exists c; split; [reflexivity|exact Hp]|]. cbn [fst snd] in Ey. apply One. destruct (trial_word pad errors t c row p) as [w|]; [eauto|discriminate].
    + split; intros (l & E).
      * rewrite E. cbn [bind]. eauto.
      * destruct (map_res inner _) as [l'|]; [eauto|discriminate].
  - destruct (map_res_ok_or inner IndexError (combine (seq 0 (length rows)) rows)) as [(l & ->)| ->]; [|left; cbn [bind]; eauto|right; reflexivity].
    intros [t row] _. apply map_res_ok_or. intros [c p] _. cbn [fst snd]. destruct (One t c row p) as [_ [(w & ->)| ->]]; cbn [bind]; [left; eauto|right; reflexivity].
Qed.
End Words.
