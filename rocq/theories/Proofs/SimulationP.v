(** Measurements of simulations. *)
From Coq Require Import List Arith NArith ZArith Bool Lia ZifyBool ZifyNat.
From Verif.Model Require Import Py Float InfoTheory Clustering BitOps DecoderBase Simulation.
From Verif.Spec Require Import SimulationSpec.
From Verif.Proofs Require Import Base BitOpsP.
Import ListNotations.

Lemma truth_bit x : bit x -> negb (x =? 0)%Z = (x =? 1)%Z.
Proof. intros [-> | -> ]; reflexivity. Qed.

Lemma filter_map_length {A B} (f : A -> B) (p : B -> bool) l : length (filter p (map f l)) = length (filter (fun x => p (f x)) l).
Proof. induction l as [|x l IH]; [reflexivity|]. cbn [map filter]. destruct (p (f x)); cbn [length]; auto. Qed.

Lemma differences_cons x y a b : length (differences (x :: a) (y :: b)) = (if (x =? y)%Z then 0 else 1) + length (differences a b).
Proof.
  unfold differences. cbn [length]. rewrite <- cons_seq. rewrite <- seq_shift. cbn [filter]. change (nth 0 (x :: a) 0%Z) with x. change (nth 0 (y :: b) 0%Z) with y.
  assert (E : length (filter (fun p => negb (nth p (x :: a) 0 =? nth p (y :: b) 0)%Z) (map S (seq 0 (length a)))) =
              length (filter (fun p => negb (nth p a 0 =? nth p b 0)%Z) (seq 0 (length a)))) by (rewrite filter_map_length; reflexivity).
  destruct (x =? y)%Z; cbn [negb length]; rewrite E; reflexivity.
Qed.
Lemma xor_count_differences : forall n a b, word n a -> word n b ->
  xor_count (map (fun z => negb (z =? 0)%Z) a) (map (fun z => negb (z =? 0)%Z) b) = length (differences a b).
Proof.
  induction n as [|n IH]; intros a b [La Ba] [Lb Bb]; destruct a as [|x a], b as [|y b]; try discriminate; [reflexivity|].
  cbn in La, Lb. inversion Ba as [|? ? B1 B2]; subst. inversion Bb as [|? ? B3 B4]; subst. cbn [map xor_count]. rewrite differences_cons. f_equal.
  - destruct B1 as [-> | -> ], B3 as [-> | -> ]; reflexivity.
  - apply IH; split; auto.
Qed.
Lemma hamming_words n a b : word n a -> word n b -> hamming_distance (HArray a) (HArray b) 8 = Ok (length (differences a b)).
Proof.
  intros Ha Hb. unfold hamming_distance. cbn [conv_bytes conv_int bind conv_array]. rewrite !map_length. rewrite (proj1 Ha), (proj1 Hb), Nat.eqb_refl.
  rewrite (xor_count_differences n) by assumption. reflexivity.
Qed.

(** Inverting bits. *)
Lemma set_nth_length {A} : forall (l : list A) i v, length (set_nth l i v) = length l.
Proof. induction l as [|x l IH]; intros [|i] v; cbn; auto. Qed.
Lemma nth_set_nth {A} (d : A) : forall l i v p, i < length l -> nth p (set_nth l i v) d = if Nat.eqb p i then v else nth p l d.
Proof.
  induction l as [|x l IH]; intros i v p Hi; [cbn in Hi; lia|]. destruct i as [|i], p as [|p]; cbn; try reflexivity. apply IH. cbn in Hi. lia.
Qed.
Lemma put_nth {A} (d : A) : forall idx vs l p, length idx = length vs -> NoDup idx -> (forall i, In i idx -> i < length l) ->
  length (fold_left (fun l iv => set_nth l (fst iv) (snd iv)) (combine idx vs) l) = length l /\
  (~ In p idx -> nth p (fold_left (fun l iv => set_nth l (fst iv) (snd iv)) (combine idx vs) l) d = nth p l d) /\
  (forall k, k < length idx -> p = nth k idx 0 -> nth p (fold_left (fun l iv => set_nth l (fst iv) (snd iv)) (combine idx vs) l) d = nth k vs d).
Proof.
  induction idx as [|i idx IH]; intros vs l p L N B; destruct vs as [|v vs]; try discriminate.
  - cbn. split; [reflexivity|]. split; [reflexivity|lia].
  - cbn [combine fold_left fst snd]. inversion N as [|? ? Ni N']; subst. destruct (IH vs (set_nth l i v) p) as (H1 & H2 & H3); [cbn in L; lia|exact N'| |].
    { intros j Hj. rewrite set_nth_length. apply B. right. exact Hj. }
    rewrite set_nth_length in H1. split; [exact H1|]. split.
    + intros Hp. rewrite H2 by (intros Hq; apply Hp; right; exact Hq). rewrite nth_set_nth by (apply B; left; reflexivity).
      destruct (Nat.eqb_spec p i); [|reflexivity]. exfalso. apply Hp. left. auto.
    + intros [|k] Hk E; cbn [nth] in *.
      * subst p. rewrite H2 by exact Ni. rewrite nth_set_nth by (apply B; left; reflexivity). rewrite Nat.eqb_refl. reflexivity.
      * apply H3; [cbn in Hk; lia|exact E].
Qed.

Lemma take_nth {A} (d : A) l idx : (forall i, In i idx -> i < length l) -> take l idx = Ok (map (fun i => nth i l d) idx).
Proof.
  intros H. unfold take. induction idx as [|i idx IH]; [reflexivity|]. cbn [map_res map]. unfold index at 1.
  rewrite (nth_error_nth' l d) by (apply H; left; reflexivity). cbn [bind]. rewrite IH by (intros j Hj; apply H; right; exact Hj). reflexivity.
Qed.

Lemma flip_received n m w row : word n w -> draw n m row -> exists r, flip_at w row = Ok r /\ received w row r.
Proof.
  intros [Lw Bw] (Nd & Lr & B). unfold flip_at. rewrite (take_nth 0%Z) by (rewrite Lw; exact B). cbn [bind]. unfold put.
  assert (E : existsb (fun i => Nat.leb (length w) i) row = false).
  { apply not_true_iff_false. intros H. apply existsb_exists in H as (i & Hi & H). specialize (B i Hi). lia. }
  rewrite E, !map_length, Nat.eqb_refl. eexists. split; [reflexivity|].
  set (vs := map (fun x => (1 - x)%Z) (map (fun i => nth i w 0%Z) row)). assert (Lv : length row = length vs) by (unfold vs; rewrite !map_length; reflexivity).
  set (r := fold_left _ (combine row vs) w).
  assert (Bi : forall p, p < length w -> bit (nth p w 0%Z)) by (intros p Hp; rewrite Forall_forall in Bw; apply Bw; apply nth_In; exact Hp).
  assert (V : forall p, p < length w -> nth p r 0%Z = if in_dec Nat.eq_dec p row then (1 - nth p w 0)%Z else nth p w 0%Z).
  { intros p Hp. destruct (put_nth 0%Z row vs w p Lv Nd ltac:(rewrite Lw; exact B)) as (_ & P2 & P3). destruct (in_dec Nat.eq_dec p row) as [I|I]; [|apply P2; exact I].
    apply (In_nth _ _ 0) in I as (k & Hk & Ek). specialize (P3 k Hk (eq_sym Ek)). change (nth p r 0%Z = nth k vs 0%Z) in P3. rewrite P3. unfold vs. rewrite map_map.
    rewrite (nth_indep _ 0%Z ((fun i => (1 - nth i w 0)%Z) 0)) by (rewrite map_length; exact Hk). rewrite (map_nth (fun i => (1 - nth i w 0)%Z)). rewrite Ek. reflexivity. }
  assert (Lr' : length r = length w) by (apply (put_nth 0%Z row vs w 0 Lv Nd); rewrite Lw; exact B).
  split.
  - split; [exact Lr'|]. apply Forall_forall. intros x Hx. apply (In_nth _ _ 0%Z) in Hx as (p & Hp & <-). rewrite Lr' in Hp. rewrite V by exact Hp.
    specialize (Bi p Hp). destruct (in_dec Nat.eq_dec p row); [|exact Bi]. destruct Bi as [-> | -> ]; [right|left]; reflexivity.
  - intros p Hp. rewrite V by exact Hp. specialize (Bi p Hp). destruct (in_dec Nat.eq_dec p row) as [I|I].
    + split; [intros _; exact I|]. intros _. destruct Bi as [-> | -> ]; discriminate.
    + split; [contradiction|]. intros J. contradiction.
Qed.

Lemma received_differences w row r : received w row r -> forall p, In p (differences w r) <-> p < length w /\ In p row.
Proof.
  intros [_ R] p. unfold differences. rewrite filter_In, in_seq. split.
  - intros [H1 H2]. assert (Hp : p < length w) by lia. split; [exact Hp|]. apply R; [exact Hp|]. destruct (Z.eqb_spec (nth p w 0%Z) (nth p r 0%Z)); [discriminate|]. congruence.
  - intros [Hp I]. split; [lia|]. apply R in I; [|exact Hp]. destruct (Z.eqb_spec (nth p w 0%Z) (nth p r 0%Z)); [congruence|reflexivity].
Qed.

Lemma count_if_filter {A} (f : A -> bool) l : count_if f l = length (filter f l).
Proof. unfold count_if. induction l as [|x l IH]; [reflexivity|]. cbn [map sum_nat fold_right filter]. destruct (f x); cbn [length]; unfold sum_nat in IH; rewrite IH; reflexivity. Qed.

Lemma filter_both_length {A} (f g : A -> bool) l l' : NoDup l -> NoDup l' -> (forall x, In x l /\ f x = true <-> In x l' /\ g x = true) ->
  length (filter f l) = length (filter g l').
Proof.
  intros N N' H. apply Nat.le_antisymm; apply NoDup_incl_length; try (apply NoDup_filter; assumption); intros x Hx; apply filter_In in Hx; apply filter_In; apply H; exact Hx.
Qed.
Lemma row_counts n m w row r (q : nat -> bool) : word n w -> draw n m row -> received w row r -> count_if q row = length (filter q (differences w r)).
Proof.
  intros [Lw _] (Nd & _ & B) R. rewrite count_if_filter. apply filter_both_length; [exact Nd|unfold differences; apply NoDup_filter, seq_NoDup|].
  intros p. rewrite (received_differences w row r R). split; [intros [H1 H2]; split; [split; [rewrite Lw; apply B; exact H1|exact H1]|exact H2]|tauto].
Qed.

Lemma filter_split {A} (f : A -> bool) l : length (filter f l) + length (filter (fun x => negb (f x)) l) = length l.
Proof. induction l as [|x l IH]; [reflexivity|]. cbn [filter]. destruct (f x); cbn [negb length]; lia. Qed.

Section Sim.
Variable FO : fops.
Notation F := (Float.F FO).
Context {S : Type} (ldpc : list F -> res answer) (aided : S -> list F -> res (answer * S)).

Definition rows (sent : list (list Z)) (l : list answer) : list (answer * Z) := combine l (map Z.of_nat (wrong sent l)).

Lemma rows_cons w sent a l : rows (w :: sent) (a :: l) = (a, Z.of_nat (length (differences (a_estimate a) w))) :: rows sent l.
Proof. reflexivity. Qed.

Lemma sim_loop_run n channel : forall encoded rx llrs la aa s,
  Forall (word n) encoded -> length rx = length encoded -> length llrs = length encoded ->
  (forall i, i < length encoded -> channel i (nth i encoded []) = Ok (nth i rx [], nth i llrs [])) ->
  Forall2 (fun x a => ldpc x = Ok a) llrs la -> feeds aided s llrs aa ->
  Forall (fun a => word n (a_estimate a)) la -> Forall (fun a => word n (a_estimate a)) aa ->
  sim_loop FO ldpc aided channel encoded s = Ok (rx, rows encoded la, rows encoded aa).
Proof.
  intros encoded rx llrs la aa s W Lr Ll C Fl Fa Wl Wa. unfold sim_loop.
  set (f := fun st iw => _).
  assert (G : forall encoded rx llrs la aa s j r0 l0 a0, Forall (word n) encoded -> length rx = length encoded -> length llrs = length encoded ->
     (forall i, i < length encoded -> channel (j + i) (nth i encoded []) = Ok (nth i rx [], nth i llrs [])) ->
     Forall2 (fun x a => ldpc x = Ok a) llrs la -> feeds aided s llrs aa -> Forall (fun a => word n (a_estimate a)) la -> Forall (fun a => word n (a_estimate a)) aa ->
     exists s', fold_res f (combine (seq j (length encoded)) encoded) (r0, l0, a0, s) = Ok (r0 ++ rx, l0 ++ rows encoded la, a0 ++ rows encoded aa, s')).
  { clear. induction encoded as [|w encoded IH]; intros rx llrs la aa s j r0 l0 a0 W Lr Ll C Fl Fa Wl Wa.
    - destruct rx; [|discriminate]. destruct llrs; [|discriminate]. inversion Fl; subst. inversion Fa; subst. exists s. cbn. rewrite !app_nil_r. reflexivity.
    - destruct rx as [|r rx]; [discriminate|]. destruct llrs as [|x llrs]; [discriminate|]. inversion Fl as [|? a ? la' Ha Fl']; subst. inversion Fa as [|? ? e s1 ? aa' He Fa']; subst.
      inversion W; subst. inversion Wl; subst. inversion Wa; subst. cbn [length seq combine fold_res]. unfold f at 1. cbn [fst snd].
      pose proof (C 0 ltac:(cbn; lia)) as C0. cbn [nth] in C0. rewrite Nat.add_0_r in C0. rewrite C0. cbn [bind]. unfold decode_both. rewrite Ha. cbn [bind].
      rewrite (hamming_words n) by assumption. cbn [bind]. rewrite He. cbn [bind]. rewrite (hamming_words n) by assumption. cbn [bind].
      destruct (IH rx llrs la' aa' s1 (Datatypes.S j) (r0 ++ [r]) (l0 ++ [(a, Z.of_nat (length (differences (a_estimate a) w)))]) (a0 ++ [(e, Z.of_nat (length (differences (a_estimate e) w)))])) as [s' E]; auto.
      { intros i Hi. replace (Datatypes.S j + i) with (j + Datatypes.S i) by lia. apply (C (Datatypes.S i)). cbn. lia. }
      exists s'. rewrite E, !rows_cons, <- !app_assoc. reflexivity. }
  destruct (G encoded rx llrs la aa s 0 [] [] [] W Lr Ll C Fl Fa Wl Wa) as [s' E]. rewrite E. reflexivity.
Qed.

Lemma feeds_length : forall xs s aa, feeds aided s xs aa -> length aa = length xs.
Proof. induction xs as [|x xs IH]; intros s aa H; inversion H; subst; cbn; auto. f_equal. eapply IH. eassumption. Qed.

Lemma map_fst_rows sent l : length l = length sent -> map fst (rows sent l) = l.
Proof.
  intros H. unfold rows, wrong. rewrite map_map. revert sent H. induction l as [|a l IH]; intros [|w sent] H; try discriminate; [reflexivity|].
  cbn [combine map fst snd]. f_equal. apply IH. cbn in H. lia.
Qed.
Lemma map_snd_rows sent l : length l = length sent -> map snd (rows sent l) = map Z.of_nat (wrong sent l).
Proof.
  intros H. unfold rows, wrong. rewrite map_map. revert sent H. induction l as [|a l IH]; intros [|w sent] H; try discriminate; [reflexivity|].
  cbn [combine map fst snd]. f_equal. apply IH. cbn in H. lia.
Qed.

Lemma widths c m : forall (l : list (answer * Z)), l <> [] -> Forall (fun r => a_items (fst r) = m) l -> frame_ok c l = Nat.eqb (Datatypes.S m) c.
Proof.
  intros l Hn H. unfold frame_ok. destruct l as [|r l]; [contradiction|]. f_equal. f_equal. clear Hn. induction l as [|r' l IH].
  - inversion H; subst. cbn. lia.
  - inversion H as [|? ? H1 H2]; subst. inversion H2 as [|? ? H3 H4]; subst. cbn [map fold_right] in *. rewrite Nat.max_comm, <- Nat.max_assoc. rewrite (Nat.max_comm _ (a_items (fst r))).
    rewrite IH by (constructor; auto). lia.
Qed.

Lemma sum_of_nat l : fold_right Z.add 0%Z (map Z.of_nat l) = Z.of_nat (total l).
Proof. induction l as [|x l IH]; [reflexivity|]. cbn [map fold_right total]. unfold total in IH. rewrite IH. lia. Qed.
Lemma success_count sent l : length l = length sent -> count_if (fun r => (snd r =? 0)%Z) (rows sent l) = zeros (wrong sent l).
Proof.
  intros H. unfold zeros. rewrite count_if_filter.
  assert (E : length (filter (fun z => (z =? 0)%Z) (map snd (rows sent l))) = length (filter (fun r => (snd r =? 0)%Z) (rows sent l))) by apply filter_map_length.
  rewrite <- E, (map_snd_rows sent l H), filter_map_length. f_equal. apply filter_ext. intros a. destruct (Z.eqb_spec (Z.of_nat a) 0), (Nat.eqb_spec 0 a); try reflexivity; lia.
Qed.

Lemma rows_width sent l m : length l = length sent -> Forall (fun a => a_items a = m) l -> Forall (fun r => a_items (fst r) = m) (rows sent l).
Proof. intros H W. apply Forall_forall. intros r Hr. apply (in_map fst) in Hr. rewrite map_fst_rows in Hr by exact H. rewrite Forall_forall in W. apply W. exact Hr. Qed.
Lemma rows_nil sent l : length l = length sent -> sent <> [] -> rows sent l <> [].
Proof. destruct sent; [contradiction|]. destruct l; discriminate. Qed.

Lemma summary_run n c raw data encoded la aa ml ma : encoded <> [] -> Forall (word n) encoded -> length la = length encoded -> length aa = length encoded ->
  Forall (fun a => a_items a = ml) la -> Forall (fun a => a_items a = ma) aa ->
  summary FO c raw data encoded (rows encoded la) (rows encoded aa) =
  if (Nat.eqb ma 9 && Nat.eqb (Datatypes.S ml) c)%bool
  then Ok (Step FO raw data (rows encoded la) (rows encoded aa)
     (fdiv FO (fz FO (Z.of_nat (zeros (wrong encoded la)))) (fz FO (Z.of_nat (length encoded))))
     (fdiv FO (fz FO (Z.of_nat (total (wrong encoded la)))) (fz FO (Z.of_nat (length encoded * n))))
     (fdiv FO (fz FO (Z.of_nat (zeros (wrong encoded aa)))) (fz FO (Z.of_nat (length encoded))))
     (fdiv FO (fz FO (Z.of_nat (total (wrong encoded aa)))) (fz FO (Z.of_nat (length encoded * n)))))
  else Err ValueError.
Proof.
  intros Hn W Ll La Il Ia. unfold summary. destruct encoded as [|w encoded]; [contradiction|]. set (E := w :: encoded) in *. unfold index. cbn [nth_error bind].
  change (nth_error E 0) with (Some w). cbn [bind].
  rewrite (widths 10 ma), (widths c ml) by (try apply rows_width; try apply rows_nil; assumption).
  change (Nat.eqb (Datatypes.S ma) 10) with (Nat.eqb ma 9). destruct (Nat.eqb ma 9); cbn [negb andb]; [|reflexivity]. destruct (Nat.eqb (Datatypes.S ml) c); cbn [negb]; [|reflexivity].
  assert (Lw : length w = n) by (inversion W as [|? ? [H _]]; exact H). subst n. cbv zeta. unfold success_rate, bit_error_rate.
  rewrite !success_count, !map_snd_rows, !sum_of_nat by assumption. reflexivity.
Qed.
End Sim.

Lemma map_nth_seq {A B} (f : A -> B) (d : A) : forall l, map f l = map (fun i => f (nth i l d)) (seq 0 (length l)).
Proof.
  intros l. apply (nth_ext _ _ (f d) (f d)); [rewrite !map_length, seq_length; reflexivity|]. intros i Hi. rewrite map_length in Hi. rewrite map_nth.
  rewrite (nth_indep _ (f d) ((fun i => f (nth i l d)) 0)) by (rewrite map_length, seq_length; exact Hi). rewrite (map_nth (fun i => f (nth i l d))), seq_nth by exact Hi. reflexivity.
Qed.
Lemma combine_nth' {A B} (l : list A) (l' : list B) i x y : nth_error l i = Some x -> nth_error l' i = Some y -> nth_error (combine l l') i = Some (x, y).
Proof. revert l' i. induction l as [|a l IH]; intros [|b l'] [|i] H1 H2; try discriminate; cbn in *; [congruence|]. apply IH; assumption. Qed.

(** Masks of differences. *)
Lemma mask_row_map n w r : word n w -> word n r -> mask_row w r = map (fun p => negb (nth p w 0 =? nth p r 0)%Z) (seq 0 n).
Proof.
  intros [Lw _] [Lr _]. unfold mask_row, zip_with. rewrite (map_nth_seq _ (0, 0)%Z), combine_length, Lw, Lr, Nat.min_id. apply map_ext_in. intros p Hp. apply in_seq in Hp.
  rewrite combine_nth by congruence. cbn [fst snd]. f_equal. destruct (Z.eqb_spec (nth p w 0%Z) (nth p r 0%Z)) as [-> |N]; [rewrite Z.lxor_nilpotent; reflexivity|].
  apply Z.eqb_neq. intros H. apply N. apply Z.lxor_eq. exact H.
Qed.
Lemma count_map {A} (g : A -> bool) l : count_if (fun b => b) (map g l) = length (filter g l).
Proof. rewrite count_if_filter, filter_map_length. reflexivity. Qed.
Lemma firstn_seq k : forall n a, firstn k (seq a n) = seq a (Nat.min k n).
Proof. induction k as [|k IH]; intros [|n] a; try reflexivity. cbn [seq firstn Nat.min]. rewrite IH. reflexivity. Qed.
Lemma skipn_seq k : forall n a, skipn k (seq a n) = seq (a + k) (n - k).
Proof. induction k as [|k IH]; intros [|n] a; try reflexivity; cbn [skipn]. - rewrite Nat.add_0_r. reflexivity. - cbn [seq]. rewrite IH. f_equal; lia. Qed.
Lemma skipn_map' {A B} (f : A -> B) k : forall l, skipn k (map f l) = map f (skipn k l).
Proof. induction k as [|k IH]; intros [|x l]; try reflexivity. cbn [map skipn]. apply IH. Qed.
Lemma mask_counts n k w r : word n w -> word n r ->
  count_if (fun b => b) (firstn k (mask_row w r)) = length (filter (fun p => Nat.ltb p k) (differences w r)) /\
  count_if (fun b => b) (skipn k (mask_row w r)) = length (filter (fun p => negb (Nat.ltb p k)) (differences w r)) /\
  count_if (fun b => b) (mask_row w r) = length (differences w r).
Proof.
  intros Ww Wr. rewrite (mask_row_map n) by assumption. set (g := fun p => negb (nth p w 0 =? nth p r 0)%Z). unfold differences. fold g. rewrite (proj1 Ww).
  rewrite skipn_map', firstn_map, firstn_seq, skipn_seq, !count_map. split; [|split; [|reflexivity]].
  - apply filter_both_length; [apply seq_NoDup|apply NoDup_filter, seq_NoDup|]. intros p. rewrite filter_In, !in_seq. split; [intros [H1 H2]|intros [[H1 H2] H3]]; repeat split; auto; try lia.
  - apply filter_both_length; [apply seq_NoDup|apply NoDup_filter, seq_NoDup|]. intros p. rewrite filter_In, !in_seq. split; [intros [H1 H2]|intros [[H1 H2] H3]]; repeat split; auto; try lia.
Qed.

(** Bounds of the counts. *)
Lemma differences_le a b : length (differences a b) <= length a.
Proof. unfold differences. rewrite <- (seq_length (length a) 0) at 2. apply filter_length_le. Qed.
Lemma differences_nil n a b : word n a -> word n b -> (length (differences a b) = 0 <-> a = b).
Proof.
  intros [La _] [Lb _]. split.
  - intros H. apply (nth_ext _ _ 0%Z 0%Z); [congruence|]. intros p Hp. destruct (Z.eq_dec (nth p a 0%Z) (nth p b 0%Z)) as [E|N]; [exact E|]. exfalso.
    assert (I : In p (differences a b)). { unfold differences. apply filter_In. split; [apply in_seq; lia|]. apply negb_true_iff, Z.eqb_neq. exact N. }
    destruct (differences a b); [contradiction|discriminate].
  - intros <-. unfold differences. induction (seq 0 (length a)) as [|p ps IH]; [reflexivity|]. cbn [filter]. rewrite Z.eqb_refl. cbn [negb]. exact IH.
Qed.
Lemma total_zeros n l : Forall (fun x => x <= n) l ->
  zeros l <= length l /\ total l <= length l * n /\ length l <= total l + zeros l /\ (total l = 0 <-> zeros l = length l) /\ total l + n * zeros l <= n * length l.
Proof.
  unfold zeros. induction 1 as [|x l Hx _ (I1 & I2 & I3 & I4 & I5)]; [cbn; lia|]. cbn [filter total fold_right length]. fold (total l).
  destruct (Nat.eqb_spec 0 x) as [<- |N]; cbn [length];
    (split; [lia|]; split; [nia|]; split; [lia|]; split; [lia|nia]).
Qed.
Lemma wrong_zero n : forall sent l, length l = length sent -> Forall (word n) sent -> Forall (fun a => word n (a_estimate a)) l ->
  (total (wrong sent l) = 0 <-> map a_estimate l = sent).
Proof.
  unfold wrong. induction sent as [|w sent IH]; intros [|a l] L Ws Wl; try discriminate; [cbn; tauto|]. inversion Ws; subst. inversion Wl; subst.
  cbn [combine map total fold_right fst snd]. fold (total (map (fun wa => length (differences (a_estimate (snd wa)) (fst wa))) (combine sent l))).
  specialize (IH l ltac:(cbn in L; lia) ltac:(assumption) ltac:(assumption)).
  pose proof (differences_nil n (a_estimate a) w ltac:(assumption) ltac:(assumption)) as D. split.
  - intros H. f_equal; [apply D; lia|apply IH; lia].
  - intros H. injection H as E1 E2. apply D in E1. apply IH in E2. lia.
Qed.
Lemma wrong_bound n : forall sent l, Forall (fun a => word n (a_estimate a)) l -> Forall (fun x => x <= n) (wrong sent l).
Proof.
  intros sent l W. unfold wrong. apply Forall_map, Forall_forall. intros [w a] I. apply in_combine_r in I. cbn [fst snd]. rewrite Forall_forall in W. specialize (W a I).
  rewrite <- (proj1 W). apply differences_le.
Qed.
