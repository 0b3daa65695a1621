(** Lemmas about the experiments whose decoder is told where the received word is wrong. *)
From Coq Require Import List Arith NArith ZArith Bool Lia ZifyBool ZifyNat.
From Verif.Model Require Import Py Float InfoTheory Mavlink Segmentation StatModels Clustering BitOps DecoderBase Rectify MavlinkDecoder CombinedDecoder Simulation Informed.
From Verif.Spec Require Import Bytes Bits Header Frame Segment Stats SimulationSpec InformedSpec.
From Verif.Proofs Require Import Base BitOpsP SegmentP EntropyDecP SimulationP ExperimentP.
Import ListNotations.

Lemma feeds_len {S I A} (dec : S -> I -> res (A * S)) s xs l : feeds dec s xs l -> length l = length xs.
Proof. induction 1; cbn; congruence. Qed.

Section Inf.
Variable FO : fops.
Notation F := (Float.F FO).
Context {S T : Type} (ldpc : list F -> res answer) (aided : S -> list F -> T -> res (answer * S)) (tell : bool -> list Z -> T) (columns : nat).

Definition inf_step (tx : list (list Z)) : list (list Z) * list (answer * Z) * list (answer * Z) * S -> nat * list F -> res (list (list Z) * list (answer * Z) * list (answer * Z) * S) :=
  fun st ir => let '(errors, l, a, s) := st in
      do! d <- ldpc (snd ir) in
      do! row <- index tx (fst ir) in
      do! first <- index row 0 in
      let known := (first <? 2)%Z in
      let er := if known then zip_with (fun t h => if (t =? h)%Z then 0%Z else 1%Z) row (hard FO (snd ir)) else map (fun _ => 2%Z) (snd ir) in
      do! h <- distance known d row in
      do! (e, s) <- aided s (snd ir) (tell known er) in
      do! g <- distance known e row in
      Ok (errors ++ [er], l ++ [(d, h)], a ++ [(e, g)], s).

Lemma inf_loop n : 0 < n -> forall tx pre rx la aa s e0 l0 a0,
  Forall (sent_row n) tx -> length rx = length tx -> Forall2 (fun x a => ldpc x = Ok a) rx la -> feeds (fun s x => aided s (fst x) (snd x)) s (combine rx (zip_with (fun t r => tell (is_known t) (error_entries FO t r)) tx rx)) aa ->
  Forall (fun a => word n (a_estimate a)) la -> Forall (fun a => word n (a_estimate a)) aa ->
  exists s', fold_res (inf_step (pre ++ tx)) (combine (seq (length pre) (length rx)) rx) (e0, l0, a0, s) =
    Ok (e0 ++ zip_with (error_entries FO) tx rx, l0 ++ jrows tx la, a0 ++ jrows tx aa, s').
Proof.
  intros Hn. induction tx as [|t tx IH]; intros pre rx la aa s e0 l0 a0 Wt Lr Fl Fa Wl Wa.
  - destruct rx; [|discriminate]. inversion Fl; subst. inversion Fa; subst. exists s. cbn. rewrite !app_nil_r. reflexivity.
  - destruct rx as [|r rx]; [discriminate|]. inversion Fl as [|? a ? la' Ha Fl']; subst. inversion Fa as [|? ? e s1 ? aa' He Fa']; subst.
    inversion Wt as [|? ? Ht Wt']; subst. inversion Wl; subst. inversion Wa; subst. cbn [length seq combine fold_res]. unfold inf_step at 1. cbn [fst snd].
    rewrite Ha. cbn [bind]. destruct (sent_first n t Hn Ht) as (x & Ex & Kx & _).
    assert (Ei : index (pre ++ t :: tx) (length pre) = Ok t) by (unfold index; rewrite nth_error_app2, Nat.sub_diag by lia; reflexivity).
    rewrite Ei. cbn [bind]. rewrite Ex. cbn [bind]. cbv zeta. rewrite Kx. rewrite (distance_known n) by assumption. cbn [bind]. cbn [fst snd] in He. rewrite entries_zip. fold (error_entries FO t r). rewrite He. cbn [bind]. rewrite (distance_known n) by assumption. cbn [bind].
    replace (pre ++ t :: tx) with ((pre ++ [t]) ++ tx) by (rewrite <- app_assoc; reflexivity).
    replace (Datatypes.S (length pre)) with (length (pre ++ [t])) by (rewrite app_length; cbn; lia).
    edestruct (IH (pre ++ [t]) rx la' aa' s1) as [s' E]; [assumption|cbn in Lr; lia|assumption..|]. exists s'. rewrite E, !jrows_cons, <- !app_assoc. cbn [app].
    replace (zip_with (error_entries FO) (t :: tx) (r :: rx)) with (error_entries FO t r :: zip_with (error_entries FO) tx rx) by reflexivity.
    reflexivity.
Qed.


Lemma run_reports n k tx rx la aa s ml ma :
  0 < n -> tx <> [] -> Forall (sent_row n) tx -> length rx = length tx -> Forall (fun r => length r = n) rx ->
  Forall2 (fun r a => ldpc r = Ok a) rx la -> feeds (fun s x => aided s (fst x) (snd x)) s (combine rx (zip_with (fun t r => tell (is_known t) (error_entries FO t r)) tx rx)) aa ->
  proper_answers n ml la -> proper_answers n ma aa -> reports FO columns n k tx rx la aa ml ma (run_informed FO ldpc aided tell columns n k tx rx s).
Proof.
  intros Hn Ht Wt Lr Wr Fl Fa Pl Pa.
  assert (Wl : Forall (fun a => word n (a_estimate a)) la) by (eapply Forall_impl; [|exact Pl]; intros ? [? ?]; assumption).
  assert (Wa : Forall (fun a => word n (a_estimate a)) aa) by (eapply Forall_impl; [|exact Pa]; intros ? [? ?]; assumption).
  assert (Ml : Forall (fun a => a_items a = ml) la) by (eapply Forall_impl; [|exact Pl]; intros ? [? ?]; assumption).
  assert (Ma : Forall (fun a => a_items a = ma) aa) by (eapply Forall_impl; [|exact Pa]; intros ? [? ?]; assumption).
  assert (Ll : length la = length tx) by (rewrite <- Lr; symmetry; clear -Fl; induction Fl; cbn; congruence).
  assert (La : length aa = length tx) by (rewrite (feeds_len _ _ _ _ Fa), combine_length; unfold zip_with; rewrite map_length, combine_length; lia).
  destruct (inf_loop n Hn tx [] rx la aa s [] [] [] Wt Lr Fl Fa Wl Wa) as [s' E]. cbn [app length] in E.
  assert (Jw : forall c l m, length l = length tx -> Forall (fun a => a_items a = m) l -> frame_ok c (jrows tx l) = Nat.eqb (Datatypes.S m) c).
  { intros c l m L M. apply widths.
    - intros N. apply (f_equal (fun z => length (map fst z))) in N. rewrite jrows_fst in N by exact L. cbn in N. destruct tx; [contradiction|cbn in L; lia].
    - apply Forall_forall. intros x Hx. apply (in_map fst) in Hx. rewrite jrows_fst in Hx by exact L. rewrite Forall_forall in M. apply M. exact Hx. }
  set (bad := fun row : list Z => match row with [] => false | x :: _ => (x =? 2)%Z end).
  assert (G : count_if (fun row => negb (bad row)) tx = known_words tx).
  { rewrite count_if_filter. unfold known_words. clear -Wt Hn. induction Wt as [|t tx H _ IH]; [reflexivity|]. cbn [filter]. unfold bad at 1. rewrite (known_bad n t Hn H), negb_involutive.
    destruct (is_known t); cbn [length]; rewrite IH; reflexivity. }
  assert (X : run_informed FO ldpc aided tell columns n k tx rx s =
    if negb (Nat.eqb (Datatypes.S ma) columns) then Err ValueError else if negb (Nat.eqb (Datatypes.S ml) 7) then Err ValueError else
    if Nat.eqb (known_words tx) 0 then Err ZeroDivision else
    Ok (Experiment FO (map (fun x => match x with (t, r, e) =>
                ExpRow FO t r e (if bad t then (-1)%Z else sum_z (firstn k e)) (if bad t then (-1)%Z else sum_z (skipn k e))
                       (if bad t then fz FO (-1) else fdiv FO (fz FO (sum_z e)) (fz FO (Z.of_nat n))) end)
              (combine (combine tx rx) (zip_with (error_entries FO) tx rx))) (jrows tx la) (jrows tx aa)
      (fdiv FO (fz FO (Z.of_nat (claims la))) (fz FO (Z.of_nat (length tx)))) (fdiv FO (fz FO (Z.of_nat (claims aa))) (fz FO (Z.of_nat (length tx))))
      (fdiv FO (fz FO (Z.of_nat (known_wrong tx la))) (fz FO (Z.of_nat (n * known_words tx)))) (fdiv FO (fz FO (Z.of_nat (known_wrong tx aa))) (fz FO (Z.of_nat (n * known_words tx)))))).
  { unfold run_informed. change (fun st ir => _) with (inf_step tx). rewrite E. cbn [bind]. cbv zeta. rewrite !(Jw _ la ml), !(Jw _ aa ma) by assumption.
    destruct (negb (Nat.eqb (Datatypes.S ma) columns)); [reflexivity|]. destruct (negb (Nat.eqb (Datatypes.S ml) 7)); [reflexivity|].
    change (fun row => negb match row with [] => false | x :: _ => (x =? 2)%Z end) with (fun row => negb (bad row)). rewrite G.
    unfold claimed_rate, known_ber. rewrite !jrows_claims, !jrows_known by assumption. rewrite Lr. destruct (Nat.eqb_spec (length tx) 0) as [Z0|_]; [destruct tx; [contradiction|discriminate]|]. cbn [bind].
    destruct (Nat.eqb_spec (known_words tx) 0) as [Zk|Zk].
    - rewrite Zk, Nat.mul_0_r. reflexivity.
    - destruct (Nat.eqb_spec (n * known_words tx) 0); [lia|]. reflexivity. }
  split; [|split].
  - intros Hm. rewrite X. destruct (Nat.eqb_spec (Datatypes.S ma) columns); [|reflexivity]. destruct (Nat.eqb_spec (Datatypes.S ml) 7); [lia|]. reflexivity.
  - intros -> Hc K. rewrite X, K, Hc, Nat.eqb_refl. reflexivity.
  - intros -> Hc K. rewrite X, Hc, Nat.eqb_refl. destruct (Nat.eqb_spec (known_words tx) 0) as [|_]; [contradiction|]. cbn [Nat.eqb negb]. eexists. split; [reflexivity|].
    cbn [ex_data ex_ldpc ex_aided ex_ldpc_rate ex_aided_rate ex_ldpc_ber ex_aided_ber]. split; [|split].
    + rewrite map_length, !combine_length. unfold zip_with. rewrite map_length, combine_length. lia.
    + intros i Hi. set (t := nth i tx []). set (r := nth i rx []). set (d := differences t (hard FO r)). assert (Er : nth_error rx i = Some r) by (apply nth_error_nth'; lia). assert (Et : nth_error tx i = Some t) by (apply nth_error_nth'; exact Hi).
      rewrite nth_error_map. rewrite (combine_nth' _ _ i (t, r) (error_entries FO t r)).
      2: apply combine_nth'; assumption.
      2: unfold zip_with; rewrite nth_error_map, (combine_nth' _ _ i t r) by assumption; reflexivity.
      cbn [option_map]. f_equal. rewrite Forall_forall in Wt, Wr. specialize (Wt t (nth_error_In _ _ Et)). specialize (Wr r (nth_error_In _ _ Er)).
      unfold bad. rewrite (known_bad n t Hn Wt). unfold error_entries. destruct (is_known t) eqn:Kt; cbn [negb].
      * assert (Ww : word n t) by (eapply sent_known; eassumption). pose proof (hard_word FO n r Wr) as Wh.
        destruct (mask_counts n k t (hard FO r) Ww Wh) as (M1 & M2 & M3). rewrite skipn_map', firstn_map, !sum_mask, M1, M2, M3. fold d. f_equal.
        rewrite (mask_row_map n) by assumption. rewrite map_map. apply map_ext. intros p. destruct (nth p t 0 =? nth p (hard FO r) 0)%Z; reflexivity.
      * f_equal. rewrite <- Wr. clear. induction r as [|x r IH]; [reflexivity|]. cbn [map length repeat]. rewrite IH. reflexivity.
    + rewrite !jrows_fst, !jrows_snd by assumption. repeat split.
Qed.
End Inf.

(** What the decoder is told. *)
Lemma where_one_map (g : nat -> bool) n : where_one (map (fun p => if g p then 1%Z else 0%Z) (seq 0 n)) = map Z.of_nat (filter g (seq 0 n)).
Proof.
  unfold where_one. rewrite map_length, seq_length. generalize 0. induction n as [|n IH]; intros b; [reflexivity|]. cbn [seq map combine filter snd fst].
  destruct (g b); cbn [Z.eqb map fst]; rewrite <- IH; reflexivity.
Qed.
Lemma where_one_twos {A} (r : list A) : where_one (map (fun _ => 2%Z) r) = [].
Proof. unfold where_one. rewrite map_length. generalize 0. induction r as [|x r IH]; intros b; [reflexivity|]. cbn. apply IH. Qed.
Lemma where_one_range row : positions (length row) (where_one row).
Proof.
  unfold positions, where_one. apply Forall_map, Forall_forall. intros [p v] H. apply filter_In in H. destruct H as [H _]. apply in_combine_l, in_seq in H. cbn [fst]. lia.
Qed.

Section Told.
Variable FO : fops.
Notation F := (Float.F FO).
Lemma told_row n t (r : list F) : sent_row n t -> length r = n -> where_one (error_entries FO t r) = told_always t (hard FO r).
Proof.
  intros Ht Lr. unfold error_entries, told_always. destruct (is_known t) eqn:K; [|apply where_one_twos].
  assert (Ww : word n t) by (eapply sent_known; eassumption). pose proof (hard_word FO n r Lr) as Wh.
  rewrite (mask_row_map n) by assumption. rewrite map_map, where_one_map. unfold wrong_positions, differences. rewrite (proj1 Ww). reflexivity.
Qed.
Lemma told_known_row n t (r : list F) : sent_row n t -> length r = n -> tell_known (is_known t) (error_entries FO t r) = told_known t (hard FO r).
Proof.
  intros Ht Lr. unfold tell_known, told_known. pose proof (told_row n t r Ht Lr) as E. unfold told_always in E. destruct (is_known t); [rewrite E|]; reflexivity.
Qed.
Lemma told_rows {T} (tell : bool -> list Z -> T) (told : list Z -> list Z -> T) n tx : forall rx : list (list F),
  (forall t r, sent_row n t -> length r = n -> tell (is_known t) (error_entries FO t r) = told t (hard FO r)) ->
  Forall (sent_row n) tx -> Forall (fun r => length r = n) rx -> zip_with (fun t r => tell (is_known t) (error_entries FO t r)) tx rx = zip_with (fun t r => told t (hard FO r)) tx rx.
Proof.
  intros rx H Wt Wr. unfold zip_with. apply map_ext_in. intros [t r] I. rewrite Forall_forall in Wt, Wr. apply H; [apply Wt; eapply in_combine_l; exact I|apply Wr; eapply in_combine_r; exact I].
Qed.
End Told.

(** Running with another decoder. *)
Section Ext.
Variable FO : fops.
Notation F := (Float.F FO).
Context {S T : Type} (ldpc : list F -> res answer) (tell : bool -> list Z -> T) (columns : nat).
Definition may_tell (r : list F) (e : T) : Prop := exists known er, length er <= length r /\ e = tell known er.

Lemma fold_res_ext {A B} (f g : B -> A -> res B) l : (forall b x, In x l -> f b x = g b x) -> forall b, fold_res f l b = fold_res g l b.
Proof.
  induction l as [|x l IH]; intros H b; [reflexivity|]. cbn [fold_res]. rewrite H by (left; reflexivity). destruct (g b x); [cbn [bind]|reflexivity]. apply IH. intros b' y Hy. apply H. right. exact Hy.
Qed.
Lemma fold_res_ok {A B} (f g : B -> A -> res B) l : (forall b x y, In x l -> f b x = Ok y -> g b x = Ok y) -> forall b y, fold_res f l b = Ok y -> fold_res g l b = Ok y.
Proof.
  induction l as [|x l IH]; intros H b y E; [exact E|]. cbn [fold_res] in *. destruct (f b x) as [b'|] eqn:Ef; [|discriminate]. rewrite (H b x b') by (try left; auto). cbn [bind] in *.
  apply IH; [|exact E]. intros b2 z w Hz. apply H. right. exact Hz.
Qed.
Lemma row_length known (row : list Z) (r : list F) :
  length (if known : bool then zip_with (fun t h => if (t =? h)%Z then 0%Z else 1%Z) row (hard FO r) else map (fun _ => 2%Z) r) <= length r.
Proof. destruct known; [unfold zip_with, hard; rewrite map_length, combine_length, map_length; lia|rewrite map_length; lia]. Qed.

Lemma run_ext (a1 a2 : S -> list F -> T -> res (answer * S)) n k tx rx s :
  (forall s r e, may_tell r e -> a1 s r e = a2 s r e) -> run_informed FO ldpc a1 tell columns n k tx rx s = run_informed FO ldpc a2 tell columns n k tx rx s.
Proof.
  intros H. unfold run_informed. f_equal. apply fold_res_ext. intros [[[er l] a] s1] [i r] _. cbn [fst snd].
  destruct (ldpc r); [cbn [bind]|reflexivity]. destruct (index tx i) as [row|]; [cbn [bind]|reflexivity]. destruct (index row 0) as [x|]; [cbn [bind]|reflexivity]. cbv zeta.
  destruct (distance _ _ row); [cbn [bind]|reflexivity]. rewrite H; [reflexivity|]. eexists _, _. split; [|reflexivity]. apply row_length.
Qed.
Lemma run_ok {T2} (tell2 : bool -> list Z -> T2) (a1 : S -> list F -> T -> res (answer * S)) (a2 : S -> list F -> T2 -> res (answer * S)) n k tx rx s ex :
  (forall s r known er y, length er <= length r -> a1 s r (tell known er) = Ok y -> a2 s r (tell2 known er) = Ok y) ->
  run_informed FO ldpc a1 tell columns n k tx rx s = Ok ex -> run_informed FO ldpc a2 tell2 columns n k tx rx s = Ok ex.
Proof.
  intros H E. unfold run_informed in *. change (fun st ir => _) with (inf_step FO ldpc a1 tell tx) in E. change (fun st ir => _) with (inf_step FO ldpc a2 tell2 tx).
  destruct (fold_res (inf_step FO ldpc a1 tell tx) _ ([], [], [], s)) as [y0|] eqn:Ef; [|discriminate E].
  rewrite (fold_res_ok _ (inf_step FO ldpc a2 tell2 tx) _) with (y := y0) (2 := Ef); [exact E|].
  clear -H. intros [[[er l] a] s1] [i r] y _. unfold inf_step. cbn [fst snd].
  destruct (ldpc r); [cbn [bind]|discriminate]. destruct (index tx i) as [row|]; [cbn [bind]|discriminate]. destruct (index row 0) as [x|]; [cbn [bind]|discriminate]. cbv zeta.
  destruct (distance _ _ row); [cbn [bind]|discriminate]. pose proof (row_length (x <? 2)%Z row r) as L.
  destruct (a1 s1 r _) as [y0|] eqn:Ea; [|discriminate]. rewrite (H _ _ _ _ _ L Ea). auto.
Qed.
End Ext.

(** The analyses succeed or fail whatever the errors are. *)
Lemma find_damaged_any e s len : exists o, find_damaged_fields e s len = (do! _ <- unpack_structure true len s in Ok o).
Proof.
  unfold find_damaged_fields. destruct (unpack_structure true len s) as [[[bits names] sz]|]; [|exists None; reflexivity]. cbn [bind].
  set (f := fun acc error => _). assert (K : forall l acc, match fold_res f l acc with Ok _ => True | Err x => x = IndexError end).
  { induction l as [|x l IH]; intros acc; [exact I|]. cbn [fold_res]. assert (G : match f acc x with Ok _ => True | Err x => x = IndexError end).
    { unfold f. destruct (x <? _)%Z; [|exact I]. unfold index_z at 1. destruct (_ || _)%bool; [reflexivity|]. destruct (nth_error bits _) as [i|]; [cbn [bind]|reflexivity].
      destruct (0 <=? i)%Z; [|exact I]. unfold index_z. destruct (_ || _)%bool; [reflexivity|]. destruct (nth_error _ _); [exact I|reflexivity]. }
    destruct (f acc x) as [acc'|]; cbn [bind]; [apply IH|exact G]. }
  specialize (K (sort_z e) []). destruct (fold_res f (sort_z e) []) as [l|x]; [eexists; reflexivity|]. subst x. eexists. reflexivity.
Qed.
Lemma classifier_any {B} st g b e1 e2 f n (k : res B) :
  (do! _ <- classifier_analysis st g b e1 f n in k) = (do! _ <- classifier_analysis st g b e2 f n in k).
Proof.
  unfold classifier_analysis. destruct st as [s|]; [|reflexivity]. destruct (find_damaged_any e1 s (n / 8)) as [o1 ->]. destruct (find_damaged_any e2 s (n / 8)) as [o2 ->].
  destruct (unpack_structure true (n / 8) s); [|reflexivity]. cbn [bind]. destruct o1 as [[|x1 l1]|], o2 as [[|x2 l2]|]; reflexivity.
Qed.
Lemma error_mask_ok n e : positions n e -> exists m, error_mask n e = Ok m /\ length m = n.
Proof.
  intros P. unfold error_mask. assert (K : forall l, length l = n -> exists m, fold_res (fun l e => do! _ <- index_z l e in Ok (set_nth l (Z.to_nat (if (e <? 0)%Z then e + Z.of_nat n else e)) true)) e l = Ok m /\ length m = n).
  { induction P as [|x e Hx _ IH]; intros l L; [exists l; auto|]. cbn [fold_res].
    assert (E : exists v, index_z l x = Ok v).
    { unfold index_z. rewrite L. destruct (Z.ltb_spec x 0); [lia|]. destruct (Z.ltb_spec x 0); [lia|]. destruct (Z.leb_spec (Z.of_nat n) x); [lia|]. cbn [orb].
      destruct (nth_error l (Z.to_nat x)) as [v|] eqn:E; [exists v; reflexivity|]. apply nth_error_None in E. lia. }
    destruct E as [v ->]. cbn [bind]. apply IH. rewrite length_set_nth. exact L. }
  apply K. apply repeat_length.
Qed.
Lemma take_ok_iff {A B} (l1 : list A) (l2 : list B) idx : length l1 = length l2 ->
  match take l1 idx, take l2 idx with Ok _, Ok _ => True | Err x, Err y => x = y | _, _ => False end.
Proof.
  intros L. unfold take. induction idx as [|i idx IH]; [exact I|]. cbn [map_res]. change (index l1 i) with (match nth_error l1 i with Some a => Ok a | None => Err IndexError end). change (index l2 i) with (match nth_error l2 i with Some a => Ok a | None => Err IndexError end).
  assert (E : nth_error l1 i = None <-> nth_error l2 i = None) by (rewrite !nth_error_None; lia).
  destruct (nth_error l1 i), (nth_error l2 i); cbn [bind]; [|discriminate (proj2 E eq_refl)|discriminate (proj1 E eq_refl)|reflexivity].
  destruct (map_res (index l1) idx), (map_res (index l2) idx); cbn [bind]; assumption.
Qed.
Lemma forcing_any FO pack m st fo e1 e2 rx {B} (k : res B) : positions (length rx) e1 -> positions (length rx) e2 ->
  (do! _ <- forcing_analysis FO pack m st fo e1 rx in k) = (do! _ <- forcing_analysis FO pack m st fo e2 rx in k).
Proof.
  intros P1 P2. unfold forcing_analysis. destruct st as [s|]; [|reflexivity]. destruct (bitwise_model_mean _ _ _ _ _ _) as [[m1 mb]|]; [cbn [bind]|reflexivity].
  destruct fo as [l|]; [|reflexivity]. destruct (take rx l) as [rc|]; [cbn [bind]|reflexivity]. cbv zeta.
  destruct (error_mask_ok _ _ P1) as (m2 & -> & L2). destruct (error_mask_ok _ _ P2) as (m3 & -> & L3). cbn [bind].
  pose proof (take_ok_iff m2 m3 l (eq_trans L2 (eq_sym L3))) as T. destruct (take m2 l), (take m3 l); cbn [bind]; try contradiction; [reflexivity|congruence].
Qed.

(** No decoder uses what it is told. *)
Section Blind.
Variable FO : fops.
Notation F := (Float.F FO).
Variables (pack : F -> res N) (erf : F -> F) (kl : list F -> list F -> F).
Context {D : Type} (parser : bytes -> res D) (info : list Z -> res bytes) {X : Type}.
Lemma hard_length (r : list F) : length (hard FO r) = length r.
Proof. unfold hard. apply map_length. Qed.
Lemma md_blind c (ldpc : list F -> res (list Z * list F * bool * Z * X)) s llr e1 e2 : md_debug c = false \/ positions (length llr) e1 /\ positions (length llr) e2 ->
  md_informed FO pack erf kl parser info c ldpc s llr e1 = md_informed FO pack erf kl parser info c ldpc s llr e2.
Proof.
  intros H. unfold md_informed, md_decode. destruct (md_loop _ _ _ _ _ _ _ _ _ _ _ _ _ _ _) as [s1 [[a|p a label]|x]]; [reflexivity| |reflexivity].
  destruct (md_debug c) eqn:Ed; [|reflexivity]. destruct H as [H|[P1 P2]]; [discriminate|]. rewrite <- (hard_length llr) in P1, P2.
  destruct (index_z (md_structs s1) label) as [st|]; [cbn [bind]|reflexivity].
  pose proof (classifier_any st (pr_good_fields p) (pr_bad_fields p) e1 e2 (pr_fields p) (md_n c) (Ok tt)) as C.
  pose proof (fun B => forcing_any FO pack (md_model s1) st (pr_forced p) e1 e2 (hard FO llr) (B := B)) as G.
  destruct (classifier_analysis st _ _ e1 _ _) as [c1|x1], (classifier_analysis st _ _ e2 _ _) as [c2|x2]; cbn [bind] in *.
  - specialize (G _ (Ok tt) P1 P2). destruct (forcing_analysis _ _ _ _ _ e1 _), (forcing_analysis _ _ _ _ _ e2 _); cbn [bind] in *; try discriminate; [|congruence]. destruct a as [[[[es so] ok] it] x]. reflexivity.
  - discriminate.
  - discriminate.
  - congruence.
Qed.
Lemma co_blind c (ldpc : list F -> res (list Z * list F * bool * Z * X)) s llr e1 e2 : positions (length llr) e1 -> positions (length llr) e2 ->
  co_decode FO pack erf kl parser info c ldpc s llr (Some e1) = co_decode FO pack erf kl parser info c ldpc s llr (Some e2).
Proof.
  intros P1 P2. rewrite <- (hard_length llr) in P1, P2. unfold co_decode. destruct (md_label _ _ _ _ _) as [f [label|x]]; [|reflexivity]. destruct (label <? 0)%Z; [reflexivity|].
  destruct (co_predict _ _ _ _ _ _ _ _ _) as [s1 [p|x]]; [|reflexivity].
  assert (A : co_analyses FO pack c s1 label p (hard FO llr) (Some e1) = co_analyses FO pack c s1 label p (hard FO llr) (Some e2)).
  { unfold co_analyses. destruct (md_debug (co_md c)); [|reflexivity]. destruct (index_z _ label) as [st|]; [cbn [bind]|reflexivity].
    rewrite (forcing_any FO pack _ st (pr_forced p) e1 e2 (hard FO llr) (Ok tt) P1 P2). apply classifier_any. }
  rewrite A. reflexivity.
Qed.
Lemma co_none c (ldpc : list F -> res (list Z * list F * bool * Z * X)) s llr e y :
  co_informed FO pack erf kl parser info c ldpc s llr e = Ok y -> co_informed FO pack erf kl parser info c ldpc s llr None = Ok y.
Proof.
  unfold co_informed, co_decode. destruct (md_label _ _ _ _ _) as [f [label|x]]; [|auto]. destruct (label <? 0)%Z; [auto|].
  destruct (co_predict _ _ _ _ _ _ _ _ _) as [s1 [p|x]]; [|auto]. destruct (co_analyses _ _ _ _ _ _ _ e) as [u|x] eqn:A; [|discriminate]. cbn [bind co_analyses]. auto.
Qed.
End Blind.

(** The structure of an unknown word is empty. *)
Lemma full_byte (row : list Z) j : Forall (fun x => x <> 0%Z) row -> j + 1 < length (pack row) -> N.testbit (nth j (pack row) 0%N) 0 = true.
Proof.
  intros H Hj. destruct (EntropyDecP.pack_bits row) as (pad & Hp & E). set (b := pack row) in *. assert (B : is_bytes b) by apply packbits_bytes.
  assert (Lc : 8 * length b = length row + pad). { apply (f_equal (@length bool)) in E. change (flat_map byte_bits b) with (bytes_bits b) in E. rewrite length_bytes_bits, app_length, map_length, repeat_length in E. lia. }
  assert (O : forall p, p < length row -> nth p (bytes_bits b) false = true).
  { intros p Hq. change (bytes_bits b) with (flat_map byte_bits b). rewrite E, app_nth1 by (rewrite map_length; exact Hq).
    rewrite (nth_indep _ false (on 0)) by (rewrite map_length; exact Hq). rewrite map_nth. rewrite Forall_forall in H. specialize (H (nth p row 0%Z) (nth_In _ _ Hq)). unfold on. destruct (Z.eqb_spec (nth p row 0%Z) 0); [contradiction|reflexivity]. }
  specialize (O (8 * j + 7) ltac:(lia)). rewrite nth_bytes_bits in O by lia. unfold bit_of in O.
  replace ((8 * j + 7) / 8) with j in O by (symmetry; rewrite Nat.mul_comm; rewrite Nat.div_add_l by lia; change (7 / 8) with 0; lia).
  replace ((8 * j + 7) mod 8) with 7 in O by (symmetry; rewrite Nat.add_comm, Nat.mul_comm, Nat.mod_add by lia; reflexivity). exact O.
Qed.
Lemma unknown_structure {D} (parser : bytes -> res D) k row : (forall b, is_bytes b -> exists p v s, segment_buffer parser b = Ok (p, v, s)) ->
  Forall (fun x => x <> 0%Z) row -> first_structure parser k row = Ok [].
Proof.
  intros Total H. unfold first_structure. assert (B : is_bytes (pack (firstn k row))) by apply packbits_bytes. destruct (Total _ B) as (p & v & s & E). rewrite E. cbn [bind].
  destruct s as [|[j i] s]; [reflexivity|]. exfalso. apply (segment_ok_iff parser _ B p v _) in E. destruct E as ((S1 & _) & _). destruct (S1 j i (or_introl eq_refl)) as (_ & (Lj & V) & _).
  assert (Hf : Forall (fun x => x <> 0%Z) (firstn k row)) by (rewrite <- (firstn_skipn k row) in H; apply Forall_app in H; apply H).
  pose proof (full_byte (firstn k row) j Hf ltac:(lia)) as O. assert (E' : nth 0 (firstn 6 (skipn j (pack (firstn k row)))) 0%N = 254%N) by (destruct V; reflexivity).
  rewrite nth_firstn, nth_skipn in E' by lia. rewrite Nat.add_0_r in E'. rewrite E' in O. discriminate.
Qed.

(** With empty structures the field statistics are never used. *)
Section Unused.
Variable FO : fops.
Notation F := (Float.F FO).
Variables (fpack : F -> res N) (erf : F -> F) (kl : list F -> list F -> F).
Context {D : Type} (parser : bytes -> res D) (info : list Z -> res bytes) {X : Type}.
Lemma forced_none n m : forced_wrong FO (repeat None n) (repeat None m) = [].
Proof.
  unfold forced_wrong, flatnonzero. assert (E : map (fun xy : option F * option F => (at_most FO (fz FO 0) (fst xy) && equals FO (fz FO 0) (snd xy))%bool) (combine (repeat None n) (repeat None m)) = repeat false (Nat.min n m)).
  { revert m. induction n as [|n IH]; intros [|m]; [reflexivity..|]. cbn [repeat combine map Nat.min]. rewrite IH. reflexivity. }
  rewrite E. generalize (Nat.min n m). clear. intros k. generalize 0. rewrite repeat_length. induction k as [|k IH]; intros b; [reflexivity|]. cbn. apply IH.
Qed.
Lemma rectify_empty c scale obs : rc_learning c = false -> exists r, forall m, rectify FO fpack erf parser info c scale (forced_wrong FO) m (Some []) obs = (do! p <- r in Ok (m, p)).
Proof.
  intros Hl. exists (do! (_, p) <- rectify FO fpack erf parser info c scale (forced_wrong FO) (bm_init FO [] None) (Some []) obs in Ok p). intros m.
  unfold rectify. cbn [predict buf_length bind unpack_structure fold_res fst unpack_values predict_loop length repeat]. rewrite forced_none. unfold factor_of. rewrite Hl. cbn [force].
  destruct (fields_where FO (above FO _) []) as [gf|]; [cbn [bind]|reflexivity]. destruct (fields_where FO (below FO _) []) as [bf|]; [cbn [bind]|reflexivity].
  destruct (scale _ _ _ _ _) as [[[g b] l]|]; [cbn [bind]|reflexivity]. destruct (confirm _ _ _ _ _ _) as [[l1 v]|]; [cbn [bind]|reflexivity].
  destruct (pad_valid v _); reflexivity.
Qed.
(** States that differ in the statistics only. *)
Definition alike (s1 s2 : md_state FO) : Prop := md_structs s1 = md_structs s2 /\ md_running s1 = md_running s2 /\ md_classifier s1 = md_classifier s2.
Definition blank (s : md_state FO) : Prop := Forall (fun st => st = Some []) (md_structs s).
Lemma index_z_blank (l : list (option structure)) i : Forall (fun st => st = Some []) l -> index_z l i = Ok (Some []) \/ index_z l i = Err IndexError.
Proof.
  intros H. unfold index_z. destruct (_ || _)%bool; [right; reflexivity|]. destruct (nth_error l _) as [x|] eqn:E; [left|right; reflexivity]. rewrite Forall_forall in H. rewrite (H x (nth_error_In _ _ E)). reflexivity.
Qed.
Variable c : md_conf FO.
Hypothesis learned : rc_learning (md_rect c) = false.
Lemma md_label_alike s1 s2 bits : alike s1 s2 -> blank s1 -> alike (fst (md_label FO kl c s1 bits)) (fst (md_label FO kl c s2 bits)) /\ blank (fst (md_label FO kl c s1 bits)) /\ snd (md_label FO kl c s1 bits) = snd (md_label FO kl c s2 bits).
Proof.
  intros (A1 & A2 & A3) B. unfold md_label. rewrite A2, A3. destruct (Nat.ltb 1 (md_clusters c)); [|cbn [fst snd]; unfold alike; auto]. destruct (md_cluster c); [|cbn [fst snd]; unfold alike; auto].
  destruct (take bits (md_idx c)); [|cbn [fst snd]; unfold alike; auto]. destruct (classify _ _ _ _); cbn [fst snd]; unfold alike; auto.
Qed.
Lemma md_update_fixed (ldpc : list F -> res (list Z * list F * bool * Z * X)) s llr label bits : md_update FO parser info c ldpc s llr label bits = (s, ldpc llr).
Proof. unfold md_update. rewrite learned. destruct (ldpc llr) as [[[[[e so] ok] it] x]|]; reflexivity. Qed.
Lemma md_loop_alike (ldpc : list F -> res (list Z * list F * bool * Z * X)) llr bits : forall rounds s1 s2 input total last, alike s1 s2 -> blank s1 ->
  let r1 := md_loop FO fpack erf kl parser info c ldpc rounds llr bits s1 input total last in let r2 := md_loop FO fpack erf kl parser info c ldpc rounds llr bits s2 input total last in
  alike (fst r1) (fst r2) /\ blank (fst r1) /\ snd r1 = snd r2.
Proof.
  induction rounds as [|k IH]; intros s1 s2 input total last A B; cbv zeta; cbn [md_loop]; [cbn [fst snd]; auto|].
  destruct (md_label_alike s1 s2 bits A B) as (A' & B' & E). destruct (md_label FO kl c s1 bits) as [t1 l1]. destruct (md_label FO kl c s2 bits) as [t2 l2]. cbn [fst snd] in A', B', E. subst l2.
  destruct l1 as [label|x]; [|cbn [fst snd]; auto]. destruct (label <? 0)%Z; [rewrite !md_update_fixed; cbn [fst snd]; auto|].
  assert (P : exists r, (exists r', r = r') /\ md_predict FO fpack erf parser info c t1 input label = (t1, r) /\ md_predict FO fpack erf parser info c t2 input label = (t2, r)).
  { unfold md_predict. rewrite <- (proj1 A'). destruct (index_z_blank (md_structs t1) label B') as [-> | -> ]; cbn [bind]; [|eexists; eauto].
    destruct (rectify_empty (md_rect c) (scale_plain FO) input learned) as [r R]. rewrite !R. destruct t1 as [x1 y1 z1 w1], t2 as [x2 y2 z2 w2]. destruct A' as (A1 & A2 & A3). cbn [md_structs md_running md_classifier md_model] in *.
    destruct r as [p|]; cbn [bind]; eexists; (split; [eauto|]); split; reflexivity || (rewrite A1; reflexivity). }
  destruct P as (r & _ & -> & -> ). destruct r as [p|x]; [|cbn [fst snd]; auto]. rewrite !md_update_fixed. destruct (ldpc (pr_llr p)) as [[[[[e so] ok] it] x]|x]; [|cbn [fst snd]; auto].
  destruct ok; [cbn [fst snd]; auto|]. apply IH; assumption.
Qed.
Lemma md_informed_alike (ldpc : list F -> res (list Z * list F * bool * Z * X)) s1 s2 llr e : md_debug c = false -> alike s1 s2 -> blank s1 ->
  match md_informed FO fpack erf kl parser info c ldpc s1 llr e, md_informed FO fpack erf kl parser info c ldpc s2 llr e with
  | Ok (a1, t1), Ok (a2, t2) => a1 = a2 /\ alike t1 t2 /\ blank t1
  | Err x1, Err x2 => x1 = x2
  | _, _ => False
  end.
Proof.
  intros Hd A B. unfold md_informed, md_decode. rewrite Hd. destruct (md_loop_alike ldpc llr (hard FO llr) (md_rounds c) s1 s2 llr 0%Z None A B) as (A' & B' & E).
  destruct (md_loop _ _ _ _ _ _ _ _ _ _ _ s1 _ _ _) as [t1 r1]. destruct (md_loop _ _ _ _ _ _ _ _ _ _ _ s2 _ _ _) as [t2 r2]. cbn [fst snd] in *. subst r2.
  destruct r1 as [[a|p a label]|x]; cbn [bind]; [destruct a as [[[[[[[[[[? ?] ?] ?] ?] ?] ?] ?] ?] ?] ?]; auto|destruct a as [[[[? ?] ?] ?] ?]; auto|reflexivity].
Qed.
End Unused.

(** Runs in related states. *)
Section Related.
Variable FO : fops.
Notation F := (Float.F FO).
Context {S T : Type} (ldpc : list F -> res answer) (tell : bool -> list Z -> T) (columns : nat) (aided : S -> list F -> T -> res (answer * S)) (R : S -> S -> Prop).
Hypothesis step : forall s1 s2 r e, R s1 s2 -> match aided s1 r e, aided s2 r e with Ok (a1, t1), Ok (a2, t2) => a1 = a2 /\ R t1 t2 | Err x1, Err x2 => x1 = x2 | _, _ => False end.
Lemma loop_related tx : forall l er la aa s1 s2, R s1 s2 ->
  match fold_res (inf_step FO ldpc aided tell tx) l (er, la, aa, s1), fold_res (inf_step FO ldpc aided tell tx) l (er, la, aa, s2) with
  | Ok (er1, la1, aa1, _), Ok (er2, la2, aa2, _) => er1 = er2 /\ la1 = la2 /\ aa1 = aa2
  | Err x1, Err x2 => x1 = x2
  | _, _ => False
  end.
Proof.
  induction l as [|[i r] l IH]; intros er la aa s1 s2 H; cbn [fold_res]; [auto|]. set (rest := fold_res (inf_step FO ldpc aided tell tx) l) in *. unfold inf_step. cbn [fst snd].
  destruct (ldpc r); [cbn [bind]|cbn [bind]; reflexivity]. destruct (index tx i) as [row|]; [cbn [bind]|cbn [bind]; reflexivity]. destruct (index row 0) as [x|]; [cbn [bind]|cbn [bind]; reflexivity]. cbv zeta.
  destruct (distance _ _ row) eqn:Ed; [cbn [bind]|cbn [bind]; reflexivity]. set (e := tell _ _). pose proof (step s1 s2 r e H) as Q.
  destruct (aided s1 r e) as [[a1 t1]|], (aided s2 r e) as [[a2 t2]|]; try contradiction; [|cbn [bind]; exact Q]. destruct Q as [-> Q]. cbn [bind].
  destruct (distance _ a2 row); [cbn [bind]|cbn [bind]; reflexivity]. apply IH. exact Q.
Qed.
Lemma run_related n k tx rx s1 s2 : R s1 s2 -> run_informed FO ldpc aided tell columns n k tx rx s1 = run_informed FO ldpc aided tell columns n k tx rx s2.
Proof.
  intros H. unfold run_informed. change (fun st ir => _) with (inf_step FO ldpc aided tell tx). pose proof (loop_related tx (combine (seq 0 (length rx)) rx) [] [] [] s1 s2 H) as Q.
  destruct (fold_res _ _ ([], [], [], s1)) as [[[[? ?] ?] ?]|], (fold_res _ _ ([], [], [], s2)) as [[[[? ?] ?] ?]|]; try contradiction; [|cbn [bind]; congruence].
  destruct Q as (-> & -> & -> ). reflexivity.
Qed.
End Related.
