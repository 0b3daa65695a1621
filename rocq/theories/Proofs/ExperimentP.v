(** Lemmas about the runs on experimental data. *)
From Coq Require Import List Arith NArith ZArith Bool Lia ZifyBool ZifyNat.
From Verif.Model Require Import Py Float InfoTheory Clustering BitOps DecoderBase Simulation.
From Verif.Spec Require Import SimulationSpec.
From Verif.Proofs Require Import Base SimulationP.
Import ListNotations.

Section Exp.
Variable FO : fops.
Notation F := (Float.F FO).
Context {S : Type} (ldpc : list F -> res answer) (aided : S -> list F -> res (answer * S)).

Definition error_entries (t : list Z) (r : list F) : list Z :=
  if is_known t then map (fun b : bool => if b then 1%Z else 0%Z) (mask_row t (hard FO r)) else map (fun _ => 2%Z) r.

Lemma sent_first n t : 0 < n -> sent_row n t -> exists x, index t 0 = Ok x /\ (x <? 2)%Z = is_known t /\ nth 0 t 0%Z = x.
Proof.
  intros Hn H. destruct t as [|x t]; [destruct H as [[H _]|[H _]]; cbn in H; lia|]. exists x. split; [reflexivity|]. split; [|reflexivity]. unfold is_known. cbn [nth].
  destruct H as [[_ H]|[_ H]].
  - inversion H as [|? ? B]; subst. destruct B as [-> | -> ]; reflexivity.
  - cbn in H. rewrite H. reflexivity.
Qed.
Lemma sent_known n t : sent_row n t -> is_known t = true -> word n t.
Proof. intros [W|[_ H]] K; [exact W|]. unfold is_known in K. rewrite H in K. discriminate. Qed.

Definition jrows (sent : list (list Z)) (l : list answer) : list (answer * Z) := combine l (judged sent l).
Lemma jrows_cons t sent a l : jrows (t :: sent) (a :: l) = (a, if is_known t then Z.of_nat (length (differences (a_estimate a) t)) else (-1)%Z) :: jrows sent l.
Proof. reflexivity. Qed.
Lemma distance_known n t a : sent_row n t -> word n (a_estimate a) -> distance (is_known t) a t = Ok (if is_known t then Z.of_nat (length (differences (a_estimate a) t)) else (-1)%Z).
Proof. intros H W. unfold distance. destruct (is_known t) eqn:K; [|reflexivity]. rewrite (hamming_words n) by (auto; eapply sent_known; eassumption). reflexivity. Qed.

Lemma hard_word n (r : list F) : length r = n -> word n (hard FO r).
Proof.
  intros <-. split; [unfold hard; apply map_length|]. unfold hard. apply Forall_map, Forall_forall. intros x _. destruct (flt FO x (fz FO 0)); [right|left]; reflexivity.
Qed.
Lemma entries_zip t (h : list Z) : zip_with (fun a b => if (a =? b)%Z then 0%Z else 1%Z) t h = map (fun b : bool => if b then 1%Z else 0%Z) (mask_row t h).
Proof.
  unfold mask_row, zip_with. rewrite map_map. apply map_ext. intros [a b]. cbn [fst snd]. destruct (Z.eqb_spec a b) as [-> |N]; [rewrite Z.lxor_nilpotent; reflexivity|].
  destruct (Z.eqb_spec (Z.lxor a b) 0) as [E|E]; [apply Z.lxor_eq in E; contradiction|reflexivity].
Qed.

Definition exp_step (tx : list (list Z)) : list (list Z) * list (answer * Z) * list (answer * Z) * S -> nat * list F -> res (list (list Z) * list (answer * Z) * list (answer * Z) * S) :=
  fun st ir => let '(errors, l, a, s) := st in
      do! d <- ldpc (snd ir) in
      do! row <- index tx (fst ir) in
      do! first <- index row 0 in
      let known := (first <? 2)%Z in
      let er := if known then zip_with (fun t h => if (t =? h)%Z then 0%Z else 1%Z) row (hard FO (snd ir)) else map (fun _ => 2%Z) (snd ir) in
      do! h <- distance known d row in
      do! (e, s) <- aided s (snd ir) in
      do! g <- distance known e row in
      Ok (errors ++ [er], l ++ [(d, h)], a ++ [(e, g)], s).

Lemma exp_loop n : 0 < n -> forall tx pre rx la aa s e0 l0 a0,
  Forall (sent_row n) tx -> length rx = length tx -> Forall2 (fun x a => ldpc x = Ok a) rx la -> feeds aided s rx aa ->
  Forall (fun a => word n (a_estimate a)) la -> Forall (fun a => word n (a_estimate a)) aa ->
  exists s', fold_res (exp_step (pre ++ tx)) (combine (seq (length pre) (length rx)) rx) (e0, l0, a0, s) =
    Ok (e0 ++ zip_with error_entries tx rx, l0 ++ jrows tx la, a0 ++ jrows tx aa, s').
Proof.
  intros Hn. induction tx as [|t tx IH]; intros pre rx la aa s e0 l0 a0 Wt Lr Fl Fa Wl Wa.
  - destruct rx; [|discriminate]. inversion Fl; subst. inversion Fa; subst. exists s. cbn. rewrite !app_nil_r. reflexivity.
  - destruct rx as [|r rx]; [discriminate|]. inversion Fl as [|? a ? la' Ha Fl']; subst. inversion Fa as [|? ? e s1 ? aa' He Fa']; subst.
    inversion Wt as [|? ? Ht Wt']; subst. inversion Wl; subst. inversion Wa; subst. cbn [length seq combine fold_res]. unfold exp_step at 1. cbn [fst snd].
    rewrite Ha. cbn [bind]. destruct (sent_first n t Hn Ht) as (x & Ex & Kx & _).
    assert (Ei : index (pre ++ t :: tx) (length pre) = Ok t) by (unfold index; rewrite nth_error_app2, Nat.sub_diag by lia; reflexivity).
    rewrite Ei. cbn [bind]. rewrite Ex. cbn [bind]. cbv zeta. rewrite Kx. rewrite (distance_known n) by assumption. cbn [bind]. rewrite He. cbn [bind]. rewrite (distance_known n) by assumption. cbn [bind].
    replace (pre ++ t :: tx) with ((pre ++ [t]) ++ tx) by (rewrite <- app_assoc; reflexivity).
    replace (Datatypes.S (length pre)) with (length (pre ++ [t])) by (rewrite app_length; cbn; lia).
    edestruct (IH (pre ++ [t]) rx la' aa' s1) as [s' E]; [assumption|cbn in Lr; lia|assumption..|]. exists s'. rewrite E, !jrows_cons, <- !app_assoc. cbn [app].
    replace (zip_with error_entries (t :: tx) (r :: rx)) with (error_entries t r :: zip_with error_entries tx rx) by reflexivity.
    unfold error_entries at 2. rewrite entries_zip. reflexivity.
Qed.

Lemma jrows_fst sent l : length l = length sent -> map fst (jrows sent l) = l.
Proof.
  unfold jrows, judged. revert sent. induction l as [|a l IH]; intros [|t sent] H; try discriminate; [reflexivity|]. cbn [combine map fst snd]. f_equal. apply IH. cbn in H. lia.
Qed.
Lemma jrows_snd sent l : length l = length sent -> map snd (jrows sent l) = judged sent l.
Proof.
  unfold jrows, judged. revert sent. induction l as [|a l IH]; intros [|t sent] H; try discriminate; [reflexivity|]. cbn [combine map fst snd]. f_equal. apply IH. cbn in H. lia.
Qed.
Lemma jrows_claims sent l : length l = length sent -> count_if (fun r => a_success (fst r)) (jrows sent l) = claims l.
Proof. intros H. rewrite count_if_filter. unfold claims. rewrite <- (jrows_fst sent l H) at 2. rewrite filter_map_length. reflexivity. Qed.
Lemma jrows_known sent l : length l = length sent -> sum_z (filter (fun h => (0 <=? h)%Z) (map snd (jrows sent l))) = Z.of_nat (known_wrong sent l).
Proof.
  intros H. rewrite (jrows_snd sent l H). clear H. unfold judged, known_wrong. induction (combine sent l) as [|[t a] c IH]; [reflexivity|]. cbn [map filter fst snd].
  destruct (is_known t).
  - replace (0 <=? Z.of_nat (length (differences (a_estimate a) t)))%Z with true by (symmetry; apply Z.leb_le; lia). cbn [map sum_z fold_right total]. unfold sum_z, total in IH. cbn [fst snd]. lia.
  - cbn. exact IH.
Qed.
Lemma known_bad n t : 0 < n -> sent_row n t -> match t with [] => false | x :: _ => (x =? 2)%Z end = negb (is_known t).
Proof. intros Hn H. destruct t as [|x t]; [destruct H as [[H _]|[H _]]; cbn in H; lia|]. unfold is_known. cbn [nth]. rewrite negb_involutive. reflexivity. Qed.

Lemma sum_mask l : sum_z (map (fun b : bool => if b then 1%Z else 0%Z) l) = Z.of_nat (count_if (fun b => b) l).
Proof. rewrite count_if_filter. induction l as [|b l IH]; [reflexivity|]. cbn [map sum_z fold_right filter]. unfold sum_z in IH. rewrite IH. destruct b; cbn [length]; lia. Qed.
End Exp.
