(** Lemmas about the training of stored models. *)
From Coq Require Import String Ascii List ZArith NArith Arith Bool Lia.
From Verif.Model Require Import Py Float Dialect Mavlink Segmentation StatModels DecoderBase TrainModels.
From Verif.Spec Require Import Bytes Bits Header Frame Segment Describe RealOps Stats TrainSpec.
From Verif.Proofs Require Import Base BitOpsP ValuesP BufModelP StatTop EntropyDecP.
Import ListNotations.

Lemma on_known r : row_known r -> forall p, p < length r -> Z.eqb 1 (nth p r 0%Z) = negb (Z.eqb (nth p r 0%Z) 0).
Proof. intros K p Hp. unfold row_known in K. rewrite Forall_forall in K. destruct (K (nth p r 0%Z) (nth_In _ _ Hp)) as [-> | -> ]; reflexivity. Qed.
Lemma nth_firstn_lt {A} (l : list A) n p d : p < n -> nth p (firstn n l) d = nth p l d.
Proof. revert l p. induction n as [|n IH]; intros [|x l] [|p] H; cbn; auto; try lia. apply IH. lia. Qed.
Lemma spells_holds r b : row_known r -> 984 <= length r -> spells r b -> holds (BBits (map (Z.eqb 1) (firstn 984 r))) b.
Proof.
  intros K L (B & Lb & S). constructor; [exact B|rewrite map_length, firstn_length, Lb; lia|]. rewrite Lb. intros p Hp. change (8 * 123) with 984 in Hp.
  rewrite (nth_indep _ false (Z.eqb 1 0)) by (rewrite map_length, firstn_length; lia). rewrite map_nth, nth_firstn_lt by exact Hp. rewrite S by exact Hp. apply on_known; [exact K|lia].
Qed.
Lemma pack_spelled r b : 984 <= length r -> spells r b -> pack (firstn 984 r) = b.
Proof.
  intros L (B & Lb & S). destruct (EntropyDecP.pack_bits (firstn 984 r)) as (pad & Hp & E). set (c := pack (firstn 984 r)) in *.
  assert (C : is_bytes c) by apply packbits_bytes.
  assert (Lc : 8 * length c = 984 + pad). { apply (f_equal (@length bool)) in E. change (flat_map byte_bits c) with (bytes_bits c) in E. rewrite length_bytes_bits, app_length, map_length, firstn_length, repeat_length in E. lia. }
  assert (pad = 0) by lia. subst pad. cbn [repeat] in E. rewrite app_nil_r in E.
  rewrite <- (pack_bits_bytes c C 984) by lia. rewrite <- (pack_bits_bytes b B 984) by lia. f_equal. change (bytes_bits c) with (flat_map byte_bits c). rewrite E.
  apply nth_ext with (d := false) (d' := false); [rewrite map_length, firstn_length, length_bytes_bits; lia|]. intros p H. rewrite map_length, firstn_length in H.
  rewrite nth_bytes_bits by lia. rewrite S by lia. rewrite (nth_indep _ false (on 0)) by (rewrite map_length, firstn_length; lia). rewrite map_nth, nth_firstn_lt by lia. reflexivity.
Qed.
Lemma spells_exists r : 984 <= length r -> exists b, spells r b.
Proof.
  intros L. destruct (EntropyDecP.pack_bits (firstn 984 r)) as (pad & Hp & E). exists (pack (firstn 984 r)). set (c := pack (firstn 984 r)) in *.
  assert (Lc : 8 * length c = 984 + pad). { apply (f_equal (@length bool)) in E. change (flat_map byte_bits c) with (bytes_bits c) in E. rewrite length_bytes_bits, app_length, map_length, firstn_length, repeat_length in E. lia. }
  split; [apply packbits_bytes|]. split; [lia|]. intros p H. rewrite <- nth_bytes_bits by lia. change (bytes_bits c) with (flat_map byte_bits c). rewrite E. rewrite app_nth1 by (rewrite map_length, firstn_length; lia).
  rewrite (nth_indep _ false (on 0)) by (rewrite map_length, firstn_length; lia). rewrite map_nth, nth_firstn_lt by lia. reflexivity.
Qed.
Lemma marker_byte r : row_known r -> 984 <= length r -> exists b, index (pack (firstn 8 r)) 0 = Ok b /\ N.eqb b 254 = starts_frame r.
Proof.
  intros K L. do 8 (destruct r as [|? r]; [cbn in L; lia|]). unfold row_known in K. repeat match goal with K : Forall _ (_ :: _) |- _ => inversion K; clear K; subst end. cbn [firstn]. eexists. split; [reflexivity|]. unfold starts_frame. cbn [firstn].
  repeat match goal with H : _ = 0%Z \/ _ = 1%Z |- _ => destruct H; subst end; vm_compute; reflexivity.
Qed.

Definition is_known (r : list Z) : bool := match r with x :: _ => Z.ltb x 2 | [] => false end.
Lemma is_known_spec r : table_row r -> (is_known r = true <-> row_known r) /\ (is_known r = false <-> row_unknown r).
Proof.
  intros [L [K|K]]; (destruct r as [|x r]; [cbn in L; lia|]); inversion K as [|? ? Hx Hr]; subst.
  - assert (E : is_known (x :: r) = true) by (destruct Hx; subst; reflexivity). rewrite E. split; [tauto|]. split; [discriminate|]. intros U. inversion U; subst. destruct Hx; discriminate.
  - cbn. split; [split; [discriminate|intros U; inversion U as [|? ? H]; destruct H; discriminate]|tauto].
Qed.
Lemma unknown_start r : row_unknown r -> 984 <= length r -> starts_frame r = false.
Proof. intros U L. destruct r as [|x r]; [cbn in L; lia|]. inversion U; subst. unfold starts_frame. destruct (list_eq_dec _ _ _) as [E|E]; [cbn in E; discriminate|reflexivity]. Qed.

Definition bads (off : nat) (rows : list (list Z)) : list nat :=
  map fst (filter (fun ir => is_known (snd ir) && negb (starts_frame (snd ir)))%bool (combine (seq off (length rows)) rows)).
Section Loop.
Variable FO : fops.
Variable fpack : F FO -> res N.
Variable erf : F FO -> F FO.
Lemma reachable_app os m e o : reachable FO fpack erf None os m -> outcome e o -> reachable FO fpack erf None (os ++ [o]) (bm_event_step FO fpack erf m e).
Proof. intros (h & Fh & ->) O. exists (h ++ [e]). split; [apply Forall2_app; [exact Fh|constructor; [exact O|constructor]]|]. unfold bm_run. rewrite fold_left_app. reflexivity. Qed.
Lemma train_loop s sl : Forall (plain_in 123) s -> layout s sl -> forall rows bs off m os bad,
  reachable FO fpack erf None os m -> Forall table_row rows -> Forall2 spells (filter starts_frame rows) bs ->
  exists m', fold_res (train_row FO s) (combine (seq off (length rows)) rows) (m, bad) = Ok (m', bad ++ bads off rows) /\
    reachable FO fpack erf None (os ++ map (fun b => Some (map (slot_sample b) sl)) bs) m'.
Proof.
  intros P Ly. induction rows as [|r rows IH]; intros bs off m os bad R T S.
  - inversion S; subst. exists m. cbn. rewrite !app_nil_r. split; [reflexivity|exact R].
  - inversion T as [|? ? Tr Ts]; subst. pose proof Tr as [L KU]. cbn [length seq combine fold_res]. unfold bads. cbn [length seq combine filter snd]. fold (bads (Datatypes.S off) rows).
    destruct (is_known_spec r Tr) as [Kt Kf]. assert (Hx : exists x t, r = x :: t) by (destruct r; [cbn in L; lia|eauto]). destruct Hx as (x & t & Er).
    unfold train_row at 1. cbn [fst snd]. replace (index r 0) with (Ok x) by (subst; reflexivity). cbn [bind]. assert (Ek : is_known r = Z.ltb x 2) by (subst; reflexivity). clear Er.
    destruct (Z.ltb x 2); rewrite Ek; cbn [andb].
    + apply Kt in Ek. destruct (marker_byte r Ek L) as (b & Eb & Es). rewrite Eb. cbn [bind]. rewrite Es. cbn [filter] in S. destruct (starts_frame r); cbn [negb].
      * inversion S as [|? b1 ? bs1 Sp S1]; subst. pose proof (spells_holds r b1 Ek L Sp) as Hh. destruct Sp as (Bb & Lb & Sb). assert (P1 : Forall (plain_in (length b1)) s) by (rewrite Lb; exact P).
        destruct (add_spec FO fpack erf None os m (BBits (map (Z.eqb 1) (firstn 984 r))) s I R) as (A & _). specialize (A b1 Hh P1).
        assert (R1 : reachable FO fpack erf None (os ++ [Some (map (slot_sample b1) sl)]) (fst (add_buffer FO m (BBits (map (Z.eqb 1) (firstn 984 r))) s))).
        { apply (reachable_app os m (VAdd (BBits (map (Z.eqb 1) (firstn 984 r))) s) _ R). econstructor; eauto. }
        destruct (add_buffer FO m (BBits (map (Z.eqb 1) (firstn 984 r))) s) as [m1 u]. cbn [fst snd] in *. subst u. cbn [bind].
        destruct (IH bs1 (Datatypes.S off) m1 _ bad R1 Ts S1) as (m' & E & R2). exists m'. split; [exact E|]. rewrite <- app_assoc in R2. exact R2.
      * cbn [bind map fst]. destruct (IH bs (Datatypes.S off) m os (bad ++ [off]) R Ts S) as (m' & E & R2). exists m'. rewrite <- app_assoc in E. split; [exact E|exact R2].
    + cbn [bind]. apply Kf in Ek. cbn [filter] in S. rewrite (unknown_start r Ek L) in S. apply (IH bs (Datatypes.S off) m os bad R Ts S).
Qed.
Lemma train_loop_bad s : ~ Forall (plain_in 123) s -> (forall k i, In (k, i) s -> exists c, is_msg i c) -> forall rows off m os bad,
  reachable FO fpack erf None os m -> Forall table_row rows -> filter starts_frame rows <> [] ->
  fold_res (train_row FO s) (combine (seq off (length rows)) rows) (m, bad) = Err StructError.
Proof.
  intros P Ids. induction rows as [|r rows IH]; intros off m os bad R T N; [contradiction N; reflexivity|].
  inversion T as [|? ? Tr Ts]; subst. pose proof Tr as [L KU]. cbn [length seq combine fold_res].
  destruct (is_known_spec r Tr) as [Kt Kf]. assert (Hx : exists x t, r = x :: t) by (destruct r; [cbn in L; lia|eauto]). destruct Hx as (x & t & Er).
  unfold train_row at 1. cbn [fst snd]. replace (index r 0) with (Ok x) by (subst; reflexivity). cbn [bind]. assert (Ek : is_known r = Z.ltb x 2) by (subst; reflexivity). clear Er.
  cbn [filter] in N. destruct (Z.ltb x 2).
  - apply Kt in Ek. destruct (marker_byte r Ek L) as (b & Eb & Es). rewrite Eb. cbn [bind]. rewrite Es. destruct (starts_frame r) eqn:Sf; cbn [negb].
    + destruct (spells_exists r L) as (b1 & Sp). pose proof (spells_holds r b1 Ek L Sp) as Hh. destruct Sp as (Bb & Lb & Sb).
      destruct (add_spec FO fpack erf None os m (BBits (map (Z.eqb 1) (firstn 984 r))) s I R) as (_ & A & _). destruct (A b1 Hh) as [A1 _]; [rewrite Lb; exact P|]. rewrite (A1 Ids). reflexivity.
    + cbn [bind]. apply (IH (Datatypes.S off) m os (bad ++ [off]) R Ts N).
  - cbn [bind]. apply Kf in Ek. rewrite (unknown_start r Ek L) in N. apply (IH (Datatypes.S off) m os bad R Ts N).
Qed.
End Loop.
Lemma recorded_map (sl : list slot) bs : recorded (map (fun b => Some (map (slot_sample b) sl)) bs) = flat_map (fun b => map (slot_sample b) sl) bs.
Proof. unfold recorded. induction bs as [|b bs IH]; [reflexivity|]. cbn [map flat_map]. rewrite IH. reflexivity. Qed.
Lemma accepted_map (sl : list slot) bs : accepted (map (fun b => Some (map (slot_sample b) sl)) bs) = length bs.
Proof. unfold accepted. induction bs as [|b bs IH]; [reflexivity|]. cbn [map filter length]. rewrite IH. reflexivity. Qed.
