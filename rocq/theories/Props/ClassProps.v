(** C49: the classifying entropy decoder. *)
From Coq Require Import List ZArith Arith Bool Lia Reals Lra.
From Verif.Model Require Import Py Float InfoTheory Clustering DecoderBase ClassDecoder.
From Verif.Spec Require Import RealOps Info Cluster Stats EmleSpec DecoderSpec WeightedSpec ClassSpec.
From Verif.Proofs Require Import Base RealP DecoderP EntropyDecP WeightedP ClassP.
From Verif.Props Require Import ClusterProps.
Import ListNotations.
Local Close Scope R_scope.

(** What is constructed: the positions of the model bits, one untaught model per cluster and a classifier with the default metrics. *)
Theorem c49_construct info model_length thr clip training n window center slope flip cluster method degree :
  let '(c, s) := cd_new Rops info model_length thr clip training n window center slope flip cluster None method degree in
  (count_occ Bool.bool_dec info true <= model_length -> cd_idx Rops c = seq 0 model_length) /\
  (model_length < count_occ Bool.bool_dec info true -> info_positions info model_length (cd_idx Rops c)) /\
  cd_models Rops s = repeat {| em_data := []; em_rows := []; em_cols := 0; em_entropy := [] |} n /\ cd_running Rops s = (-1)%Z /\ cd_n Rops c = n /\ (cd_cluster Rops c = true <-> cluster <> 0%Z) /\ cd_train Rops c = true /\
  cd_classifier Rops s = classifier_new training (Z.of_nat n) CLogLikelihood MHellinger WLinear.
Proof.
  cbn [cd_new cd_idx cd_models cd_running cd_n cd_cluster cd_train cd_classifier].
  assert (C : length (filter (fun b => b) info) = count_occ Bool.bool_dec info true).
  { induction info as [|b t IH]; [reflexivity|]. cbn [filter count_occ]. destruct b; destruct (Bool.bool_dec _ _); try congruence. cbn [length]. f_equal. exact IH. }
  unfold model_index'. rewrite C. split; [intro H; destruct (Nat.leb_spec (count_occ Bool.bool_dec info true) model_length); [reflexivity|lia]|]. split; [intro H; destruct (Nat.leb_spec (count_occ Bool.bool_dec info true) model_length); [lia|apply model_index_positions]|].
  repeat split; try reflexivity.
  - intros H Q. subst. discriminate.
  - intro H. destruct (Z.eqb_spec cluster 0); [contradiction|reflexivity].
Qed.
Print Assumptions c49_construct.

(** At most the model of the returned label changes; when the label is negative no model changes and the answer is the one of the LDPC
    decoder on the received word. *)
Theorem c49_isolated {X} kl c (d : ldpc_decoder Rops (X := X)) s word s' out : cd_decode Rops kl c d s word = (s', out) ->
  length (cd_models Rops s') = length (cd_models Rops s) /\
  match out with
  | Ok (e, llr, ok, x, ds, st, u) =>
      (forall v, Z.of_nat v <> u -> nth_error (cd_models Rops s') v = nth_error (cd_models Rops s) v) /\
      ((u < 0)%Z -> ds = ([], 0) /\ st = [] /\
         match d with
         | LogSpa _ f => f word = Ok (e, llr, ok, x)
         | Wbf _ f => f word None = Ok (e, ok, x) /\ llr = []
         | GalBf _ f => f (map sign_bit word) = Ok (e, ok, x) /\ llr = []
         end)
  | Err _ => exists u, forall v, v <> u -> nth_error (cd_models Rops s') v = nth_error (cd_models Rops s) v
  end.
Proof.
  intro E. assert (NS : forall (l : list (entropy_model Rops)) i x v, v <> i -> nth_error (set_nth l i x) v = nth_error l v).
  { clear. induction l as [|y l IH]; intros [|i] x [|v] H; cbn; auto; try lia. }
  destruct out as [[[[[[[e llr] ok] x] ds] st] u]|y].
  - destruct (decode_ok kl c d s word s' e llr ok x ds st u E) as (s1 & El & Rg & Neg & Pos). pose proof (label_models _ _ _ _ _ _ El) as Em. destruct (Z.lt_ge_cases u 0) as [Hu|Hu].
    + destruct (Neg Hu) as (-> & Ep & -> & ->). rewrite Em. split; [reflexivity|]. split; [reflexivity|]. intros _. split; [reflexivity|]. split; [reflexivity|]. destruct d as [f|f|f]; cbn [cd_plain] in Ep.
      * exact Ep.
      * apply bind_ok in Ep. destruct Ep as ([[e0 ok0] x0] & Ef & Q). inversion Q; subst. split; [exact Ef|reflexivity].
      * apply bind_ok in Ep. destruct Ep as ([[e0 ok0] x0] & Ef & Q). inversion Q; subst. rewrite hard_sign in Ef. split; [exact Ef|reflexivity].
    + destruct (Pos Hu) as (m & m' & _ & _ & _ & _ & -> & _). cbn [cd_models]. split; [apply length_set_nth|]. split; [|intro; lia]. intros v Hv. apply NS. lia.
  - assert (K : cd_models Rops s' = cd_models Rops s \/ exists u m', cd_models Rops s' = set_nth (cd_models Rops s) u m').
    { destruct (take (hard Rops word) (cd_idx Rops c)) as [bits|z] eqn:Et.
      - apply received_inv in Et. destruct Et as [_ Rg]. destruct (decode_state kl c d s word s' (Err y) E Rg) as (_ & _ & [Q|(u & m & m' & b & r & _ & _ & _ & _ & Q)]); [left; exact Q|right; eauto].
      - left. unfold cd_decode in E. change (F Rops) with R in *. rewrite Et in E. inversion E. reflexivity. }
    destruct K as [->|(u & m' & ->)]; [split; [reflexivity|exists 0; reflexivity]|]. rewrite length_set_nth. split; [reflexivity|]. exists u. intros v Hv. apply NS. exact Hv.
Qed.
Print Assumptions c49_isolated.

(** The labels: with a single cluster always 0; without clustering 0, 1, ..., n-1, 0, 1, ... over all calls, failed ones included; else the
    label that the classifier gives to the received model bits, having seen those of all earlier calls. *)
Theorem c49_labels {X} kl c s0 (calls : list (ldpc_decoder Rops (X := X) * list R)) s outs d word s' (a : cd_answer X) :
  cd_history kl c s0 calls = (s, outs) -> Forall (fun call => Forall (fun i => i < length (snd call)) (cd_idx Rops c)) calls ->
  cd_decode Rops kl c d s word = (s', Ok a) ->
  (cd_n Rops c <= 1 -> label_of a = 0%Z) /\
  (1 < cd_n Rops c -> cd_cluster Rops c = false -> cd_running Rops s0 = (-1)%Z -> label_of a = (Z.of_nat (length calls) mod Z.of_nat (cd_n Rops c))%Z) /\
  (1 < cd_n Rops c -> cd_cluster Rops c = true ->
     snd (classify Rops kl (after Rops kl (cd_classifier Rops s0) (map (fun call => received (cd_idx Rops c) (snd call)) calls)) (received (cd_idx Rops c) word)) = Ok (label_of a)).
Proof.
  intros Eh Rg E. destruct a as [[[[[[e llr] ok] x] ds] st] u]. cbn [label_of snd]. destruct (decode_ok kl c d s word s' e llr ok x ds st u E) as (s1 & El & _). unfold cd_label in El. split; [|split].
  - intro Hn. destruct (Nat.ltb_spec 1 (cd_n Rops c)); [lia|]. inversion El. reflexivity.
  - intros Hn Hc R0. destruct (history_classifier kl c s0 calls s outs Eh Rg Hn) as [_ H]. specialize (H Hc R0). destruct (Nat.ltb_spec 1 (cd_n Rops c)); [|lia]. rewrite Hc in El. inversion El as [[Q1 Q2]]. rewrite H. destruct calls as [|y q]; [reflexivity|].
    rewrite Zplus_mod_idemp_l. f_equal. lia.
  - intros Hn Hc. destruct (history_classifier kl c s0 calls s outs Eh Rg Hn) as [H _]. specialize (H Hc). destruct (Nat.ltb_spec 1 (cd_n Rops c)); [|lia]. rewrite Hc in El. rewrite <- H. change (F Rops) with R in *.
    destruct (classify Rops kl (cd_classifier Rops s) (received (cd_idx Rops c) word)) as [k r]. inversion El. reflexivity.
Qed.
Print Assumptions c49_labels.

(** The first [training - 1] buffers, if each holds both bit values, get label -1 (and so, by [c49_isolated], the plain answer and no
    effect on the models). *)
Theorem c49_training {X} kl c s0 (calls : list (ldpc_decoder Rops (X := X) * list R)) s outs d word s' (out : res (cd_answer X)) training :
  1 < cd_n Rops c -> cd_cluster Rops c = true -> cd_classifier Rops s0 = classifier_new training (Z.of_nat (cd_n Rops c)) CLogLikelihood MHellinger WLinear ->
  cd_history kl c s0 calls = (s, outs) -> Forall (fun w => Forall (fun i => i < length w) (cd_idx Rops c)) (map snd calls ++ [word]) ->
  Forall both_values (map (received (cd_idx Rops c)) (map snd calls ++ [word])) -> (Z.of_nat (length calls) + 1 < training)%Z ->
  cd_decode Rops kl c d s word = (s', out) ->
  (forall a, out = Ok a -> label_of a = (-1)%Z) /\ cd_models Rops s' = cd_models Rops s /\
  ((exists a, out = Ok a) <-> match d with LogSpa _ f => exists r, f word = Ok r | Wbf _ f => exists r, f word None = Ok r | GalBf _ f => exists r, f (map sign_bit word) = Ok r end).
Proof.
  intros Hn Hc K0 Eh Rg Bv Ht E. apply Forall_app in Rg. destruct Rg as [Rc Rw]. apply Forall_inv in Rw. rewrite Forall_map in Rc.
  destruct (history_classifier kl c s0 calls s outs Eh Rc Hn) as [Hk _]. specialize (Hk Hc). rewrite K0 in Hk.
  assert (Bl : forall w, bits_of_length (length (cd_idx Rops c)) (received (cd_idx Rops c) w)).
  { intro w. split; [unfold received, picked; apply map_length|]. unfold received, picked. apply Forall_forall. intros z Hz. apply in_map_iff in Hz. destruct Hz as (i & <- & _).
    destruct (Nat.lt_ge_cases i (length (map sign_bit w))) as [Q|Q]; [|rewrite nth_overflow by exact Q; left; reflexivity]. rewrite (nth_indep _ 0%Z (sign_bit 0%R)) by exact Q. rewrite map_nth. apply sign_is_bit. }
  rewrite map_app, map_map in Bv. cbn [map] in Bv.
  destruct (c36_training Rops kl (length (cd_idx Rops c)) training (Z.of_nat (cd_n Rops c)) CLogLikelihood MHellinger WLinear (map (fun call => received (cd_idx Rops c) (snd call)) calls) (received (cd_idx Rops c) word)) as [C _].
  { apply Forall_app. split; [|constructor; [apply Bl|constructor]]. apply Forall_forall. intros b Hb. apply in_map_iff in Hb. destruct Hb as (y & <- & _). apply Bl. }
  { exact Bv. } { rewrite app_length, map_length. cbn [length]. lia. }
  rewrite <- Hk in C.
  assert (El : cd_label Rops kl c s (received (cd_idx Rops c) word) = (CdState Rops (cd_models Rops s) (fst (classify Rops kl (cd_classifier Rops s) (received (cd_idx Rops c) word))) (cd_running Rops s), Ok (-1)%Z)).
  { unfold cd_label. destruct (Nat.ltb_spec 1 (cd_n Rops c)); [|lia]. rewrite Hc. destruct (classify Rops kl (cd_classifier Rops s) (received (cd_idx Rops c) word)) as [k r]. cbn [snd fst] in *. rewrite C. reflexivity. }
  unfold cd_decode in E. change (F Rops) with R in *. rewrite (received_take _ _ Rw) in E. rewrite El in E. cbn [Z.ltb Z.compare] in E. inversion E as [[Q1 Q2]]. clear E Q1.
  destruct d as [f|f|f]; cbn [cd_plain].
  - destruct (f word) as [[[[e l] o] x]|y]; cbn [bind]; (split; [intros a Qa; inversion Qa; reflexivity|]; split; [reflexivity|]; split; intros [z Qz]; inversion Qz; eauto).
  - change (F Rops) with R in *. destruct (f word None) as [[[e o] x]|y]; cbn [bind]; (split; [intros a Qa; inversion Qa; reflexivity|]; split; [reflexivity|]; split; intros [z Qz]; inversion Qz; eauto).
  - rewrite hard_sign. destruct (f (map sign_bit word)) as [[[e o] x]|y]; cbn [bind]; (split; [intros a Qa; inversion Qa; reflexivity|]; split; [reflexivity|]; split; intros [z Qz]; inversion Qz; eauto).
Qed.
Print Assumptions c49_training.

(** After any sequence of answered calls the model of cluster v stores the last [window] buffers that the calls labelled v taught it, and, if
    there are any, knows for each bit the share of ones among them, corrected for the channel. *)
Theorem c49_history {X} kl c s0 (calls : list (ldpc_decoder Rops (X := X) * list R)) s outs n : cd_flip Rops c <> (1 / 2)%R ->
  cd_train Rops c = true -> 1 <= cd_length Rops c -> length (cd_idx Rops c) = cd_length Rops c -> cd_models Rops s0 = repeat em_new n ->
  cd_history kl c s0 calls = (s, outs) -> Forall is_ok outs -> Forall (fun o => match o with Ok a => Forall is_bit (estimate_of a) | Err _ => True end) outs ->
  length (cd_models Rops s) = n /\
  forall v, v < n ->
    let h := lessons (cd_idx Rops c) (Z.of_nat v) (map snd calls) outs in let data := kept (cd_window Rops c) h in let m := nth v (cd_models Rops s) em_new in
    em_data m = data /\ (h = [] -> m = em_new) /\
    (h <> [] -> mixed data /\ knows m (map (fun i => unflipped (cd_flip Rops c) (share data 1 i)) (seq 0 (cd_length Rops c)))).
Proof.
  intros _ Ht Hn Hi M0 E Ok_ Bt. destruct (history_taught kl c s0 calls s outs n Ht Hn Hi M0 E Ok_ Bt) as (L & _ & T). split; [exact L|]. intros v Hv. apply (T v Hv).
Qed.
Print Assumptions c49_history.

(** No model ever stores more than [window] buffers. *)
Theorem c49_window {X} kl c s0 (calls : list (ldpc_decoder Rops (X := X) * list R)) s outs n w :
  cd_train Rops c = true -> 1 <= cd_length Rops c -> length (cd_idx Rops c) = cd_length Rops c -> cd_models Rops s0 = repeat em_new n -> cd_window Rops c = Some w ->
  cd_history kl c s0 calls = (s, outs) -> Forall is_ok outs -> Forall (fun o => match o with Ok a => Forall is_bit (estimate_of a) | Err _ => True end) outs ->
  Forall (fun m => length (em_data m) <= Z.to_nat w) (cd_models Rops s).
Proof.
  intros Ht Hn Hi M0 Hw E Ok_ Bt. destruct (history_taught kl c s0 calls s outs n Ht Hn Hi M0 E Ok_ Bt) as (L & _ & T). apply Forall_forall. intros m Hm. apply (In_nth _ _ em_new) in Hm. destruct Hm as (v & Hv & <-).
  destruct (T v ltac:(lia)) as (_ & D & _). rewrite D, kept_length, Hw. lia.
Qed.
Print Assumptions c49_window.

(** One answered call: the model of its label stores the lesson and is returned as distribution with its structural positions. *)
Theorem c49_answer {X} kl c (d : ldpc_decoder Rops (X := X)) s word s' e llr ok x ds st u h m : cd_flip Rops c <> (1 / 2)%R ->
  cd_train Rops c = true -> 1 <= cd_length Rops c -> length (cd_idx Rops c) = cd_length Rops c ->
  cd_decode Rops kl c d s word = (s', Ok (e, llr, ok, x, ds, st, Z.of_nat u)) -> Forall is_bit e ->
  nth_error (cd_models Rops s) u = Some m -> em_data m = kept (cd_window Rops c) h -> Forall (bits_of_length (cd_length Rops c)) h ->
  let data := kept (cd_window Rops c) (h ++ [picked (if ok then e else map sign_bit word) (cd_idx Rops c)]) in
  let ps := map (fun i => unflipped (cd_flip Rops c) (share data 1 i)) (seq 0 (cd_length Rops c)) in
  mixed data /\ ds = (map (fun p => [1 - p; p]%R) ps, 2) /\
  (forall p, In p st <-> exists j, structural (cd_threshold Rops c) ps j /\ nth j (cd_idx Rops c) 0 = p) /\
  exists m', nth_error (cd_models Rops s') u = Some m' /\ em_data m' = data /\ knows m' ps.
Proof.
  intros _ Ht Hn Hi E Be Em D Hb. destruct (decode_ok kl c d s word s' e llr ok x ds st (Z.of_nat u) E) as (s1 & _ & Rg & _ & Pos). destruct (Pos ltac:(lia)) as (m1 & m' & Em1 & _ & Re & Eu & Es & Ed & Ek). rewrite Nat2Z.id in *. rewrite Em in Em1. inversion Em1; subst m1.
  cbn zeta. set (ln := picked (if ok then e else map sign_bit word) (cd_idx Rops c)).
  assert (Eln : (if ok then picked e (cd_idx Rops c) else received (cd_idx Rops c) word) = ln) by (unfold ln, received; destruct ok; reflexivity). rewrite Eln in Eu.
  assert (Bl : bits_of_length (cd_length Rops c) ln).
  { unfold ln. rewrite <- Hi. apply picked_bits; destruct ok; auto.
    - apply Forall_forall. intros z Hz. apply in_map_iff in Hz. destruct Hz as (y & <- & _). apply sign_is_bit.
    - rewrite map_length. exact Rg. }
  assert (Bn : Forall (bits_of_length (cd_length Rops c)) (h ++ [ln])) by (apply Forall_app; split; [exact Hb|constructor; [exact Bl|constructor]]).
  destruct (learn_corrected_spec (cd_window Rops c) (cd_length Rops c) (cd_flip Rops c) m h ln Hn Bn D) as [M1 M2]. set (data := kept (cd_window Rops c) (h ++ [ln])) in *.
  assert (Mx : mixed data).
  { unfold mixed. destruct (in_dec Z.eq_dec 0%Z (concat data)) as [I0|N0]; [destruct (in_dec Z.eq_dec 1%Z (concat data)) as [I1|N1]; [auto|]|]; exfalso; unfold cd_update in Eu; rewrite Ht, M2 in Eu by (unfold mixed; tauto); discriminate. }
  split; [exact Mx|]. destruct (M1 Mx) as (m2 & E2 & D2 & K2). unfold cd_update in Eu. rewrite Ht in Eu. change (F Rops) with R in *. rewrite E2 in Eu. inversion Eu; subst m2.
  set (ps := map (fun i => unflipped (cd_flip Rops c) (share data 1 i)) (seq 0 (cd_length Rops c))) in *. destruct K2 as (C & Rw & He). change (F Rops) with R in *. rewrite Ed, C, Rw. split; [reflexivity|].
  assert (Lp : length ps = length (cd_idx Rops c)) by (unfold ps; rewrite map_length, seq_length; lia).
  assert (H2 : holds m' ps) by (right; split; [unfold ps; destruct (cd_length Rops c); [lia|discriminate]|repeat split; assumption]).
  split.
  - rewrite (mask_holds c m' ps (cd_threshold Rops c) H2 (or_intror Lp)) in Ek. inversion Ek; subst st. intro p. rewrite (sel_in _ _ p 0) by (unfold low_mask; rewrite map_length; exact Lp). split.
    + intros (j & Hj & Lj & Ej). exists j. split; [apply low_mask_nth; exact Lj|exact Ej].
    + intros (j & St & Ej). exists j. split; [destruct St; lia|]. split; [apply low_mask_nth; exact St|exact Ej].
  - exists m'. split; [|split; [exact D2|repeat split; assumption]]. rewrite Es. cbn [cd_models]. apply nth_error_nth_iff with (d := em_new). rewrite length_set_nth, Base.nth_set_nth, Nat.eqb_refl.
    apply nth_error_nth_iff with (d := em_new) in Em. destruct Em as [Lu _]. destruct (Nat.ltb_spec u (length (cd_models Rops s))); [|lia]. split; [exact Lu|reflexivity].
Qed.
Print Assumptions c49_answer.

(** What a soft LDPC decoder is called with, for a label that is not negative: the received word, where the model of that label is sure of a
    bit plus the weighted log ratio, all limited to the largest received value times the clipping factor. *)
Theorem c49_soft {X} kl c (f : list R -> res (list Z * list R * bool * X)) s word s' e llr ok x ds st u m ps mx :
  cd_decode Rops kl c (LogSpa Rops f) s word = (s', Ok (e, llr, ok, x, ds, st, Z.of_nat u)) -> nth_error (cd_models Rops s) u = Some m ->
  holds m ps -> (ps = [] \/ length ps = length (cd_idx Rops c)) -> Forall (fun b => b <> []) (em_data m) -> NoDup (cd_idx Rops c) -> largest word mx ->
  exists sum, helped (cd_idx Rops c) (cd_threshold Rops c) ps (model_weight c m) word sum /\ f (map (limited (cd_clip Rops c * mx)) sum) = Ok (e, llr, ok, x).
Proof.
  intros E Em K L Nd N Mx. destruct (decode_ok kl c _ s word s' e llr ok x ds st (Z.of_nat u) E) as (s1 & _ & Rg & _ & Pos). destruct (Pos ltac:(lia)) as (m1 & m' & Em1 & Ea & _). rewrite Nat2Z.id, Em in Em1. inversion Em1; subst m1.
  destruct (aided_soft c (cd_models Rops s) m ps word mx f K L N Rg Nd Mx) as (sum & Hs & Q). exists sum. split; [exact Hs|]. rewrite <- Q. exact Ea.
Qed.
Print Assumptions c49_soft.

(** A model given at construction is the same for all clusters and never changes. *)
Theorem c49_given {X} kl info model_length thr clip training n window center slope flip cluster rows method degree (calls : list (ldpc_decoder Rops (X := X) * list R)) :
  let '(c, s0) := cd_new Rops info model_length thr clip training n window center slope flip cluster (Some (rows, 2)) method degree in
  forall s outs, Forall (fun call => Forall (fun i => i < length (snd call)) (cd_idx Rops c)) calls -> cd_history kl c s0 calls = (s, outs) ->
  cd_models Rops s = repeat (EM [] (firstn model_length rows) 2 (map (row_entropy Rops 2) (firstn model_length rows))) n.
Proof.
  unfold cd_new. cbn iota beta. intros s outs Rg E. apply (fun H => history_untrained _ _ _ _ _ _ H E Rg). reflexivity.
Qed.
Print Assumptions c49_given.

(** Progress: with a soft decoder that always answers, a call labelled u is answered exactly when the window of the model, the lesson included,
    holds both bit values; else IndexError is raised, the answer of the LDPC decoder is lost and the lesson is stored all the same. *)
Theorem c49_progress {X} kl c (f : list R -> res (list Z * list R * bool * X)) s word u h m mx :
  cd_flip Rops c <> (1 / 2)%R -> cd_train Rops c = true -> 1 <= cd_length Rops c -> length (cd_idx Rops c) = cd_length Rops c -> NoDup (cd_idx Rops c) -> Forall (fun i => i < length word) (cd_idx Rops c) -> largest word mx ->
  (cd_n Rops c <= 1 /\ u = 0 \/ 1 < cd_n Rops c /\ cd_cluster Rops c = false /\ Z.of_nat u = ((cd_running Rops s + 1) mod Z.of_nat (cd_n Rops c))%Z \/
   1 < cd_n Rops c /\ cd_cluster Rops c = true /\ snd (classify Rops kl (cd_classifier Rops s) (received (cd_idx Rops c) word)) = Ok (Z.of_nat u)) ->
  nth_error (cd_models Rops s) u = Some m -> Forall (bits_of_length (cd_length Rops c)) h -> em_data m = kept (cd_window Rops c) h ->
  (h = [] -> m = em_new) -> (h <> [] -> knows m (map (fun i => unflipped (cd_flip Rops c) (share (kept (cd_window Rops c) h) 1 i)) (seq 0 (cd_length Rops c))) /\ mixed (kept (cd_window Rops c) h)) ->
  (forall w, length w = length word -> exists e llr ok x, f w = Ok (e, llr, ok, x) /\ length e = length word /\ Forall is_bit e) ->
  exists (e : list Z) (llr : list R) (ok : bool) (x : X), (exists ps sum, holds m ps /\ helped (cd_idx Rops c) (cd_threshold Rops c) ps (model_weight c m) word sum /\ f (map (limited (cd_clip Rops c * mx)) sum) = Ok (e, llr, ok, x)) /\
    let data := kept (cd_window Rops c) (h ++ [picked (if ok then e else map sign_bit word) (cd_idx Rops c)]) in
    (mixed data -> exists s' ds st, cd_decode Rops kl c (LogSpa Rops f) s word = (s', Ok (e, llr, ok, x, ds, st, Z.of_nat u))) /\
    (~ mixed data -> snd (cd_decode Rops kl c (LogSpa Rops f) s word) = Err IndexError /\
                     em_data (nth u (cd_models Rops (fst (cd_decode Rops kl c (LogSpa Rops f) s word))) em_new) = data).
Proof.
  intros _ Ht Hn Hi N Rg Mx Lab Em Hb D T1 T2 Rel.
  assert (El : exists s1, cd_label Rops kl c s (received (cd_idx Rops c) word) = (s1, Ok (Z.of_nat u))).
  { unfold cd_label. destruct Lab as [(Q & ->)|[(Q & Hc & Eu)|(Q & Hc & Eu)]]; destruct (Nat.ltb_spec 1 (cd_n Rops c)); try lia; [eexists; reflexivity|rewrite Hc, <- Eu; eexists; reflexivity|].
    rewrite Hc. destruct (classify Rops kl (cd_classifier Rops s) (received (cd_idx Rops c) word)) as [k r]. cbn [snd] in Eu. rewrite Eu. eexists. reflexivity. }
  destruct El as (s1 & El). assert (T : model_taught c h m) by (split; [exact D|]; split; [exact T1|]; intro Q; destruct (T2 Q); split; assumption).
  destruct (soft_step kl c f s word s1 u h m mx Ht Hn Hi N Rg Mx El Em Hb T Rel) as (e & llr & ok & x & Fs & _ & G1 & G2). exists e, llr, ok, x. split; [exact Fs|]. cbn zeta. split.
  - intro Q. destruct (G1 Q) as (m' & ds & st & E & _). eexists _, ds, st. exact E.
  - intro Q. destruct (G2 Q) as (m' & E & D2). change (F Rops) with R in *. rewrite E. cbn [fst snd cd_models]. split; [reflexivity|]. rewrite Base.nth_set_nth, Nat.eqb_refl. apply nth_error_nth_iff with (d := em_new) in Em. destruct Em as [Lu _]. destruct (Nat.ltb_spec u (length (cd_models Rops s))); [|lia]. exact D2.
Qed.
Print Assumptions c49_progress.

(** Defect: when not all of the first [model_length] code word bits are information bits (and there are more information bits than model
    bits) the position table is too short and every call that would teach a model raises IncorrectBufferLength. *)
Theorem c49_short_table_refuted {X} kl c (f : list R -> res (list Z * list R * bool * X)) s word s' out :
  cd_train Rops c = true -> cd_n Rops c <= 1 -> length (cd_idx Rops c) <> cd_length Rops c -> cd_decode Rops kl c (LogSpa Rops f) s word = (s', out) -> exists e, out = Err e.
Proof.
  intros Ht Hn Hi E. destruct out as [[[[[[[e llr] ok] x] ds] st] u]|y]; [|eauto]. exfalso. destruct (decode_ok kl c _ s word s' e llr ok x ds st u E) as (s1 & El & _ & _ & Pos).
  unfold cd_label in El. destruct (Nat.ltb_spec 1 (cd_n Rops c)); [lia|]. inversion El; subst. destruct (Pos ltac:(lia)) as (m & m' & _ & _ & _ & Eu & _). unfold cd_update, learn_corrected in Eu. rewrite Ht in Eu.
  assert (L : length (if ok then picked e (cd_idx Rops c) else received (cd_idx Rops c) word) = length (cd_idx Rops c)) by (unfold received, picked; destruct ok; apply map_length).
  destruct (Nat.eqb_spec (length (if ok then picked e (cd_idx Rops c) else received (cd_idx Rops c) word)) (cd_length Rops c)); [congruence|]. discriminate.
Qed.
Print Assumptions c49_short_table_refuted.

(** Two clusters taken in turn, two model bits of three; the LDPC decoder always answers 0 1 1.  The first call is labelled 0 and teaches
    the buffer 0 1. *)
Definition ex_pair : cd_conf Rops * cd_state Rops := cd_new Rops [true; true; false] 2 (1 / 2)%R 1%R 5 2 (Some 10%Z) 3%R 1%R 0%R 0 None 0 3%R.
Example c49_ex : exists s' llr x ds st,
  cd_decode Rops (fun _ _ => 0%R) (fst ex_pair) (LogSpa Rops (fun w => Ok ([0; 1; 1]%Z, [], true, tt))) (snd ex_pair) [1; -2; 1]%R = (s', Ok ([0; 1; 1]%Z, llr, true, x, ds, st, 0%Z)) /\
  em_data (nth 0 (cd_models Rops s') em_new) = [[0; 1]%Z].
Proof.
  destruct (c49_progress (fun _ _ => 0%R) (fst ex_pair) (fun w => Ok ([0; 1; 1]%Z, [], true, tt)) (snd ex_pair) [1; -2; 1]%R 0 [] em_new 1%R) as (e & llr & ok & x & (ps & sum & _ & _ & Ef) & G & _); try reflexivity.
  - cbn. lra.
  - cbn. lia.
  - cbn. repeat (constructor; [cbn; intuition discriminate|]). constructor.
  - cbn. repeat (constructor; [cbn; lia|]). constructor.
  - split; [left; reflexivity|]. repeat (apply Forall_cons; [lra|]). constructor.
  - right. left. cbn. split; [lia|]. split; reflexivity.
  - constructor.
  - congruence.
  - intros w Hw. exists [0; 1; 1]%Z, [], true, tt. split; [reflexivity|]. split; [reflexivity|]. apply Forall_cons; [left; reflexivity|]. repeat (apply Forall_cons; [right; reflexivity|]). constructor.
  - inversion Ef; subst. assert (Mx : mixed [[0; 1]%Z]) by (split; cbn; auto). destruct (G Mx) as (s' & ds & st & E). exists s', [], tt, ds, st. split; [exact E|].
    assert (Nf : cd_flip Rops (fst ex_pair) <> (1 / 2)%R) by (cbn; lra). assert (Ln : 1 <= cd_length Rops (fst ex_pair)) by (cbn; lia).
    destruct (c49_answer _ _ _ _ _ _ _ _ _ _ _ _ 0 [] em_new Nf eq_refl Ln eq_refl E) as (_ & _ & _ & m' & Em & D & _); try reflexivity.
    + apply Forall_cons; [left; reflexivity|]. repeat (apply Forall_cons; [right; reflexivity|]). constructor.
    + constructor.
    + rewrite (nth_error_nth _ _ em_new Em). exact D.
Qed.
