(** C99: the oldest simulations. *)
From Coq Require Import List Arith NArith ZArith Bool Lia ZifyBool ZifyNat QArith.
From Verif.Model Require Import Py Float InfoTheory Clustering BitOps Segmentation DecoderBase EntropyDecoder Simulation SimVariants Workers Legacy.
From Verif.Spec Require Import RealOps SimulationSpec LegacySpec.
From Verif.Proofs Require Import Base SimulationP SimVariantsP WorkersP LegacyP.
Import ListNotations.
Close Scope Q_scope.

(** The two scripts that learn never finish a level: whatever the library, the data and the draws, either the library's results do not have the six items
    which the decoders demand, or the sixth is the array whose comparison with 0 is converted to a number.  Nothing is written before the last level. *)
Theorem c99_never : forall FO D (parser : bytes -> res D) G (choice : G -> nat -> nat -> list nat * G) se n buffers g levels,
  with_arrays (se_soft FO se) -> levels <> [] -> exists e, legacy_script FO parser choice se n buffers g levels = Err e.
Proof.
  intros FO D parser G choice se n buffers g levels Ha Hl. unfold legacy_script, legacy_prepare. destruct (encode_padded _ _ _ _ _) as [encoded|e] eqn:E; [|eexists; reflexivity]. cbn [bind].
  destruct (index buffers 0) as [b|e] eqn:Eb; [|eexists; reflexivity]. cbn [bind]. destruct levels as [|p levels]; [contradiction|]. cbn [legacy_levels]. destruct (error_rows _ _ _ _ _) as [errors g'].
  destruct (learning_fails FO parser se buffers encoded (length b) p errors Ha) as [e ->]; [|eexists; reflexivity]. apply encode_padded_iff in E as (_ & L & _). intros ->. cbn in L. rewrite firstn_length in L.
  destruct buffers as [|b0 bs]; [discriminate|]. unfold wanted in L. destruct (Z.ltb_spec 0 n); cbn [length] in L; lia.
Qed.
Print Assumptions c99_never.

(** The same for every schedule of the worker processes. *)
Theorem c99_pool : forall FO D (parser : bytes -> res D) G (choice : G -> nat -> nat -> list nat * G) se buffers encoded ml workers init levels sched r,
  with_arrays (se_soft FO se) -> encoded <> [] -> levels <> [] -> 0 < workers ->
  legacy_pool FO parser choice se buffers encoded ml workers init levels sched r -> exists e, r = Err e.
Proof.
  intros FO D parser G choice se buffers encoded ml workers init levels sched r Ha Hn Hl Hw H. unfold legacy_pool in H. destruct r as [ys|e]; [|eexists; reflexivity]. exfalso.
  apply pool_iff in H; [|exact Hw]. destruct H as (_ & _ & L & H). destruct levels as [|p levels]; [contradiction|]. destruct (H 0 p eq_refl) as (y & _ & E).
  unfold flip_step in E. destruct (error_rows _ _ _ _ _) as [errors g']. cbn [fst] in E. destruct (learning_fails FO parser se buffers encoded ml p errors Ha Hn) as [e E2]. rewrite E2 in E. discriminate.
Qed.
Print Assumptions c99_pool.

(** If the decoding itself works, the exception is TypeError. *)
Theorem c99_type_error : forall FO D (parser : bytes -> res D) tl me mf data nn no_errors encoded errors t,
  with_arrays (tl_soft FO tl) -> encoded <> [] -> legacy_loop FO parser tl errors encoded me mf = Ok t ->
  legacy_step FO parser (item_five FO) tl me mf data nn no_errors encoded errors = Err TypeError.
Proof. intros FO D parser tl me mf data nn no_errors encoded errors t Ha Hn E. unfold legacy_step. rewrite E. cbn [bind]. cbv zeta. rewrite (five_fails FO parser tl Ha errors encoded me mf t Hn E). reflexivity. Qed.
Print Assumptions c99_type_error.

(** Without levels the script finishes just if there are buffers, all of those wanted are shorter than the information part of a word, and they can be
    encoded; its results are then empty. *)
Theorem c99_no_levels : forall FO D (parser : bytes -> res D) G (choice : G -> nat -> nat -> list nat * G) se n buffers g r,
  legacy_script FO parser choice se n buffers g [] = Ok r <->
  r = [] /\ buffers <> [] /\ Forall (fun b => length b < se_k FO se) (firstn (wanted n buffers) buffers) /\
  (forall j, j < Nat.min (wanted n buffers) (length buffers) ->
     exists w, se_encode FO se (nth j buffers [] ++ se_random FO se j (se_k FO se - length (nth j buffers []))) = Ok w).
Proof.
  intros FO D parser G choice se n buffers g r. unfold legacy_script, legacy_prepare.
  assert (Hj : forall j, j < Nat.min (wanted n buffers) (length buffers) -> nth j (firstn (wanted n buffers) buffers) [] = nth j buffers []) by (intros j H; apply nth_firstn; lia). split.
  - destruct (encode_padded _ _ _ _ _) as [encoded|e] eqn:E; [|discriminate]. cbn [bind]. destruct (index buffers 0) as [b|e] eqn:Eb; [|discriminate]. cbn [bind legacy_levels]. intros [= <-].
    apply encode_padded_iff in E as (F1 & F2 & F3). split; [reflexivity|]. split; [intros ->; discriminate|]. split; [exact F1|]. intros j H. exists (nth j encoded []). rewrite firstn_length in F3. specialize (F3 j H). rewrite Hj in F3 by exact H. exact F3.
  - intros (-> & Hb & F1 & F2). assert (E : exists encoded, encode_padded (se_encode FO se) (se_random FO se) (se_k FO se) 0 (firstn (wanted n buffers) buffers) = Ok encoded).
    { revert F1 F2 Hj. rewrite <- firstn_length. generalize (firstn (wanted n buffers) buffers). intros l F1 F2 Hj.
      assert (X : forall l i, Forall (fun b => length b < se_k FO se) l -> (forall j, j < length l -> exists w, se_encode FO se (nth j l [] ++ se_random FO se (i + j) (se_k FO se - length (nth j l []))) = Ok w) ->
        exists encoded, encode_padded (se_encode FO se) (se_random FO se) (se_k FO se) i l = Ok encoded).
      { clear. induction l as [|b l IH]; intros i F1 F2; [exists []; reflexivity|]. inversion F1; subst. cbn [encode_padded]. destruct (Nat.ltb_spec (se_k FO se) (length b)); [lia|]. destruct (Nat.eqb_spec (se_k FO se) (length b)); [lia|].
        destruct (F2 0 ltac:(cbn; lia)) as [w E]. cbn [nth] in E. rewrite Nat.add_0_r in E. rewrite E. cbn [bind]. destruct (IH (S i)) as [ws ->]; [assumption| |exists (w :: ws); reflexivity].
        intros j Hj. destruct (F2 (S j) ltac:(cbn; lia)) as [w' E']. exists w'. cbn [nth] in E'. replace (S i + j) with (i + S j) by lia. exact E'. }
      apply (X l 0 F1). intros j H. destruct (F2 j H) as [w Ew]. exists w. rewrite Hj by exact H. exact Ew. }
    destruct E as [encoded ->]. cbn [bind]. destruct buffers as [|b bs]; [contradiction|]. reflexivity.
Qed.
Print Assumptions c99_no_levels.

(** With a predefined model every wanted buffer is padded and encoded once, and the words are sent eight times in turn. *)
Theorem c99_words : forall FO se n buffers ws, predefined_words FO se n buffers = Ok ws ->
  let m := Nat.min (wanted n buffers) (length buffers) in
  length ws = 8 * m /\
  (forall j, j < m -> length (nth j buffers []) < se_k FO se) /\
  (forall i, i < 8 * m -> se_encode FO se (nth (i mod m) buffers [] ++ se_random FO se (i mod m) (se_k FO se - length (nth (i mod m) buffers []))) = Ok (nth i ws [])).
Proof.
  intros FO se n buffers ws. unfold predefined_words. destruct (encode_padded _ _ _ _ _) as [encoded|e] eqn:E; [|discriminate]. cbn [bind]. intros H. assert (Hw : multiplied 3 encoded = ws) by congruence. clear H. subst ws. apply encode_padded_iff in E as (F1 & F2 & F3).
  cbv zeta. set (m := Nat.min (wanted n buffers) (length buffers)). rewrite firstn_length in F2, F3. fold m in F2, F3.
  assert (Hj : forall j, j < m -> nth j (firstn (wanted n buffers) buffers) [] = nth j buffers []) by (intros j H; apply nth_firstn; lia).
  assert (C : forall c, length (concat (repeat encoded c)) = c * m /\ forall i, i < c * m -> nth i (concat (repeat encoded c)) [] = nth (i mod m) encoded []).
  { induction c as [|c [I1 I2]]; [split; [reflexivity|lia]|]. cbn [repeat concat]. split; [rewrite app_length, I1, F2; reflexivity|]. intros i Hi. destruct (Nat.lt_ge_cases i m) as [H|H].
    - rewrite app_nth1 by lia. rewrite Nat.mod_small by exact H. reflexivity.
    - rewrite app_nth2 by lia. rewrite F2. rewrite I2 by lia. f_equal. rewrite <- (Nat.mod_add (i - m) 1 m) by lia. f_equal. lia. }
  rewrite (multiplied_copies 3). change (2 ^ 3) with 8.
  split; [apply C|]. split.
  - intros j H. rewrite <- Hj by exact H. rewrite Forall_forall in F1. apply F1, nth_In. rewrite firstn_length. exact H.
  - intros i Hi. rewrite (proj2 (C 8) i Hi). assert (H : i mod m < m) by (apply Nat.mod_upper_bound; lia). rewrite <- (F3 (i mod m) H). rewrite Hj by exact H. reflexivity.
Qed.
Print Assumptions c99_words.

(** What a step with a predefined model reports: the received words differ from the sent ones just in the drawn positions, the three decoders see the same
    words in the same order, every row ends with the number of wrong bits, and the rates are the share of faultless answers and of wrong bits. *)
Theorem c99_report : forall FO D (parser : bytes -> res D) se model cols buffers encoded p errors nn r, nn = se_nn FO se -> 0 < nn ->
  gives_words nn (se_soft FO se) -> gives_words nn (se_hard FO se p) ->
  encoded <> [] -> Forall (word nn) encoded -> length errors = length encoded -> Forall (draw nn (se_size FO se p)) errors ->
  let given := ed_init FO (se_idx FO se) (length model) (se_threshold FO se) (se_clip FO se) 0 None (Some (model, cols)) in
  predefined_step FO parser se model cols buffers encoded p errors = Ok r <->
  reported FO parser (Tools FO (se_soft FO se) (se_hard FO se p) (se_info FO se) (se_llr FO se p) (fst given) (fst given)) (snd given) (snd given)
           buffers nn (se_size FO se p) encoded errors r.
Proof. intros FO D parser se model cols buffers encoded p errors nn r -> Hnn Gs Gh Hn W Le Dr given. unfold predefined_step. cbn [ed_init] in given |- *. subst given. cbn [fst snd]. apply (step_iff FO parser _ _ (se_size FO se p)); assumption. Qed.
Print Assumptions c99_report.

(** The stored data are the first buffers, as many as words were sent: eight times as many as were encoded, if there are so many.  So the i-th stored buffer
    is that of the i-th word just for the first eighth of the words. *)
Theorem c99_data : forall FO D (parser : bytes -> res D) se model cols n buffers encoded p errors r,
  predefined_words FO se n buffers = Ok encoded -> predefined_step FO parser se model cols buffers encoded p errors = Ok r ->
  let m := Nat.min (wanted n buffers) (length buffers) in
  0 < m /\ lr_n FO r = 8 * m /\ length (lr_data FO r) = Nat.min (8 * m) (length buffers) /\
  (forall i, i < length (lr_data FO r) -> nth i (lr_data FO r) [] = nth i buffers []).
Proof.
  intros FO D parser se model cols n buffers encoded p errors r Hw H m. apply c99_words in Hw. cbv zeta in Hw. fold m in Hw. destruct Hw as (L & _ & _). unfold predefined_step in H. cbn [ed_init] in H. unfold legacy_step in H.
  destruct (legacy_loop _ _ _ _ _ _ _) as [t|]; [|discriminate]. cbn [bind] in H. cbv zeta in H.
  destruct (recovered FO (item_last FO) (map (fun x => snd (fst (fst x))) t)); [|discriminate]. cbn [bind] in H. destruct (recovered FO (item_last FO) (map (fun x => snd (fst x)) t)); [|discriminate]. cbn [bind] in H.
  destruct (recovered FO (item_last FO) (map snd t)); [|discriminate]. cbn [bind] in H. destruct (legacy_table_of FO (item_last FO) encoded (map (fun x => snd (fst (fst x))) t)); [|discriminate]. cbn [bind] in H.
  destruct (legacy_table_of FO (item_last FO) encoded (map (fun x => snd (fst x)) t)); [|discriminate]. cbn [bind] in H. destruct (legacy_table_of FO (item_last FO) encoded (map snd t)); [|discriminate]. cbn [bind] in H.
  destruct (index encoded 0) as [w|] eqn:E; [|discriminate]. cbn [bind] in H. injection H as <-. cbn [lr_n lr_data]. split.
  - destruct encoded; [discriminate|]. cbn in L. lia.
  - split; [exact L|]. rewrite firstn_length, L. split; [reflexivity|]. intros i Hi. apply nth_firstn. lia.
Qed.
Print Assumptions c99_data.

(** Without words a step fails. *)
Theorem c99_empty : forall FO D (parser : bytes -> res D) se model cols buffers p errors, predefined_step FO parser se model cols buffers [] p errors = Err ZeroDivision.
Proof. intros. unfold predefined_step. cbn [ed_init]. unfold legacy_step. destruct errors; reflexivity. Qed.
Print Assumptions c99_empty.

(** Examples: words of four bits, two of them information; a library that takes the signs of its input, and never succeeds. *)
Definition c99_parser (b : bytes) : res nat := Err MAVError.
Definition c99_more : list item := [IArr [0]%Z; IArr [0; 1; 0; 0]%Z].
Definition c99_setting : setting Qops :=
  Setting Qops 2 4 (fun b => Ok (map (fun x : bool => if x then 1%Z else 0%Z) (b ++ b))) (fun _ l => repeat true l)
    (fun w => Ok (Tuple Qops (hard Qops w) w false 7 c99_more)) (fun _ w => Ok (Tuple Qops w [] false 7 c99_more)) (fun _ => []) (fun _ w => map (fun b => if (b =? 1)%Z then (-1)%Q else 1%Q) w)
    [true; true; false; false] (1 # 2)%Q 2%Q 0 None (fun _ => 1).
Definition c99_choice (g : nat) (n size : nat) : list nat * nat := (firstn size (seq (g mod n) n), S g).
Example c99_ex_arrays : with_arrays (se_soft Qops c99_setting).
Proof. intros w t [= <-] _. exists [0; 1; 0; 0]%Z. split; [reflexivity|discriminate]. Qed.
Definition c99_count (r : res (list (legacy_report Qops))) : exn + nat := match r with Err e => inl e | Ok l => inr (length l) end.
Example c99_ex_never : c99_count (legacy_script Qops c99_parser c99_choice c99_setting 0 [[true]; [false]] 0 [(1 # 10)%Q]) = inl TypeError.
Proof. vm_compute. reflexivity. Qed.
Example c99_ex_no_levels : c99_count (legacy_script Qops c99_parser c99_choice c99_setting 0 [[true]; [false]] 0 []) = inr 0.
Proof. vm_compute. reflexivity. Qed.
Example c99_ex_full : c99_count (legacy_script Qops c99_parser c99_choice c99_setting 0 [[true]; [false; true]] 0 []) = inl CreationError.
Proof. vm_compute. reflexivity. Qed.
Example c99_ex_words : predefined_words Qops c99_setting 1 [[true]; [false]; [true]] = Ok (repeat [1; 1; 1; 1]%Z 8).
Proof. vm_compute. reflexivity. Qed.
Definition c99_errors : list (list nat) := map (fun i => [i mod 3]) (seq 0 8).
(** One buffer of three is wanted; three are stored; both model bits are almost surely 1, so that the flipping decoder corrects
    the words in which one of them is wrong. *)
Definition c99_view (r : res (legacy_report Qops)) : option (list (list bool) * list (list item) * bool) :=
  match r with
  | Err _ => None
  | Ok r => Some (lr_data Qops r, map (fun r => r_more Qops r) (firstn 2 (lt_rows Qops (lr_ldpc Qops r))),
      (Qeq_bool (lt_rate Qops (lr_ldpc Qops r)) 0 && Qeq_bool (lt_ber Qops (lr_ldpc Qops r)) (1 # 4) && Qeq_bool (lt_ber Qops (lr_flipping Qops r)) (1 # 16) &&
       Qeq_bool (lt_rate Qops (lr_flipping Qops r)) (3 # 4))%bool)
  end.
Example c99_ex_report : c99_view (predefined_step Qops c99_parser c99_setting [[1 # 100; 99 # 100]%Q; [1 # 100; 99 # 100]%Q] 2 [[true]; [false]; [true]] (repeat [1; 1; 1; 1]%Z 8) (1 # 4)%Q c99_errors) =
  Some ([[true]; [false]; [true]], [c99_more ++ [INum 0; INum 1]; c99_more ++ [INum 0; INum 1]], true).
Proof. vm_compute. reflexivity. Qed.
Example c99_ex_gives : gives_words 4 (fun w : list Q => if Nat.eqb (length w) 4 then se_soft Qops c99_setting w else Err ValueError).
Proof.
  intros w t H. destruct (Nat.eqb_spec (length w) 4) as [L|L]; [|discriminate]. injection H as <-. cbn [t_estimate]. split; [unfold hard; rewrite map_length; exact L|].
  apply Forall_forall. intros x Hx. unfold hard in Hx. apply in_map_iff in Hx as (q & <- & _). destruct (flt Qops q (fz Qops 0)); [right|left]; reflexivity.
Qed.
Example c99_ex_draw : Forall (draw 4 1) c99_errors.
Proof.
  apply Forall_forall. intros x Hx. unfold c99_errors in Hx. apply in_map_iff in Hx as (i & <- & Hi). assert (H : i mod 3 < 3) by (apply Nat.mod_upper_bound; lia).
  split; [constructor; [intros []|constructor]|]. split; [reflexivity|]. intros p [<-|[]]. lia.
Qed.
