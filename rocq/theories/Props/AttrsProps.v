(** C115: attributes which are read before they are set. *)
From Coq Require Import String ZArith NArith List Bool.
From Verif Require Import Model.Names Model.AttrsTable Spec.NamesSpec Spec.AttrsSpec Proofs.NamesP Proofs.NamesQ Proofs.AttrsP.
Import ListNotations.
Local Open Scope string_scope.
Local Open Scope list_scope.

(** After the constructor, whichever methods are called in whatever order, and whatever failed in the calls before, an attribute which is read before it is
    set is a listed one, and the arguments of the constructor are the listed ones. *)
Theorem c115_set : forall c args l i, In c attr_programs -> run_file args c l = Unbound i ->
  exists x, nth_error (f_vars c) (N.to_nat i) = Some x /\ (listed args attr_faults (f_name c) x \/ listed_in attr_loose (f_name c) x).
Proof.
  intros c args l i C R. pose proof attrs_any as A. rewrite forallb_forall in A.
  destruct (bad_ok_sound false _ _ c args l i (A c C)) as (x & X & [(t & [<-|[]] & L)|L]); [intros Q; discriminate|exact R| |]; exists x; auto.
Qed.
Print Assumptions c115_set.

(** So the methods of every other class read no attribute before it is set. *)
Theorem c115_others : forall c args l i, In c attr_programs -> ~ In (f_name c) ["EntropyBitwiseWeightedDecoder"; "BMM"; "BMM.fit"; "DUDE"] -> run_file args c l <> Unbound i.
Proof.
  intros c args l i C N R. destruct (c115_set c args l i C R) as (x & _ & [(cs & H & _)|(xs & H & _)]); apply N; cbn in H |- *;
    repeat destruct H as [H|H]; try contradiction; injection H as <-; auto 6.
Qed.
Print Assumptions c115_others.

(** A weighted decoder reads none either, unless it was made with confidence 4 and an estimator other than Bayes. *)
Theorem c115_weighted : forall args l i, test args (Is "confidence" (VInt 4)) = Some false \/ test args (Is "estimator" (VStr "Bayes")) = Some true ->
  run_file args at_EntropyBitwiseWeightedDecoder l <> Unbound i.
Proof.
  intros args l i T R. assert (C : In at_EntropyBitwiseWeightedDecoder attr_programs) by (unfold attr_programs; repeat first [left; reflexivity | right]).
  destruct (c115_set _ args l i C R) as (x & _ & [(cs & H & Q)|(xs & H & _)]); cbn in H; repeat destruct H as [H|H]; try contradiction; try discriminate; injection H as _ <-;
    pose proof (Q _ (or_introl eq_refl)) as Q1; pose proof (Q _ (or_intror (or_introl eq_refl))) as Q2; cbn in T, Q1, Q2; destruct T as [T|T];
    first [rewrite Q1 in T; discriminate | injection T as T; rewrite T in Q2; discriminate].
Qed.
Print Assumptions c115_weighted.

(** Each listed with arguments is read before it is set by some calls in which nothing fails. *)
Theorem c115_reached : forall c args x, In c attr_programs -> listed args attr_faults (f_name c) x -> exists l, calm l /\ reads_unbound args c l x.
Proof.
  intros c args x C L. pose proof attrs_reached as A. rewrite forallb_forall in A. destruct (stop_ok_sound _ _ c args x (A c C) L) as (l & I & R).
  exists l. split; [apply attr_tries_calm; exact I|exact R].
Qed.
Print Assumptions c115_reached.

(** No call of denoise_sample returns, whatever was called before. *)
Theorem c115_denoise : forall args l, run_file args at_DUDE_denoise_sample l <> Done.
Proof. intros args l R. pose proof (file_sound args false at_DUDE_denoise_sample l) as S. rewrite R in S. apply S; [intros Q; discriminate|]. apply denoise_flow. Qed.
Print Assumptions c115_denoise.

(** A decoder with another estimator and confidence 4 whose model of buffers in two parts was updated, and the other was not. *)
Definition weighted_args (confidence : Z) (estimator : string) (o : string) : value := if String.eqb o "confidence" then VInt confidence else VStr estimator.
Example c115_ex_weighted : exists l, calm l /\ reads_unbound (weighted_args 4 "MLE") at_EntropyBitwiseWeightedDecoder l "a_normalized_variance".
Proof. exists (twice [false; false; true; false; false; false; true; false; false; true]). split; [split; cbn; repeat constructor|]. eexists. split; vm_compute; reflexivity. Qed.
Example c115_ex_bayes : run_file (weighted_args 4 "Bayes") at_EntropyBitwiseWeightedDecoder (twice [false; false; true; false; false; false; true; false; false; true]) = Done.
Proof. vm_compute. reflexivity. Qed.
Example c115_ex_three : run_file (weighted_args 3 "MLE") at_EntropyBitwiseWeightedDecoder (twice [false; false; true; false; false; false; true; false; false; true]) = Done.
Proof. vm_compute. reflexivity. Qed.
(** Prediction before a mixture was fitted, and after. *)
Example c115_ex_bmm : exists l, calm l /\ exists x, reads_unbound (fun _ => VInt 0) at_BMM l x.
Proof. exists (free [false; true]). split; [apply free_calm|]. eexists. eexists. split; vm_compute; reflexivity. Qed.
Example c115_ex_fit : run_file (fun _ => VInt 0) at_BMM_fit nothing = Done.
Proof. vm_compute. reflexivity. Qed.
Example c115_ex_denoise : reads_unbound (fun _ => VInt 0) at_DUDE_denoise_sample {| fails := []; turns := [0]; picks := [] |} "_last_context".
Proof. eexists. split; vm_compute; reflexivity. Qed.
(** 22 classes, one of them twice. *)
Example c115_ex_classes : length attr_programs = 23 /\ In at_MavlinkRectifyingDecoder attr_programs.
Proof. split; [reflexivity|]. unfold attr_programs. repeat first [left; reflexivity | right]. Qed.
