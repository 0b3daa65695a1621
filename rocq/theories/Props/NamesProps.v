(** C114: names which are read before they are bound. *)
From Coq Require Import String ZArith NArith List Bool.
From Verif Require Import Model.Names Model.NamesTable Spec.NamesSpec Proofs.NamesP Proofs.NamesQ.
Import ListNotations.
Local Open Scope string_scope.
Local Open Scope list_scope.

(** Whatever the options, whichever way conditions go, however often loops run and whatever fails, a name which is read unbound is a listed one. *)
Theorem c114_bound : forall f opts l i, In f files -> run_file opts f l = Unbound i ->
  exists x, nth_error (f_vars f) (N.to_nat i) = Some x /\
    (listed opts option_faults (f_name f) x \/ listed opts other_faults (f_name f) x \/ listed_in library_faults (f_name f) x).
Proof.
  intros f opts l i F R. pose proof all_any as A. rewrite forallb_forall in A.
  destruct (bad_ok_sound false _ _ f opts l i (A f F)) as (x & X & [(t & [<-|[<-|[]]] & L)|L]); [intros Q; discriminate|exact R| | |]; exists x; auto.
Qed.
Print Assumptions c114_bound.

(** When nothing fails and no loop is over nothing, just the options matter. *)
Theorem c114_calm : forall f opts l i, In f files -> calm l -> run_file opts f l = Unbound i ->
  exists x, nth_error (f_vars f) (N.to_nat i) = Some x /\ (listed opts option_faults (f_name f) x \/ listed_in library_calm_faults (f_name f) x).
Proof.
  intros f opts l i F C R. pose proof all_calm as A. rewrite forallb_forall in A.
  destruct (bad_ok_sound true _ _ f opts l i (A f F)) as (x & X & [(t & [<-|[]] & L)|L]); [intros _; exact C|exact R| |]; exists x; auto.
Qed.
Print Assumptions c114_calm.

(** With the options listed the name is read unbound, though nothing fails. *)
Theorem c114_options : forall f opts x, In f files -> listed opts option_faults (f_name f) x -> exists l, calm l /\ reads_unbound opts f l x.
Proof.
  intros f opts x F L. pose proof all_options as A. rewrite forallb_forall in A. destruct (stop_ok_sound _ _ f opts x (A f F) L) as (l & [<-|[]] & R).
  exists nothing. split; [apply free_calm|exact R].
Qed.
Print Assumptions c114_options.

(** The names listed for a failure or a loop over nothing are read unbound. *)
Theorem c114_others : forall f opts x, In f files -> listed opts other_faults (f_name f) x -> exists l, reads_unbound opts f l x.
Proof.
  intros f opts x F L. pose proof all_others as A. rewrite forallb_forall in A. destruct (stop_ok_sound _ _ f opts x (A f F) L) as (l & _ & R). exists l. exact R.
Qed.
Print Assumptions c114_others.

(** The options with which a file can get to its end. *)
Theorem c114_ends : forall f opts, In f files ->
  ((exists l, calm l /\ run_file opts f l = Done) <-> ~ exists c, In (f_name f, c) no_end /\ test opts c = Some true).
Proof. intros f opts F. pose proof all_ends as A. rewrite forallb_forall in A. apply end_ok_sound. exact (A f F). Qed.
Print Assumptions c114_ends.

(** The default options of a script, and changes of them. *)
Definition mavlink_options (n_clusters cluster learn : Z) (o : string) : value :=
  if String.eqb o "n_clusters" then VInt n_clusters else if String.eqb o "cluster" then VInt cluster else if String.eqb o "learn" then VInt learn else VInt 0.
Example c114_ex_default : run_file (mavlink_options 1 1 0) py_runs_HC_eilat_July_2018_simulated_data_mavlink_decoding nothing = Done.
Proof. vm_compute. reflexivity. Qed.
Example c114_ex_learn : reads_unbound (mavlink_options 1 1 1) py_runs_HC_eilat_July_2018_simulated_data_mavlink_decoding nothing "data_model".
Proof. eexists. split; vm_compute; reflexivity. Qed.
Example c114_ex_clusters : run_file (mavlink_options 4 1 0) py_runs_HC_eilat_July_2018_simulated_data_mavlink_decoding nothing = Raised.
Proof. vm_compute. reflexivity. Qed.
Example c114_ex_spec : reads_unbound (mavlink_options 4 1 0) py_runs_HC_eilat_July_2018_simulated_data_classifying_dude_decoder nothing "spec".
Proof. eexists. split; vm_compute; reflexivity. Qed.
Definition feb_options (msg_type : Z) (o : string) : value := if String.eqb o "msg_type" then VInt msg_type else VStr "all".
Example c114_ex_cdma : reads_unbound (feb_options 3) py_runs_Feb_2023_experimental_data_run_feb_23 nothing "h".
Proof. eexists. split; vm_compute; reflexivity. Qed.
(** No buffers at all. *)
Example c114_ex_empty : exists k, reads_unbound (mavlink_options 1 0 0) py_runs_HC_eilat_July_2018_simulated_data_mavlink_decoding
  {| fails := []; turns := repeat 1 k ++ [0]; picks := [] |} "binary_data".
Proof. exists 0. eexists. split; vm_compute; reflexivity. Qed.
(** The code has 70 files which bind names. *)
Example c114_ex_files : length files = 70 /\ In py_decoders_turbo files.
Proof. split; [reflexivity|]. unfold files. repeat first [left; reflexivity | right]. Qed.
