(** Checks of the classes, by the analysis of Proofs/NamesP.v and the classes of options of Proofs/NamesQ.v. *)
From Coq Require Import String ZArith NArith List Bool Lia.
From Verif Require Import Model.Names Model.AttrsTable Spec.NamesSpec Spec.AttrsSpec Proofs.NamesP Proofs.NamesQ.
Import ListNotations.
Local Open Scope string_scope.
Local Open Scope list_scope.

(** One call of any method, and two calls. *)
Definition method (i more : nat) : list bool := repeat false i ++ [true] ++ repeat false more.
Definition twice (p : list bool) : luck := {| fails := []; turns := [2]; picks := p |}.
Definition attr_tries : list luck :=
  map (fun i => free (method i 0)) (seq 0 16) ++
  flat_map (fun i => flat_map (fun k => flat_map (fun j => map (fun m => twice (method i k ++ method j 0 ++ m)) [[]; [true]; [false; true]; [false; false; true]]) (seq 0 6)) (seq 0 4)) (seq 0 6).
Lemma attr_tries_calm l : In l attr_tries -> calm l.
Proof.
  unfold attr_tries. rewrite in_app_iff, in_map_iff, in_flat_map. intros [(i & <- & _)|(i & _ & H)]; [apply free_calm|].
  apply in_flat_map in H as (k & _ & H). apply in_flat_map in H as (j & _ & H). apply in_map_iff in H as (m & <- & _). split; cbn; repeat constructor.
Qed.

Lemma attrs_any : forallb (bad_ok false [attr_faults] attr_loose) attr_programs = true.
Proof. vm_compute. reflexivity. Qed.
Lemma attrs_reached : forallb (stop_ok attr_tries attr_faults) attr_programs = true.
Proof. vm_compute. reflexivity. Qed.
Lemma denoise_flow opts : fl_done (file_flow opts false at_DUDE_denoise_sample) = None /\
  forall i, In i (fl_bad (file_flow opts false at_DUDE_denoise_sample)) -> i = 6%N \/ i = 7%N.
Proof. split; [vm_compute; reflexivity|]. vm_compute. intros i H. repeat destruct H as [<-|H]; auto. contradiction. Qed.
