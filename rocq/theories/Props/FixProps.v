(** C110: splitting the results of a simulation into three files. *)
From Coq Require Import String Ascii List Bool Arith Lia.
From Verif.Model Require Import Py FixResults.
From Verif.Spec Require Import FixSpec.
From Verif.Proofs Require Import FixP.
Import ListNotations.
Local Open Scope string_scope. Local Open Scope list_scope.

(** The script writes its files just if every step holds the three tables; otherwise it raises before a file is written.  The steps of the
    first file and the decoded words of the other two belong together by position, and give every step back. *)
Theorem c110_split : forall V S summary results,
  NoDup (map fst summary) -> Forall (fun s => NoDup (map fst s)) results ->
  match fix_results V S summary results with
  | Ok fs =>
      Forall (splittable V) results /\
      exists entropy ldpc stats d,
        fs = [("data", Data V S d); ("decoded_ldpc", Decoded V S "decoded_ldpc" ldpc); ("decoded_entropy", Decoded V S "decoded_entropy" entropy)] /\
        length entropy = length results /\ length ldpc = length results /\ length stats = length results /\
        Forall2 (fun s p => let '(e, l, s') := p in restored V s e l s') results (combine (combine entropy ldpc) stats) /\
        NoDup (map fst d) /\
        forall k x, In (k, x) d <-> (k = "stats" /\ x = Stats V S stats) \/ (k <> "stats" /\ exists v, x = Value V S v /\ In (k, v) summary)
  | Err e => (e = KeyError \/ e = AttributeError) /\ ~ Forall (splittable V) results
  end.
Proof.
  intros V S summary results Ns N. destruct (fix_results V S summary results) as [fs|e] eqn:E; unfold fix_results in E.
  - destruct (map_res (data_step V) results) as [r1|] eqn:H1; cbn [bind] in E; [|discriminate].
    destruct (map_res (pop V "decoded_entropy") r1) as [r2|] eqn:H2; cbn [bind] in E; [|discriminate].
    destruct (map_res (pop V "decoded_ldpc") (map snd r2)) as [r3|] eqn:H3; cbn [bind] in E; [|discriminate].
    destruct (passes_inv V results r1 r2 r3 N H1 H2 H3) as (P1 & P2 & P3 & P4). split; [exact P1|].
    exists (map fst r2), (map fst r3), (map snd r3). assert (X : forall a b : list (string * content V S), Ok a = Ok b -> a = b) by congruence. apply X in E. eexists. split; [symmetry; exact E|].
    rewrite !map_length. split; [exact P2|]. split; [exact P3|]. split; [exact P3|]. split; [exact P4|].
    assert (Nm : NoDup (map fst (map (fun kv : string * S => (fst kv, Value V S (snd kv))) summary))) by (rewrite map_map; exact Ns).
    split; [now apply set_nodup|]. intros k x. rewrite set_in by exact Nm. apply or_iff_compat_l, and_iff_compat_l.
    rewrite in_map_iff. split; [intros ([k0 v] & Y & I); cbn in Y; injection Y as <- <-; eauto|intros (v & -> & I); exists (k, v); auto].
  - split.
    + destruct (map_res (data_step V) results) as [r1|] eqn:H1; cbn [bind] in E.
      * destruct (map_res (pop V "decoded_entropy") r1) as [r2|] eqn:H2; cbn [bind] in E.
        -- destruct (map_res (pop V "decoded_ldpc") (map snd r2)) as [r3|] eqn:H3; cbn [bind] in E; [discriminate|].
           apply map_res_err in H3 as (s & _ & H3). apply (step_err V s). right. exists "decoded_ldpc". congruence.
        -- apply map_res_err in H2 as (s & _ & H2). apply (step_err V s). right. exists "decoded_entropy". congruence.
      * apply map_res_err in H1 as (s & _ & H1). apply (step_err V s). left. congruence.
    + intro F. destruct (passes_ok V results F) as (r1 & r2 & r3 & H1 & H2 & H3). rewrite H1 in E. cbn [bind] in E. rewrite H2 in E. cbn [bind] in E. rewrite H3 in E. discriminate.
Qed.
Print Assumptions c110_split.

(** A run stopped after any number of files leaves a beginning of the files; running the script again leaves the directory as one run would have. *)
Theorem c110_again : forall V S summary results dir k,
  run_fix V S 3 summary results (run_fix V S k summary results dir) = run_fix V S 3 summary results dir /\
  (fix_results V S summary results = Err KeyError \/ fix_results V S summary results = Err AttributeError -> run_fix V S k summary results dir = dir) /\
  forall f, ~ In f ["data"; "decoded_ldpc"; "decoded_entropy"] -> dict_get String.eqb (run_fix V S k summary results dir) f = dict_get String.eqb dir f.
Proof.
  intros V S summary results dir k. unfold run_fix. destruct (fix_results V S summary results) as [fs|e] eqn:E; [|repeat split; auto].
  assert (K : map fst fs = ["data"; "decoded_ldpc"; "decoded_entropy"]).
  { unfold fix_results in E. destruct (map_res (data_step V) results) as [r1|]; cbn [bind] in E; [|discriminate].
    destruct (map_res (pop V "decoded_entropy") r1) as [r2|]; cbn [bind] in E; [|discriminate].
    destruct (map_res (pop V "decoded_ldpc") (map snd r2)) as [r3|]; cbn [bind] in E; [|discriminate].
    assert (X : forall a b : list (string * content V S), Ok a = Ok b -> a = b) by congruence. apply X in E. rewrite <- E. reflexivity. }
  assert (L : firstn 3 fs = fs). { apply firstn_all2. rewrite <- (map_length fst), K. cbn. lia. }
  rewrite L. split; [|split].
  - apply (sets_again fs k dir). rewrite K. repeat constructor; cbn; intuition discriminate.
  - intros [H|H]; discriminate.
  - intros f H. assert (G : forall (l d : list (string * content V S)), (forall x, In x (map fst l) -> In x (map fst fs)) -> dict_get String.eqb (sets l d) f = dict_get String.eqb d f).
    { induction l as [|[x w] l IH]; intros d I; [reflexivity|]. cbn [sets fold_left fst snd]. fold (sets l (dict_set String.eqb d x w)). rewrite IH; [|intros y Iy; apply I; now right].
      apply get_set_other. intros ->. apply H. rewrite <- K. apply I. now left. }
    apply G. intros x I. apply in_map_iff in I as (y & <- & I). apply in_map. rewrite <- (firstn_skipn k fs). apply in_or_app. now left.
Qed.
Print Assumptions c110_again.

(** Examples: one step; a table with two columns of the same name keeps the last; a step whose words were already lists. *)
Definition ex_step : step nat :=
  [("raw_ber", Other nat 5); ("decoded_entropy", Frame nat [("hamming", [0; 2]); ("hamming", [1; 1])]); ("data", Frame nat [("estimate", [7; 7])]);
   ("decoded_ldpc", Frame nat [("hamming", [3; 4])])].
Example c110_ex : fix_results nat nat [("stats", 1); ("args", 2)] [ex_step] =
  Ok [("data", Data nat nat [("stats", Stats nat nat [[("raw_ber", Other nat 5); ("data", Lists nat [("estimate", [7; 7])])]]); ("args", Value nat nat 2)]);
      ("decoded_ldpc", Decoded nat nat "decoded_ldpc" [[("hamming", [3; 4])]]); ("decoded_entropy", Decoded nat nat "decoded_entropy" [[("hamming", [1; 1])]])].
Proof. reflexivity. Qed.
Example c110_ex_splittable : splittable nat ex_step.
Proof.
  split; [repeat constructor; cbn; intuition discriminate|]. intros k [<-|[<-|[<-|[]]]]; eexists; cbn; tauto.
Qed.
Example c110_ex_lists : fix_results nat nat [] [ex_step; [("data", Frame nat []); ("decoded_entropy", Lists nat []); ("decoded_ldpc", Frame nat [])]] = Err AttributeError /\
  fix_results nat nat [] [ex_step; [("data", Frame nat []); ("decoded_ldpc", Frame nat [])]] = Err KeyError.
Proof. split; reflexivity. Qed.
Example c110_ex_stopped : map fst (run_fix nat nat 1 [] [ex_step] []) = ["data"].
Proof. reflexivity. Qed.
