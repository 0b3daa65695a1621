(** C96: what unifying the results of a run gives. *)
From Coq Require Import String Ascii List ZArith NArith Bool Permutation Sorted Lia.
From Verif.Model Require Import Py ShipLog Cmd Unify.
From Verif.Spec Require Import UnifySpec.
From Verif.Proofs Require Import Base UnifyP.
Import ListNotations.

(** C96: the files ending in .pickle can be put in one order only by the time of their last change and then by name, and the unified results
    are theirs in this order, however the directory lists them. *)
Theorem c96_order V (d : dir V) : NoDup (map f_name d) ->
  exists fs, StronglySorted earlier fs /\ (forall f, In f fs <-> In f d /\ is_pickle f) /\
    ((exists f, In f fs /\ f_content f = Broken) -> unify V d = (None, Err RuntimeError)) /\
    (forall ds, map f_content fs = map Whole ds ->
       fst (unify V d) = Some ds /\
       (ds = [] -> snd (unify V d) = Err IndexError) /\
       ((exists x, In x ds /\ ~ has_keys x) -> snd (unify V d) = Err KeyError) /\
       (ds <> [] -> (forall x, In x ds -> has_keys x) -> exists s, snd (unify V d) = Ok s /\ summary_of ds s)) /\
    (forall gs, StronglySorted earlier gs -> (forall f, In f gs <-> In f d /\ is_pickle f) -> gs = fs).
Proof.
  intro D. exists (picked V d). split; [now apply picked_sorted|]. split; [apply picked_in|]. split; [|split].
  - intro B. unfold unify. now rewrite (load_broken _ B).
  - intros ds E. apply unify_loaded. now apply load_whole.
  - intros gs S I. symmetry. now apply picked_is.
Qed.
Print Assumptions c96_order.

(** C96: the order in which the directory lists its files does not matter. *)
Theorem c96_listing V (d d' : dir V) : NoDup (map f_name d) -> Permutation d d' -> unify V d = unify V d'.
Proof.
  intros D P. unfold unify. rewrite (picked_is d' (picked V d)); [reflexivity| | |].
  - exact (Permutation_NoDup (Permutation_map f_name P) D).
  - now apply picked_sorted.
  - intro f. rewrite picked_in. split; intros [I K]; (split; [|exact K]);
      [apply (Permutation_in _ P I)|apply (Permutation_in _ (Permutation_sym P) I)].
Qed.
Print Assumptions c96_listing.

(** C96: a run whose steps write files of their own, in whatever order they begin and end, stopped at any moment: if no file was being written,
    the unified results are those of exactly the finished steps; if one was, none of the finished results are unified. *)
Theorem c96_crash V op dn (es : list (event V)) : run_history op dn es -> (forall n, In n (op ++ map f_name dn) -> exists s, n = s ++ ascii ".pickle") ->
  NoDup (map f_name (after V [] es)) /\
  (op = [] -> Permutation (after V [] es) dn /\
     exists ds, fst (unify V (after V [] es)) = Some ds /\ Permutation (map Whole ds) (map f_content dn)) /\
  (op <> [] -> unify V (after V [] es) = (None, Err RuntimeError)).
Proof.
  intros H K. destruct (history_dir op dn es H) as (D & bs & Eb & Fb & P). split; [exact D|].
  assert (Q : forall f, In f (after V [] es) -> is_pickle f).
  { intros f I. apply K. rewrite <- Eb, <- map_app. apply in_map. eapply Permutation_in; eauto. }
  assert (PP : Permutation (picked V (after V [] es)) (after V [] es)).
  { apply NoDup_Permutation; [now apply sorted_nodup, picked_sorted|now apply NoDup_map_inv in D|].
    intro f. rewrite picked_in. split; [tauto|]. intro I. split; [exact I|now apply Q]. }
  split.
  - intros ->. apply map_eq_nil in Eb. subst bs. cbn in P. split; [exact P|].
    assert (W : forall f, In f dn -> exists r, f_content f = Whole r).
    { clear -H. remember [] as op in H. clear Heqop. induction H; intros f I; [easy|auto|].
      apply in_app_or in I as [I|[<-|[]]]; [now apply IHrun_history|]. eexists. reflexivity. }
    assert (X : forall fs, (forall f, In f fs -> exists r, f_content f = Whole r) -> exists ds, map f_content fs = map (@Whole V) ds).
    { clear. induction fs as [|f fs IH]; intro W; [now exists []|]. destruct (W f (or_introl eq_refl)) as (r & E).
      destruct IH as (ds & E'); [intros; apply W; now right|]. exists (r :: ds). cbn. now rewrite E, E'. }
    destruct (X (picked V (after V [] es))) as (ds & E).
    { intros f I. apply W. eapply Permutation_in; [exact P|]. eapply Permutation_in; [exact PP|exact I]. }
    exists ds. split; [now apply unify_loaded, load_whole|]. rewrite <- E. apply Permutation_map. now rewrite PP.
  - intro Ne. destruct bs as [|b bs]; [cbn in Eb; congruence|]. inversion Fb; subst. unfold unify. rewrite load_broken; [reflexivity|].
    exists b. split; [|assumption]. apply picked_in. assert (I : In b (after V [] es)) by (eapply Permutation_in; [symmetry; exact P|now left]). auto.
Qed.
Print Assumptions c96_crash.

(** C96: the least flip probability of the summary is the raw BER of the step whose file is the earliest. *)
Theorem c96_minflip V op dn (es : list (event V)) f r s : run_history op dn es -> (forall n, In n (op ++ map f_name dn) -> exists s, n = s ++ ascii ".pickle") ->
  In f dn -> f_content f = Whole r -> (forall g, In g dn -> g = f \/ earlier f g) ->
  snd (unify V (after V [] es)) = Ok s -> lookup V "raw_ber" r = Ok (u_minflip V s).
Proof.
  intros H K I C F E. destruct (history_dir op dn es H) as (D & _ & _ & _ & _).
  destruct op as [|o op].
  2:{ destruct (c96_crash V _ _ _ H K) as (_ & _ & B). rewrite B in E by discriminate. discriminate. }
  destruct (c96_crash V _ _ _ H K) as (_ & A & _). destruct (A eq_refl) as (P & _).
  pose proof (picked_sorted _ D) as S.
  assert (If : In f (picked V (after V [] es))).
  { apply picked_in. split; [eapply Permutation_in; [symmetry; exact P|exact I]|]. apply K. cbn. now apply in_map. }
  destruct (picked V (after V [] es)) as [|x fs] eqn:Ep; [easy|].
  assert (x = f) as ->.
  { destruct If as [|If]; [assumption|]. inversion S as [|? ? S1 S2]; subst. rewrite Forall_forall in S2. specialize (S2 f If).
    assert (Ix : In x dn). { eapply Permutation_in; [exact P|]. apply (picked_in (after V [] es) x). rewrite Ep. now left. }
    destruct (F x Ix) as [|Lx]; [assumption|]. exfalso. apply (earlier_irrefl f). eapply earlier_trans; eassumption. }
  unfold unify in E. rewrite Ep in E. cbn [map_res] in E. unfold load at 1 in E. rewrite C in E. cbn [bind] in E.
  destruct (map_res (load V) fs) as [ds|] eqn:L; cbn [bind snd] in E; [|discriminate].
  assert (L' : map_res (load V) (picked V (after V [] es)) = Ok (r :: ds)).
  { rewrite Ep. cbn [map_res]. unfold load at 1. rewrite C. cbn [bind]. now rewrite L. }
  destruct (unify_loaded _ _ L') as (_ & _ & B & G). unfold unify in B, G. rewrite L' in B, G. cbn [snd] in B, G.
  destruct (lookup V "raw_ber" r) as [v|] eqn:Er.
  - unfold column in E at 1. cbn [map_res] in E. rewrite Er in E. cbn [bind] in E.
    destruct (map_res (lookup V "raw_ber") ds) as [vs|]; cbn [bind] in E; [|discriminate].
    repeat match type of E with context [column V ?k ?l] => destruct (column V k l); cbn [bind] in E; [|discriminate] end.
    injection E as <-. reflexivity.
  - exfalso. unfold column in E at 1. cbn [map_res] in E. rewrite Er in E. cbn [bind] in E. discriminate.
Qed.
Print Assumptions c96_minflip.

(** C96: of two steps that take the same name, only the one that writes last is left: the directory is as if the first had never run. *)
Theorem c96_same_name V (d : dir V) n t0 t1 r1 t2 t3 r2 :
  after V d [Begin n t0; End n t1 r1; Begin n t2; End n t3 r2] = after V d [Begin n t2; End n t3 r2] /\
  after V d [Begin n t0; Begin n t2; End n t1 r1; End n t3 r2] = after V d [Begin n t2; End n t3 r2].
Proof. unfold after. cbn [fold_left happen]. split; rewrite !(put_put _ (File n t3 (Whole r2))); reflexivity. Qed.
Print Assumptions c96_same_name.

Definition step (p : Z) : dict Z :=
  [("raw_ber", p); ("ldpc_decoder_ber", p * 2); ("entropy_decoder_ber", p * 3); ("ldpc_buffer_success_rate", p * 4);
   ("entropy_buffer_success_rate", p * 5)]%string%Z.
Definition n1 := ascii "1_p1_entropy.pickle".
Definition n2 := ascii "1_p2_entropy.pickle".
(** Two workers: the step with the smaller probability begins first and ends last. *)
Definition race : list (event Z) := [Begin n1 10; Begin n2 10; End n2 11 (step 2); End n1 12 (step 1)]%Z.
Example c96_ex_history : run_history [] [File n2 11 (Whole (step 2)); File n1 12 (Whole (step 1))]%Z race.
Proof.
  apply (rh_end [] [] [File n2 11%Z (Whole (step 2))] [Begin n1 10%Z; Begin n2 10%Z; End n2 11%Z (step 2)] n1 12%Z (step 1)).
  apply (rh_end [] [n1] [] [Begin n1 10%Z; Begin n2 10%Z] n2 11%Z (step 2)). cbn [app].
  apply (rh_begin [n1] [] [Begin n1 10%Z] n2 10%Z).
  - apply (rh_begin [] [] [] n1 10%Z); [constructor|easy|easy].
  - intros [E|[]]. vm_compute in E. discriminate.
  - easy.
Qed.
Example c96_ex_unify : unify Z (after Z [] race) = (Some [step 2; step 1], Ok (Summary Z [2; 1] [4; 2] [6; 3] [8; 4] [10; 5] 2))%Z.
Proof. vm_compute. reflexivity. Qed.
Example c96_ex_stopped : unify Z (after Z [] (firstn 3 race)) = (None, Err RuntimeError).
Proof. vm_compute. reflexivity. Qed.
(** C96: the least flip probability of the summary need not be the least. *)
Theorem c96_minflip_refuted : exists dn (es : list (event Z)) s v, run_history [] dn es /\
  snd (unify Z (after Z [] es)) = Ok s /\ In v (u_raw Z s) /\ (v < u_minflip Z s)%Z.
Proof.
  eexists _, race, _, 1%Z. split; [exact c96_ex_history|]. rewrite c96_ex_unify. cbn [snd]. split; [reflexivity|]. cbn. split; [auto|reflexivity].
Qed.
Print Assumptions c96_minflip_refuted.
(** A pickle that another run left in the directory is unified too; other files are not; a pickle of another kind stops the summary only. *)
Example c96_ex_leftover : unify Z (File (ascii "log.txt") 1 Broken :: File (ascii "0_old.pickle") 5 (Whole (step 7)) :: after Z [] race)%Z =
  (Some [step 7; step 2; step 1], Ok (Summary Z [7; 2; 1] [14; 4; 2] [21; 6; 3] [28; 8; 4] [35; 10; 5] 7))%Z.
Proof. vm_compute. reflexivity. Qed.
Example c96_ex_other : unify Z (File (ascii "0_summary.pickle") 15 (Whole [("args"%string, 0)]) :: after Z [] race)%Z =
  (Some [step 2; step 1; [("args"%string, 0)]], Err KeyError)%Z.
Proof. vm_compute. reflexivity. Qed.
