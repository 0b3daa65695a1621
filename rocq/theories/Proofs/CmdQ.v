(** Lemmas about whole command lines: options with their values, written [--name value] or [--name=value]. *)
From Coq Require Import String Ascii List ZArith NArith Bool Lia.
From Verif.Model Require Import Py ShipLog Cmd Commands.
From Verif.Spec Require Import CmdSpec.
From Verif.Proofs Require Import CmdP.
Import ListNotations.

(** Names argparse finds as they are. *)
Definition fine_name (t : text) : bool := forallb (fun c => negb (c =? 61)%N) t && negb (text_eqb t (ascii "help")).
Definition fine (s : script) : bool := nodupb (map o_name (s_options s)) && forallb (fun o => fine_name (ascii (o_name o))) (s_options s).
Lemma fine_all : forallb fine scripts = true.
Proof. vm_compute. reflexivity. Qed.

Lemma text_eqb_refl t : text_eqb t t = true.
Proof. now apply text_eqb_spec. Qed.
Lemma before_app t u : Forall (fun c => c <> 61%N) t -> before_eq (t ++ 61%N :: u) = t.
Proof.
  induction 1 as [|c t H _ IH]; [reflexivity|]. cbn [app before_eq]. apply N.eqb_neq in H. rewrite H, IH. reflexivity.
Qed.
Lemma after_app t u : Forall (fun c => c <> 61%N) t -> after_eq (t ++ 61%N :: u) = Some u.
Proof.
  induction 1 as [|c t H _ IH]; [reflexivity|]. cbn [app after_eq]. apply N.eqb_neq in H. now rewrite H.
Qed.

Section Line.
Variable F : Type.
Variable read_float : text -> option F.
Variable literal : string -> F.
Variable opts : list opt.
Hypothesis distinct : NoDup (map o_name opts).
Hypothesis names : forall o, In o opts -> fine_name (ascii (o_name o)) = true.

Lemma ascii_inj a b : ascii a = ascii b -> a = b.
Proof.
  revert b; induction a as [|x a IH]; intros [|y b] E; cbn in E; try discriminate; [reflexivity|].
  injection E as E1 E2. f_equal; [|now apply IH]. apply (f_equal ascii_of_N) in E1. now rewrite !ascii_N_embedding in E1.
Qed.
Lemma long_plain o : In o opts -> Forall (fun c => c <> 61%N) (long o).
Proof using names.
  intro I. unfold long. change (ascii "--") with [45; 45]%N. apply Forall_app. split; [repeat constructor; discriminate|].
  specialize (names o I). unfold fine_name in names. apply andb_true_iff in names as [N _]. rewrite forallb_forall in N.
  apply Forall_forall. intros c Hc. specialize (N c Hc). apply negb_true_iff, N.eqb_neq in N. exact N.
Qed.
Lemma find_own o : In o opts -> find_long opts (long o) = Some o.
Proof using distinct.
  intro I. unfold find_long.
  assert (U : forall p, In p opts -> text_eqb (long p) (long o) = true -> p = o).
  { intros p Ip E. apply text_eqb_spec in E. unfold long in E. apply app_inv_head in E. apply ascii_inj in E.
    eapply same_name; eassumption. }
  revert I U. clear. induction opts as [|p l IH]; intros I U; [easy|]. cbn [find].
  destruct (text_eqb (long p) (long o)) eqn:E; [now rewrite (U p (or_introl eq_refl) E)|].
  apply IH; [|intros q Iq; apply U; now right]. destruct I as [->|I]; [now rewrite text_eqb_refl in E|exact I].
Qed.
Lemma find_eq t u : find_long opts (t ++ 61%N :: u) = None.
Proof using names.
  unfold find_long. assert (G : forall o, In o opts -> text_eqb (long o) (t ++ 61%N :: u) = false).
  { intros o I. destruct (text_eqb _ _) eqn:E; [|reflexivity]. apply text_eqb_spec in E. pose proof (long_plain o I) as P.
    rewrite E in P. apply Forall_app in P as [_ P]. inversion P; congruence. }
  revert G. clear. induction opts as [|p l IH]; intro G; [reflexivity|]. cbn [find].
  rewrite (G p (or_introl eq_refl)). apply IH. intros o I. apply G. now right.
Qed.
Lemma not_help o u : In o opts -> (u = [] \/ exists v, u = 61%N :: v) ->
  text_eqb (long o ++ u) (ascii "-h") || text_eqb (long o ++ u) (ascii "--help") = false.
Proof using names.
  intros I U. apply orb_false_iff. split.
  - unfold long. change (ascii "--") with [45; 45]%N. change (ascii "-h") with [45; 104]%N. reflexivity.
  - unfold long. change (ascii "--help") with (ascii "--" ++ ascii "help"). destruct (text_eqb _ _) eqn:E; [|reflexivity].
    apply text_eqb_spec in E. rewrite <- app_assoc in E. apply app_inv_head in E.
    specialize (names o I). unfold fine_name in names. apply andb_true_iff in names as [_ N]. apply negb_true_iff in N.
    destruct U as [-> |(v & ->)].
    + rewrite app_nil_r in E. rewrite E in N. now rewrite text_eqb_refl in N.
    + assert (K : In 61%N (ascii "help")) by (rewrite <- E; apply in_or_app; right; now left).
      change (ascii "help") with [104; 101; 108; 112]%N in K. cbn [In] in K. lia.
Qed.
Lemma classify_own o : In o opts -> classify opts (long o) = Named o None.
Proof using distinct names.
  intro I. pose proof (not_help o [] I (or_introl eq_refl)) as N. rewrite app_nil_r in N. pose proof (find_own o I) as Fo.
  unfold long in *. change (ascii "--") with [45; 45]%N in *. cbn [app] in *. unfold classify.
  rewrite N, Fo. reflexivity.
Qed.
Lemma classify_eq o v : In o opts -> classify opts (long o ++ 61%N :: v) = Named o (Some v).
Proof using distinct names.
  intro I. pose proof (not_help o (61%N :: v) I (or_intror (ex_intro _ v eq_refl))) as N. pose proof (find_own o I) as Fo.
  pose proof (find_eq (long o) v) as Fe. pose proof (before_app (long o) v (long_plain o I)) as B. pose proof (after_app (long o) v (long_plain o I)) as A.
  unfold long in *. change (ascii "--") with [45; 45]%N in *. cbn [app] in *. unfold classify.
  rewrite N, Fe, A, B, Fo. reflexivity.
Qed.

(** One option of a command line. *)
Lemma parse_given ns o v e rest : In o opts -> (e = false -> argument v) ->
  parse_from F read_float opts ns (given_text (o, v, e) ++ rest) =
  match convert F read_float (o_type o) v with Some x => parse_from F read_float opts (set F (o_name o) x ns) rest | None => None end.
Proof using distinct names.
  intros I A. destruct e; cbn [given_text app parse_from].
  - now rewrite classify_eq.
  - rewrite classify_own by assumption. now rewrite classify_argument by (now apply A).
Qed.
Lemma get_set x y w (ns : namespace F) : get (set F x w ns) y = if String.eqb x y then option_map (fun _ => w) (get ns y) else get ns y.
Proof.
  unfold set. induction ns as [|[z u] ns IH]; cbn [map get]; [now destruct (String.eqb x y)|].
  cbn [fst]. destruct (String.eqb_spec z x) as [Z|Z]; cbn [get]; rewrite IH; destruct (String.eqb_spec x y) as [X|X], (String.eqb_spec z y) as [Y|Y];
    subst; congruence || reflexivity.
Qed.
Lemma line_ok l : Forall (fun g => let '(o, v, e) := g in In o opts /\ (e = false -> argument v) /\ convert F read_float (o_type o) v <> None) l ->
  forall ns, (forall o, In o opts -> get ns (o_name o) <> None) ->
  exists ns', parse_from F read_float opts ns (flat_map given_text l) = Some ns' /\
    forall o, In o opts -> get ns' (o_name o) = match last_given (o_name o) l with Some v => convert F read_float (o_type o) v | None => get ns (o_name o) end.
Proof using distinct names.
  induction 1 as [|[[o v] e] l (I & A & Cv) _ IH]; intros ns G; [exists ns; split; reflexivity|].
  cbn [flat_map]. rewrite parse_given by assumption. destruct (convert F read_float (o_type o) v) as [x|] eqn:Ex; [|congruence].
  destruct (IH (set F (o_name o) x ns)) as (ns' & P & Q).
  { intros o' I'. rewrite get_set. specialize (G o' I'). destruct (String.eqb _ _); [|exact G]. now destruct (get ns (o_name o')). }
  exists ns'. split; [exact P|]. intros o' I'. rewrite (Q o' I'). cbn [last_given]. destruct (last_given (o_name o') l) as [w|]; [reflexivity|].
  rewrite get_set. destruct (String.eqb_spec (o_name o) (o_name o')) as [E|]; [|reflexivity].
  assert (o = o') as <- by (eapply same_name; eassumption).
  rewrite Ex. specialize (G o I). now destruct (get ns (o_name o)).
Qed.
Lemma line_bad l : Forall (fun g => let '(o, v, e) := g in In o opts /\ (e = false -> argument v)) l ->
  Exists (fun g => let '(o, v, e) := g in convert F read_float (o_type o) v = None) l ->
  forall ns, parse_from F read_float opts ns (flat_map given_text l) = None.
Proof using distinct names.
  induction 1 as [|[[o v] e] l (I & A) _ IH]; intros B ns; [inversion B|].
  cbn [flat_map]. rewrite parse_given by assumption. destruct (convert F read_float (o_type o) v) as [x|] eqn:Ex; [|reflexivity].
  apply IH. inversion B; [congruence|assumption].
Qed.
Lemma get_defaults o : In o opts -> get (defaults F literal opts) (o_name o) = Some (default_value F literal (o_default o)).
Proof using distinct.
  revert distinct. generalize opts. clear. intro l. induction l as [|p l IH]; intros D I; [easy|]. cbn [defaults map get]. cbn [map] in D. inversion D as [|? ? D1 D2]; subst.
  destruct (String.eqb_spec (o_name p) (o_name o)) as [E|E].
  - destruct I as [->|I]; [reflexivity|]. exfalso. apply D1. rewrite E. now apply in_map.
  - destruct I as [->|I]; [congruence|]. now apply IH.
Qed.
End Line.
