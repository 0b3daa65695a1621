(** C116: every module and script gets what it imports, whatever was imported before and whatever failed, apart from five scripts. *)
From Coq Require Import String List Bool Arith Lia.
From Verif Require Import Model.Imports Model.ImportsTable Spec.ImportsSpec Proofs.ImportsP.
Import ListNotations.
Local Open Scope string_scope.
Local Open Scope list_scope.

(** Whatever was imported before in the process, in any order and whatever failed then, the import of any module of the code gets to its end,
    unless one of the statements run for it fails for another reason than an import of the code: no name is missing, no module is imported
    without end. *)
Theorem c116_modules fuel ms before later m : 20 <= fuel -> Forall (fun k => In k module_names) ms -> In m module_names ->
  let r := snd (import_module modules fuel m (process fuel ms before later)) in r = IDone \/ (r = IFailed /\ In true later).
Proof.
  intros D A M. pose proof (process_inv fuel ms before later D A) as I. destruct (import_module modules fuel m (process fuel ms before later)) as [s r] eqn:E. cbn [snd].
  destruct (import_sound fuel [] m _ s r (module_check fuel m D M) I E) as (_ & R & _ & Q). destruct R as [R|R]; [left; exact R|]. right. split; [exact R|].
  destruct (quiet_or later) as [L|L]; [|exact L]. destruct (Q L). congruence.
Qed.
Print Assumptions c116_modules.

(** The outcomes of all imports of a process; without failures all are got to the end. *)
Theorem c116_session fuel ms before : 20 <= fuel -> Forall (fun k => In k module_names) ms ->
  let rs := snd (session modules fuel ms (fresh before)) in
  length rs = length ms /\ Forall (fun r => r = IDone \/ r = IFailed) rs /\ (~ In true before -> Forall (fun r => r = IDone) rs).
Proof.
  intros D A. destruct (session_inv fuel D ms (fresh before) A (inv_fresh before)) as (_ & R & L & Q). split; [exact L|]. split; [exact R|]. intros N. apply Q.
  destruct (quiet_or before); [assumption|contradiction].
Qed.
Print Assumptions c116_session.

(** Between imports every module in sys.modules is complete: it has every name its text binds, and no others apart from modules inside it; and a
    module whose import got to its end is there. *)
Theorem c116_complete fuel ms before later m ns : 20 <= fuel -> Forall (fun k => In k module_names) ms -> names_of m (process fuel ms before later) = Some ns ->
  exists e, file_of modules m = Some e /\ (forall x, In x (provides e) -> In x ns) /\ (forall x, In x ns -> In x (provides e) \/ In x (submodules m)).
Proof.
  intros D A N. destruct (proj1 (process_inv fuel ms before later D A) m ns N) as (e & F & U & L). exists e. split; [exact F|]. split; [exact L|]. intros x X. destruct (U x X) as [P|S]; [left; exact P|].
  right. rewrite (file_of_name _ _ F) in S. exact S.
Qed.
Print Assumptions c116_complete.

Theorem c116_there fuel ms before later m : 20 <= fuel -> Forall (fun k => In k module_names) ms -> In m module_names ->
  let '(s, r) := import_module modules fuel m (process fuel ms before later) in
  r = IDone -> exists e ns, file_of modules m = Some e /\ names_of m s = Some ns /\ forall x, In x (provides e) -> In x ns.
Proof.
  intros D A M. pose proof (process_inv fuel ms before later D A) as I. destruct (import_module modules fuel m (process fuel ms before later)) as [s r] eqn:E. intros R.
  destruct (import_sound fuel [] m _ s r (module_check fuel m D M) I E) as (I' & _ & N & _). specialize (N R). destruct (names_of m s) as [ns|] eqn:Q; [|congruence].
  destruct (proj1 I' m ns Q) as (e & F & _ & L). exists e, ns. auto.
Qed.
Print Assumptions c116_there.

(** The names of __all__ are names the package binds, so that from package import * finds all of them. *)
Theorem c116_exports m xs : In (m, xs) exports -> exists e, file_of modules m = Some e /\ forall x, In x xs -> In x (provides e).
Proof.
  assert (C : forallb (fun f => match file_of modules (fst f) with Some e => forallb (fun x => mem x (provides e)) (snd f) | None => false end) exports = true) by (vm_compute; reflexivity).
  intros I. pose proof (proj1 (forallb_forall _ _) C (m, xs) I) as H. cbn [fst snd] in H. destruct (file_of modules m) as [e|]; [|discriminate]. exists e. split; [reflexivity|].
  intros x X. apply mem_In. exact (proj1 (forallb_forall _ _) H x X).
Qed.
Print Assumptions c116_exports.

(** Every script gets past its imports, apart from the five of [broken_scripts], each of which stops at the name its package does not have,
    whatever was imported before; or one of the statements run fails. *)
Theorem c116_scripts fuel ms before later script body : 20 <= fuel -> Forall (fun k => In k module_names) ms -> In (script, body) import_scripts ->
  let r := snd (run_script modules fuel body (process fuel ms before later)) in r = expected script \/ (r = IFailed /\ In true later).
Proof.
  intros D A M. pose proof (process_inv fuel ms before later D A) as I. destruct (run_script modules fuel body (process fuel ms before later)) as [s r] eqn:E. cbn [snd].
  destruct (script_says fuel (script, body) D M) as [U W]. cbn [fst snd] in *. destruct (scan_sound fuel body _ s r I U E) as (_ & R & Q). destruct R as [R|R]; [left; apply W; exact R|].
  destruct (quiet_or later) as [L|L]; [left; apply W, Q; exact L|right; auto].
Qed.
Print Assumptions c116_scripts.

(** The five are scripts of the code, and no others stop. *)
Theorem c116_broken script : In script (map fst broken_scripts) <-> exists body, In (script, body) import_scripts /\ expected script <> IDone.
Proof.
  split.
  - assert (C : forallb (fun f => existsb (String.eqb f) (map fst import_scripts)) (map fst broken_scripts) = true) by (vm_compute; reflexivity).
    intros I. pose proof (proj1 (forallb_forall _ _) C script I) as H. cbv beta in H. apply existsb_exists in H as (y & Y & E). apply String.eqb_eq in E. subst y.
    apply in_map_iff in Y as ([y body] & E & Y). cbn [fst] in E. subst y. exists body. split; [exact Y|]. unfold expected.
    destruct (find (fun e => fst e =? script) broken_scripts) as [[a [b c]]|] eqn:F; [discriminate|]. apply in_map_iff in I as (z & E & Z). apply (find_none _ _ F) in Z. cbv beta in Z. rewrite E, String.eqb_refl in Z. discriminate.
  - intros (body & _ & E). unfold expected in E. destruct (find (fun e => fst e =? script) broken_scripts) as [z|] eqn:F; [|congruence]. apply find_some in F as [Z E']. apply String.eqb_eq in E'. subst script.
    apply in_map. exact Z.
Qed.
Print Assumptions c116_broken.

(** As long as nothing fails no module is executed twice, whatever is imported in whichever order. *)
Theorem c116_once fuel ms before : 20 <= fuel -> Forall (fun k => In k module_names) ms -> ~ In true before -> NoDup (begun (fst (session modules fuel ms (fresh before)))).
Proof.
  intros D A N. apply once_session; [split; [constructor|intros m []]|]. apply c116_session; assumption.
Qed.
Print Assumptions c116_once.

(** ** Examples *)
(** The modules of the sub-packages, in an unusual order; one module is executed once though it is imported three times. *)
Example c116_ex_session : snd (session modules 20 ["decoders.mavlink_decoder"; "utils"; "decoders.turbo"; "decoders"] (fresh [])) = [IDone; IDone; IDone; IDone].
Proof. vm_compute. reflexivity. Qed.
(** Here a statement fails the first time; what was begun is taken out and is begun again. *)
Example c116_ex_retry :
  let '(s, rs) := session modules 20 ["decoders"; "decoders"] (fresh [false; false; false; true]) in
  rs = [IFailed; IDone] /\ Nat.ltb 1 (count_occ string_dec (begun s) "decoders") = true.
Proof. vm_compute. split; reflexivity. Qed.
(** The order of imports in a package matters: with the base class imported last, modules of the package do not find it. *)
Definition reordered : list modl :=
  map (fun e => if String.eqb (m_name e) "decoders" then
    let late x := match x with From m _ => String.eqb m "decoders.decoder" | _ => false end in
    {| m_name := m_name e; m_parent := m_parent e; m_last := m_last e; m_body := filter (fun x => negb (late x)) (m_body e) ++ filter late (m_body e) |} else e) modules.
Example c116_ex_order : snd (import_module reordered 20 "decoders" (fresh [])) = IMissing "decoders" "Decoder".
Proof. vm_compute. reflexivity. Qed.
Example c116_ex_broken :
  let script := "runs/HC_eilat_July_2018/simulated_data_entropy_bitwise_decoder_weighted_model.py" in
  match find (fun e => String.eqb (fst e) script) import_scripts with
  | Some (_, body) => snd (run_script modules 20 body (fresh [])) = IMissing "decoders" "EntropyBitwiseWeightedDecoder"
  | None => False
  end.
Proof. vm_compute. reflexivity. Qed.
