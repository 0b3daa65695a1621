(** The classes of options of a file, and the checks of C114. *)
From Coq Require Import String ZArith NArith List Bool Lia.
From Verif Require Import Model.Names Model.NamesTable Spec.NamesSpec Proofs.NamesP.
Import ListNotations.
Local Open Scope string_scope.
Local Open Scope list_scope.

(** ** Values of options which conditions tell apart *)
Fixpoint atoms (c : cond) : list (string * value) :=
  match c with
  | Opaque => []
  | Is o v => [(o, v)]
  | Truthy o => [(o, VInt 0); (o, VStr "")]
  | Not c => atoms c
  | Or c d => atoms c ++ atoms d
  end.
Definition other : value := VStr "another".
Definition seen (ats : list (string * value)) (o : string) (v : value) : bool := existsb (fun a => (o =? fst a)%string && value_eqb v (snd a)) ats.
Definition rep (ats : list (string * value)) (opts : string -> value) (o : string) : value := if seen ats o (opts o) then opts o else other.

Lemma value_eqb_eq a b : value_eqb a b = true <-> a = b.
Proof. destruct a, b; cbn; try (split; discriminate); [rewrite Z.eqb_eq|rewrite String.eqb_eq]; split; congruence. Qed.
Lemma seen_true ats o v : seen ats o v = true <-> In (o, v) ats.
Proof.
  unfold seen. rewrite existsb_exists. split.
  - intros ([o' v'] & I & E). cbn in E. apply andb_true_iff in E as [E1 E2]. apply String.eqb_eq in E1. apply value_eqb_eq in E2. subst. exact I.
  - intros I. exists (o, v). split; [exact I|]. cbn. rewrite String.eqb_refl. apply value_eqb_eq. reflexivity.
Qed.
Lemma rep_is ats opts o v : In (o, v) ats -> v <> other -> value_eqb (rep ats opts o) v = value_eqb (opts o) v.
Proof.
  intros I N. unfold rep. destruct (seen ats o (opts o)) eqn:S; [reflexivity|].
  destruct (value_eqb (opts o) v) eqn:E; [|destruct (value_eqb other v) eqn:E2; [apply value_eqb_eq in E2; congruence|reflexivity]].
  apply value_eqb_eq in E. rewrite E in S. apply seen_true in I. congruence.
Qed.
Lemma test_rep ats opts c : (forall a, In a (atoms c) -> In a ats) -> (forall a, In a ats -> snd a <> other) -> test (rep ats opts) c = test opts c.
Proof.
  intros I N. induction c; cbn [test atoms] in *; [reflexivity| | | |].
  - rewrite rep_is; [reflexivity|apply I; left; reflexivity|apply (N (o, v)); apply I; left; reflexivity].
  - f_equal. assert (A : forall v, truthy v = negb (value_eqb v (VInt 0) || value_eqb v (VStr ""))) by (intros []; cbn; [rewrite orb_false_r|]; reflexivity).
    rewrite !A, !rep_is; [reflexivity| | | |]; try (apply I; cbn; tauto); discriminate.
  - rewrite IHc; [reflexivity|exact I].
  - rewrite IHc1, IHc2; [reflexivity| |]; intros a A; apply I, in_or_app; auto.
Qed.

(** ** All the classes *)
Definition vals (ats : list (string * value)) (o : string) : list value := map snd (filter (fun a => (o =? fst a)%string) ats) ++ [other].
Fixpoint assigns (ats : list (string * value)) (os : list string) : list (list (string * value)) :=
  match os with
  | [] => [[]]
  | o :: os => let r := assigns ats os in flat_map (fun v => map (cons (o, v)) r) (vals ats o)
  end.
Fixpoint lookup (l : list (string * value)) (o : string) : value :=
  match l with [] => other | (k, v) :: l => if (o =? k)%string then v else lookup l o end.
Lemma assigns_in ats g : (forall o, In (g o) (vals ats o)) -> forall os, In (map (fun o => (o, g o)) os) (assigns ats os).
Proof. intros G. induction os as [|o os IH]; [left; reflexivity|]. cbn. apply in_flat_map. exists (g o). split; [apply G|]. apply in_map. exact IH. Qed.
Lemma lookup_map g os o : lookup (map (fun o => (o, g o)) os) o = if existsb (String.eqb o) os then g o else other.
Proof. induction os as [|k os IH]; [reflexivity|]. cbn. destruct (o =? k)%string eqn:E; [apply String.eqb_eq in E; subst; reflexivity|exact IH]. Qed.
Lemma rep_vals ats opts o : In (rep ats opts o) (vals ats o).
Proof.
  unfold rep, vals. destruct (seen ats o (opts o)) eqn:S; [|apply in_or_app; right; left; reflexivity]. apply in_or_app. left. apply seen_true in S.
  apply in_map_iff. exists (o, opts o). split; [reflexivity|]. apply filter_In. split; [exact S|apply String.eqb_refl].
Qed.
Definition pair_dec (a b : string * value) : {a = b} + {a <> b}.
Proof. decide equality; [decide equality; [apply Z.eq_dec|apply string_dec]|apply string_dec]. Defined.
Definition file_atoms (f : file) : list (string * value) := nodup pair_dec (flat_map atoms (conds_in (f_body f))).
Definition classes (f : file) : list (string -> value) := let ats := file_atoms f in map lookup (assigns ats (nodup string_dec (map fst ats))).

Definition atoms_ok (f : file) : bool := forallb (fun a => negb (value_eqb (snd a) other)) (file_atoms f).
Definition cond_ok (f : file) (c : cond) : bool := forallb (fun a => seen (file_atoms f) (fst a) (snd a)) (atoms c).

Lemma classes_all f opts : atoms_ok f = true -> exists o, In o (classes f) /\ (forall l, run_file opts f l = run_file o f l) /\ forall c, cond_ok f c = true -> test opts c = test o c.
Proof.
  intros K. set (ats := file_atoms f). set (os := nodup string_dec (map fst ats)).
  assert (N : forall a, In a ats -> snd a <> other).
  { intros a I E. unfold atoms_ok in K. rewrite forallb_forall in K. specialize (K a I). rewrite E in K. discriminate. }
  exists (lookup (map (fun o => (o, rep ats opts o)) os)). split; [|].
  - unfold classes. apply in_map. apply assigns_in. intros o. apply rep_vals.
  - assert (E : forall o, lookup (map (fun o => (o, rep ats opts o)) os) o = rep ats opts o).
    { intros o. rewrite lookup_map. destruct (existsb (String.eqb o) os) eqn:X; [reflexivity|]. unfold rep. destruct (seen ats o (opts o)) eqn:S; [|reflexivity].
      apply seen_true in S. apply (in_map fst) in S. cbn in S. apply (nodup_In string_dec) in S. fold os in S.
      assert (existsb (String.eqb o) os = true) by (apply existsb_exists; exists o; split; [exact S|apply String.eqb_refl]). congruence. }
    assert (T : forall c, (forall a, In a (atoms c) -> In a ats) -> test opts c = test (lookup (map (fun o => (o, rep ats opts o)) os)) c).
    { intros c I. rewrite <- (test_rep ats opts c I N). clear I. induction c; cbn; rewrite ?E; try congruence. rewrite IHc. reflexivity. rewrite IHc1, IHc2. reflexivity. }
    split.
    + intros l. unfold run_file. f_equal. apply exec_alike. intros c C. apply T. intros a A. apply nodup_In. apply in_flat_map. exists c. split; assumption.
    + intros c C. apply T. intros [o v] A. unfold cond_ok in C. rewrite forallb_forall in C. specialize (C _ A). apply seen_true in C. exact C.
Qed.

(** ** The tables, checked class by class *)
Definition holds (o : string -> value) (cs : list cond) : bool := forallb (fun c => match test o c with Some true => true | _ => false end) cs.
Definition in_table (o : string -> value) (t : list (string * string * list cond)) (n x : string) : bool :=
  existsb (fun e => let '(n', x', cs) := e in (n =? n')%string && (x =? x')%string && holds o cs) t.
Definition in_library (t : list (string * list string)) (n x : string) : bool := existsb (fun e => (n =? fst e)%string && existsb (String.eqb x) (snd e)) t.
Definition table_ok (f : file) (t : list (string * string * list cond)) : bool :=
  forallb (fun e => let '(n, _, cs) := e in negb (f_name f =? n)%string || forallb (cond_ok f) cs) t.

Lemma holds_true o cs : holds o cs = true <-> forall c, In c cs -> test o c = Some true.
Proof.
  unfold holds. rewrite forallb_forall. split; intros H c I; specialize (H c I); [destruct (test o c) as [[]|]; congruence|rewrite H; reflexivity].
Qed.
Lemma in_table_true o t n x : in_table o t n x = true <-> listed o t n x.
Proof.
  unfold in_table, listed. rewrite existsb_exists. split.
  - intros ([[n' x'] cs] & I & E). rewrite !andb_true_iff, !String.eqb_eq, holds_true in E. destruct E as [[-> ->] H]. exists cs. split; assumption.
  - intros (cs & I & H). exists (n, x, cs). split; [exact I|]. rewrite !String.eqb_refl. apply holds_true. exact H.
Qed.
Lemma in_library_true t n x : in_library t n x = true <-> listed_in t n x.
Proof.
  unfold in_library, listed_in. rewrite existsb_exists. split.
  - intros ([n' xs] & I & E). cbn in E. rewrite andb_true_iff, String.eqb_eq, existsb_exists in E. destruct E as [-> (y & Y & E)]. apply String.eqb_eq in E. subst y. exists xs. split; assumption.
  - intros (xs & I & X). exists (n, xs). split; [exact I|]. cbn. rewrite String.eqb_refl. apply existsb_exists. exists x. split; [exact X|apply String.eqb_refl].
Qed.
Lemma listed_class f t o o' x : table_ok f t = true -> (forall c, cond_ok f c = true -> test o c = test o' c) -> (listed o t (f_name f) x <-> listed o' t (f_name f) x).
Proof.
  intros K T. unfold table_ok in K. rewrite forallb_forall in K.
  assert (G : forall cs, In (f_name f, x, cs) t -> forall c, In c cs -> test o c = test o' c).
  { intros cs I c C. apply T. specialize (K _ I). cbn in K. rewrite String.eqb_refl in K. cbn in K. rewrite forallb_forall in K. exact (K c C). }
  split; intros (cs & I & H); exists cs; (split; [exact I|]); intros c C; [rewrite <- (G cs I c C)|rewrite (G cs I c C)]; exact (H c C).
Qed.

(** Every name which may be unbound is listed. *)
Definition bad_ok (quiet : bool) (ts : list (list (string * string * list cond))) (lib : list (string * list string)) (f : file) : bool :=
  atoms_ok f && forallb (table_ok f) ts &&
  forallb (fun o => forallb (fun i => match nth_error (f_vars f) (N.to_nat i) with Some x => existsb (fun t => in_table o t (f_name f) x) ts || in_library lib (f_name f) x | None => false end)
    (fl_bad (file_flow o quiet f))) (classes f).
Lemma bad_ok_sound quiet ts lib f opts l i : bad_ok quiet ts lib f = true -> lucky quiet l -> run_file opts f l = Unbound i ->
  exists x, nth_error (f_vars f) (N.to_nat i) = Some x /\ ((exists t, In t ts /\ listed opts t (f_name f) x) \/ listed_in lib (f_name f) x).
Proof.
  unfold bad_ok. rewrite !andb_true_iff, !forallb_forall. intros [[A T] C] L R. destruct (classes_all f opts A) as (o & O & RO & TO). specialize (C o O). rewrite forallb_forall in C.
  pose proof (file_sound o quiet f l L) as S. rewrite <- RO, R in S. specialize (C i S). destruct (nth_error (f_vars f) (N.to_nat i)) as [x|]; [|discriminate]. exists x. split; [reflexivity|].
  apply orb_true_iff in C as [C|C]; [|right; apply in_library_true; exact C]. left. apply existsb_exists in C as (t & I & E). exists t. split; [exact I|]. apply in_table_true in E.
  apply (listed_class f t opts o x (T t I) TO). exact E.
Qed.

(** Every listed name is unbound in some run. *)
Definition stops (o : string -> value) (f : file) (x : string) (l : luck) : bool :=
  match run_file o f l with Unbound i => match nth_error (f_vars f) (N.to_nat i) with Some y => (x =? y)%string | None => false end | _ => false end.
Definition stop_ok (tries : list luck) (t : list (string * string * list cond)) (f : file) : bool :=
  atoms_ok f && table_ok f t && forallb (fun o => forallb (fun e => let '(n, x, cs) := e in if (f_name f =? n)%string && holds o cs then match find (stops o f x) tries with Some _ => true | None => false end else true) t) (classes f).
Lemma stop_ok_sound tries t f opts x : stop_ok tries t f = true -> listed opts t (f_name f) x -> exists l, In l tries /\ reads_unbound opts f l x.
Proof.
  unfold stop_ok. rewrite !andb_true_iff, !forallb_forall. intros [[A T] C] H. destruct (classes_all f opts A) as (o & O & RO & TO). destruct (proj1 (listed_class f t opts o x T TO) H) as (cs & I & HC). clear H. rename HC into H.
  specialize (C o O). rewrite forallb_forall in C. specialize (C _ I). cbn in C. rewrite String.eqb_refl in C. rewrite (proj2 (holds_true o cs) H) in C. cbn in C.
  destruct (find (stops o f x) tries) as [l|] eqn:FL; [|discriminate]. apply find_some in FL as [IL E]. exists l. split; [exact IL|]. unfold stops in E. rewrite <- RO in E. destruct (run_file opts f l) as [| | | | |i] eqn:R; try discriminate.
  destruct (nth_error (f_vars f) (N.to_nat i)) as [y|] eqn:Y; [|discriminate]. apply String.eqb_eq in E. subst y. exists i. split; assumption.
Qed.

(** A run which gets to the end: conditions are turned one by one until none leads to a raise. *)
Definition free (p : list bool) : luck := {| fails := []; turns := []; picks := p |}.
Fixpoint bump (r : list bool) : list bool := match r with [] => [] | false :: r => true :: r | true :: r => bump r end.
Fixpoint get_through (fuel : nat) (o : string -> value) (f : file) (p : list bool) : bool :=
  match fuel with
  | O => false
  | S fuel =>
      let q := p ++ repeat false 600 in
      match exec_block o (f_body f) (fun _ => false, free q) with
      | (Done, _) => true
      | (_, (_, l)) => get_through fuel o f (rev (bump (rev (firstn (length q - length (picks l)) q))))
      end
  end.
Lemma get_through_done fuel o f : forall p, get_through fuel o f p = true -> exists q, run_file o f (free q) = Done.
Proof.
  induction fuel as [|fuel IH]; intros p; [discriminate|]. cbn [get_through]. unfold run_file.
  destruct (exec_block o (f_body f) (fun _ => false, free (p ++ repeat false 600))) as [r [e l]] eqn:E. destruct r; intros H; try (exact (IH _ H)).
  exists (p ++ repeat false 600). rewrite E. reflexivity.
Qed.
Lemma free_calm p : calm (free p).
Proof. split; constructor. Qed.

Definition end_table_ok (f : file) : bool := forallb (fun e => negb (f_name f =? fst e)%string || cond_ok f (snd e)) no_end.
Definition in_no_end (o : string -> value) (f : file) : bool := existsb (fun e => (f_name f =? fst e)%string && holds o [snd e]) no_end.
Definition end_ok (f : file) : bool :=
  atoms_ok f && end_table_ok f && forallb (fun o => if in_no_end o f then match fl_done (file_flow o true f) with None => true | Some _ => false end else get_through 100 o f []) (classes f).
Lemma in_no_end_true o f : in_no_end o f = true <-> exists c, In (f_name f, c) no_end /\ test o c = Some true.
Proof.
  unfold in_no_end. rewrite existsb_exists. split.
  - intros ([n c] & I & E). cbn [fst snd] in E. rewrite andb_true_iff, String.eqb_eq, holds_true in E. destruct E as [<- H]. exists c. split; [exact I|apply H; left; reflexivity].
  - intros (c & I & H). exists (f_name f, c). split; [exact I|]. cbn [fst snd]. rewrite String.eqb_refl. apply holds_true. intros d [<-|[]]. exact H.
Qed.
Lemma end_ok_sound f opts : end_ok f = true -> ((exists l, calm l /\ run_file opts f l = Done) <-> ~ exists c, In (f_name f, c) no_end /\ test opts c = Some true).
Proof.
  unfold end_ok. rewrite !andb_true_iff, !forallb_forall. intros [[A T] C]. destruct (classes_all f opts A) as (o & O & RO & TO). specialize (C o O).
  assert (E : in_no_end opts f = in_no_end o f).
  { unfold in_no_end, end_table_ok in *. rewrite forallb_forall in T. revert T. generalize no_end. induction l as [|e l IH]; [reflexivity|]. intros T. cbn [existsb]. rewrite IH by (intros; apply T; right; assumption). f_equal.
    specialize (T e (or_introl eq_refl)). destruct (f_name f =? fst e)%string; [|reflexivity]. cbn in T. cbn. rewrite (TO _ T). reflexivity. }
  rewrite <- in_no_end_true, E. split.
  - intros (l & L & R) X. rewrite X in C. assert (LL : lucky true l) by (intros _; exact L). pose proof (file_sound o true f l LL) as S. rewrite <- RO, R in S. destruct (fl_done (file_flow o true f)); [discriminate|]. apply S. reflexivity.
  - intros X. destruct (in_no_end o f); [destruct (X eq_refl)|]. destruct (get_through_done _ _ _ _ C) as (q & Q). exists (free q). split; [apply free_calm|]. rewrite RO. exact Q.
Qed.

(** ** All the files *)
Definition nothing : luck := free [].
Definition tries : list luck :=
  flat_map (fun k => [{| fails := []; turns := repeat 1 k ++ [0]; picks := [] |}; {| fails := repeat false k ++ [true]; turns := []; picks := [true] |};
                      {| fails := []; turns := repeat 1 k ++ [0]; picks := repeat true 200 |}]) (seq 0 200).
Lemma all_any : forallb (bad_ok false [option_faults; other_faults] library_faults) files = true.
Proof. vm_compute. reflexivity. Qed.
Lemma all_calm : forallb (bad_ok true [option_faults] library_calm_faults) files = true.
Proof. vm_compute. reflexivity. Qed.
Lemma all_options : forallb (stop_ok [nothing] option_faults) files = true.
Proof. vm_compute. reflexivity. Qed.
Lemma all_others : forallb (stop_ok tries other_faults) files = true.
Proof. vm_compute. reflexivity. Qed.
Lemma all_ends : forallb end_ok files = true.
Proof. vm_compute. reflexivity. Qed.
