(** Lemmas for C122. *)
From Coq Require Import String List NArith Bool Lia Sorted.
From Verif.Model Require Import Py EnumTable Enums.
From Verif.Spec Require Import EnumSpec.
Import ListNotations.
Local Open Scope list_scope.

Definition row := (string * N * string * list N)%type.
Definition xrows (xs : list xenum) : list row :=
  flat_map (fun e => map (fun p => (xn_name e, fst p, xe_name (snd p), parameters e (snd p))) (numbered 0 (xn_entries e))
                     ++ [(xn_name e, (highest (xn_entries e) + 1)%N, (xn_name e ++ "_ENUM_END")%string, [])]) xs.
Definition prows (s : names) : list row :=
  flat_map (fun ed => map (fun p => (fst ed, fst p, en_name (snd p), en_params (snd p))) (snd ed)) (nm_enums s).

Lemma defined_rows xs e v n ps : defined xs e v n ps <-> In (e, v, n, ps) (xrows xs).
Proof.
  unfold xrows. rewrite in_flat_map. split.
  - intros [x v' y Hx Hy|x Hx]; exists x; (split; [exact Hx|]); apply in_or_app.
    + left. apply in_map_iff. exists (v', y). auto.
    + right. left. reflexivity.
  - intros (x & Hx & H). apply in_app_or in H. destruct H as [H|[H|[]]].
    + apply in_map_iff in H. destruct H as ([v' y] & E & Hy). inversion E; subst. apply def_entry; assumption.
    + inversion H; subst. apply def_end; assumption.
Qed.

Lemma get_in {K V} (eqb : K -> K -> bool) (spec : forall a b, eqb a b = true <-> a = b) (d : list (K * V)) k v :
  NoDup (map fst d) -> (dict_get eqb d k = Some v <-> In (k, v) d).
Proof.
  intro ND. induction d as [|[k' v'] d IH]; cbn; [split; [discriminate|tauto]|].
  inversion ND as [|? ? NI ND']; subst. destruct (eqb k k') eqn:E.
  - apply spec in E. subst. split; [intro H; inversion H; auto|]. intros [H|H]; [congruence|]. destruct NI. apply (in_map fst) in H. exact H.
  - rewrite (IH ND'). split; [auto|]. intros [H|H]; [|exact H]. inversion H; subst. assert (eqb k k = true) by (apply spec; reflexivity). congruence.
Qed.

Fixpoint nodupb {A} (eqb : A -> A -> bool) (l : list A) : bool := match l with [] => true | x :: t => negb (existsb (eqb x) t) && nodupb eqb t end.
Lemma nodupb_ok {A} (eqb : A -> A -> bool) (spec : forall a b, eqb a b = true <-> a = b) l : nodupb eqb l = true -> NoDup l.
Proof.
  induction l as [|x t IH]; cbn; [constructor|]. intro H. apply andb_prop in H. destruct H as [H1 H2]. constructor; [|auto].
  intro I. apply negb_true_iff in H1. rewrite <- not_true_iff_false in H1. apply H1. apply existsb_exists. exists x. split; [exact I|]. apply spec. reflexivity.
Qed.
Definition lNeqb (a b : list N) : bool := if list_eq_dec N.eq_dec a b then true else false.
Definition roweqb (a b : row) : bool := let '(e, v, n, p) := a in let '(e', v', n', p') := b in N.eqb v v' && String.eqb n n' && String.eqb e e' && lNeqb p p'.
Lemma roweqb_eq a b : roweqb a b = true -> a = b.
Proof.
  destruct a as [[[e v] n] p], b as [[[e' v'] n'] p']. cbn. rewrite !andb_true_iff. intros [[[H1 H2] H3] H4].
  apply N.eqb_eq in H1. apply String.eqb_eq in H2. apply String.eqb_eq in H3. unfold lNeqb in H4. destruct (list_eq_dec N.eq_dec p p'); [|discriminate]. congruence.
Qed.
Definition subb (a b : list row) : bool := forallb (fun x => existsb (roweqb x) b) a.
Lemma subb_ok a b : subb a b = true -> forall x, In x a -> In x b.
Proof. unfold subb. rewrite forallb_forall. intros H x Hx. specialize (H x Hx). apply existsb_exists in H. destruct H as (y & Hy & E). apply roweqb_eq in E. congruence. Qed.
Fixpoint ascb (l : list N) : bool := match l with [] => true | x :: t => forallb (N.ltb x) t && ascb t end.
Lemma ascb_ok l : ascb l = true -> StronglySorted N.lt l.
Proof.
  induction l as [|x t IH]; cbn; [constructor|]. intro H. apply andb_prop in H. destruct H as [H1 H2]. constructor; [auto|].
  apply Forall_forall. intros y Hy. rewrite forallb_forall in H1. apply N.ltb_lt. auto.
Qed.
Lemma asc_nodup l : StronglySorted N.lt l -> NoDup l.
Proof. induction 1 as [|x t S IH F]; constructor; [|exact IH]. intro I. rewrite Forall_forall in F. specialize (F x I). lia. Qed.

Definition checks (l : list estmt) (xs : list xenum) : bool := match import_enums l with
  | Err _ => false
  | Ok s => nodupb String.eqb (map fst (nm_enums s)) && nodupb String.eqb (map fst (nm_consts s)) &&
            forallb (fun ed => ascb (map fst (snd ed))) (nm_enums s) &&
            subb (prows s) (xrows xs) && subb (xrows xs) (prows s) &&
            (let cs := map (fun p => (EmptyString, snd p, fst p, [])) (nm_consts s) in
             let xr := map (fun r : row => let '(_, v, n, _) := r in (EmptyString, v, n, [])) (xrows xs) in subb cs xr && subb xr cs) &&
            forallb (fun e => existsb (fun x => String.eqb (xn_name x) e) xs) (map fst (nm_enums s))
  end.

Lemma at_rows s e v n ps : NoDup (map fst (nm_enums s)) -> (forall ed, In ed (nm_enums s) -> NoDup (map fst (snd ed))) ->
  (enum_at s e v = Ok (EnumEntry n ps) <-> In (e, v, n, ps) (prows s)).
Proof.
  intros N1 N2. unfold enum_at, prows. rewrite in_flat_map. split.
  - destruct (dict_get String.eqb (nm_enums s) e) as [d|] eqn:E; [|discriminate]. apply (get_in _ String.eqb_eq _ _ _ N1) in E.
    destruct (dict_get N.eqb d v) as [r|] eqn:E2; [|discriminate]. intro H. inversion H; subst. apply (get_in _ N.eqb_eq _ _ _ (N2 _ E)) in E2.
    exists (e, d). split; [exact E|]. apply in_map_iff. exists (v, EnumEntry n ps). auto.
  - intros ([e' d] & Hd & H). apply in_map_iff in H. destruct H as ([v' [n' ps']] & E & Hv). cbn in E. inversion E; subst. cbn in Hv.
    pose proof (N2 _ Hd) as N3. cbn [snd] in N3. rewrite (proj2 (get_in _ String.eqb_eq _ e d N1) Hd). rewrite (proj2 (get_in _ N.eqb_eq _ v _ N3) Hv). reflexivity.
Qed.

Lemma checked l xs : checks l xs = true -> exists s, import_enums l = Ok s /\
  (forall e v n ps, enum_at s e v = Ok (EnumEntry n ps) <-> defined xs e v n ps) /\
  (forall n v, dict_get String.eqb (nm_consts s) n = Some v <-> exists e ps, defined xs e v n ps) /\
  (forall e d, dict_get String.eqb (nm_enums s) e = Some d -> StronglySorted N.lt (map fst d) /\ exists x, In x xs /\ xn_name x = e).
Proof.
  unfold checks. destruct (import_enums l) as [s|]; [|discriminate]. cbv zeta. rewrite !andb_true_iff. intros [[[[[[H1 H2] H3] H4] H5] [H6 H6']] H7].
  apply (nodupb_ok _ String.eqb_eq) in H1. apply (nodupb_ok _ String.eqb_eq) in H2. rewrite forallb_forall in H3.
  exists s. split; [reflexivity|]. split; [|split].
  - intros e v n ps. rewrite at_rows; [|exact H1|intros; apply asc_nodup, ascb_ok; auto]. rewrite defined_rows. split; apply subb_ok; assumption.
  - intros n v. rewrite (get_in _ String.eqb_eq _ _ _ H2). pose proof (subb_ok _ _ H6 (EmptyString, v, n, [])) as A. pose proof (subb_ok _ _ H6' (EmptyString, v, n, [])) as B. split.
    + intro I. assert (J : In (EmptyString, v, n, @nil N) (map (fun p : string * N => (EmptyString, snd p, fst p, @nil N)) (nm_consts s))) by (apply in_map_iff; exists (n, v); auto).
      apply A in J. apply in_map_iff in J. destruct J as ([[[e v'] n'] ps] & E & J). inversion E; subst. exists e, ps. apply defined_rows. exact J.
    + intros (e & ps & D). apply defined_rows in D. assert (J : In (EmptyString, v, n, @nil N) (map (fun r : row => let '(_, v, n, _) := r in (EmptyString, v, n, @nil N)) (xrows xs))) by (apply in_map_iff; exists (e, v, n, ps); auto).
      apply B in J. apply in_map_iff in J. destruct J as ([n' v'] & E & J). cbn in E. inversion E; subst. exact J.
  - intros e d E. apply (get_in _ String.eqb_eq _ _ _ H1) in E. split; [apply ascb_ok, (H3 _ E)|].
    rewrite forallb_forall in H7. specialize (H7 e (in_map fst _ _ E)). apply existsb_exists in H7. destruct H7 as (x & Hx & Ex). apply String.eqb_eq in Ex. eauto.
Qed.

Definition described (xs : list xenum) : bool := forallb (fun e => forallb (fun x => forallb (fun i => existsb (N.eqb i) (parameters e x)) (xe_params x)) (xn_entries e)) xs.
Lemma described_ok xs : described xs = true -> forall e x, In e xs -> In x (xn_entries e) -> incl (xe_params x) (parameters e x).
Proof.
  unfold described. rewrite forallb_forall. intros H e x He Hx i Hi. specialize (H e He). rewrite forallb_forall in H. specialize (H x Hx). rewrite forallb_forall in H.
  specialize (H i Hi). apply existsb_exists in H. destruct H as (j & Hj & E). apply N.eqb_eq in E. congruence.
Qed.
Lemma numbered_le : forall l h v x, In (v, x) (numbered h l) -> (v <= fold_right N.max 0 (map fst (numbered h l)))%N.
Proof.
  induction l as [|y l IH]; intros h v x H; cbn [numbered] in *; [destruct H|]. cbn [map fold_right fst]. destruct H as [H|H]; [inversion H; subst; lia|].
  apply IH in H. lia.
Qed.
