(** Reading back a document and a document that is cut short (C109). *)
From Coq Require Import String Ascii List ZArith NArith Bool Arith Lia.
From Verif.Model Require Import Py ShipLog JsonText.
From Verif.Model Require Cmd.
From Verif.Spec Require Import JsonSpec.
From Verif.Proofs Require Import JsonP.
From Verif.Proofs Require CmdP.
Import ListNotations.
Local Open Scope N_scope.
Local Open Scope list_scope.

Section Q.
Context {A : Type}.
Variable show_float : A -> text.
Variable read_float : text -> A.
Notation value := (value read_float).
Notation elements := (elements read_float).
Notation members := (members read_float).
Notation dump := (dump show_float).
Notation writable := (writable show_float read_float).
Notation loads := (loads read_float).
Notation scalar := (scalar read_float).

Lemma jdoc_rect' (P : jdoc A -> Prop) :
  P TNull -> (forall b, P (TBool b)) -> (forall z, P (TInt z)) -> (forall x, P (TFloat x)) -> (forall s, P (TStr s)) ->
  (forall l, Forall P l -> P (TArr l)) -> (forall l, Forall P (map snd l) -> P (TObj l)) -> forall d, P d.
Proof using.
  intros H1 H2 H3 H4 H5 H6 H7. fix IH 1. intros [|b|z|x|s|l|l]; [exact H1|apply H2|apply H3|apply H4|apply H5|apply H6|apply H7].
  - induction l as [|d l L]; constructor; [apply IH|exact L].
  - induction l as [|[k d] l L]; constructor; [apply IH|exact L].
Qed.

Lemma value_S f t : value (S f) t =
  match t with
  | [] => JBad
  | c :: r =>
      if c =? 34 then jbind (scan r) (fun x => JOk (TStr (fst x), snd x))
      else if c =? 123 then
        match skip_ws r with
        | c' :: r' => if c' =? 125 then JOk (TObj [], r') else jbind (members f (c' :: r')) (fun x => JOk (TObj (dict_of (fst x)), snd x))
        | [] => JBad
        end
      else if c =? 91 then
        match skip_ws r with
        | c' :: r' => if c' =? 93 then JOk (TArr [], r') else jbind (elements f (c' :: r')) (fun x => JOk (TArr (fst x), snd x))
        | [] => JBad
        end
      else scalar t
  end.
Proof using. reflexivity. Qed.
Lemma elements_S f t : elements (S f) t =
  jbind (value f t) (fun x =>
  match skip_ws (snd x) with
  | c :: r =>
      if c =? 93 then JOk ([fst x], r)
      else if c =? 44 then jbind (elements f (skip_ws r)) (fun y => JOk (fst x :: fst y, snd y))
      else JBad
  | [] => JBad
  end).
Proof using. reflexivity. Qed.
Lemma members_S f t : members (S f) t =
  match t with
  | q :: r =>
      if q =? 34 then
        jbind (scan r) (fun k =>
        match skip_ws (snd k) with
        | c :: r =>
            if c =? 58 then
              jbind (value f (skip_ws r)) (fun x =>
              match skip_ws (snd x) with
              | c :: r =>
                  if c =? 125 then JOk ([(fst k, fst x)], r)
                  else if c =? 44 then jbind (members f (skip_ws r)) (fun y => JOk ((fst k, fst x) :: fst y, snd y))
                  else JBad
              | [] => JBad
              end)
            else JBad
        | [] => JBad
        end)
      else JBad
  | [] => JBad
  end.
Proof using. reflexivity. Qed.

(** Fuel. *)
Lemma jbind_mono {X Y} (r r' : jres X) (f f' : X -> jres Y) :
  (r <> JFuel -> r' = r) -> (forall x, r = JOk x -> f x <> JFuel -> f' x = f x) -> jbind r f <> JFuel -> jbind r' f' = jbind r f.
Proof using. intros H1 H2 H. destruct r as [x| |]; cbn in *; [rewrite H1 by discriminate; cbn; auto|rewrite H1 by discriminate; reflexivity|congruence]. Qed.
Lemma mono f : (forall t, value f t <> JFuel -> value (S f) t = value f t) /\
               (forall t, elements f t <> JFuel -> elements (S f) t = elements f t) /\
               (forall t, members f t <> JFuel -> members (S f) t = members f t).
Proof using.
  induction f as [|f (IV & IE & IM)]; [repeat split; intros t H; exfalso; apply H; reflexivity|].
  repeat split; intros t H.
  - rewrite (value_S (S f) t). rewrite (value_S f t) in H |- *.
    destruct t as [|c r]; [reflexivity|].
    destruct (c =? 34); [reflexivity|]. destruct (c =? 123).
    + destruct (skip_ws r) as [|c' r']; [reflexivity|]. destruct (c' =? 125); [reflexivity|]. apply jbind_mono; auto.
    + destruct (c =? 91); [|reflexivity]. destruct (skip_ws r) as [|c' r']; [reflexivity|]. destruct (c' =? 93); [reflexivity|]. apply jbind_mono; auto.
  - rewrite (elements_S (S f) t). rewrite (elements_S f t) in H |- *.
    apply jbind_mono; [apply IV| |exact H].
    intros x E. destruct (skip_ws (snd x)) as [|c r]; [reflexivity|]. destruct (c =? 93); [reflexivity|]. destruct (c =? 44); [|reflexivity].
    apply jbind_mono; auto.
  - rewrite (members_S (S f) t). rewrite (members_S f t) in H |- *.
    destruct t as [|q r]; [reflexivity|]. destruct (q =? 34); [|reflexivity].
    apply jbind_mono; [reflexivity| |exact H]. intros k _. destruct (skip_ws (snd k)) as [|c r']; [reflexivity|]. destruct (c =? 58); [|reflexivity].
    apply jbind_mono; [apply IV|]. intros x E. destruct (skip_ws (snd x)) as [|c' r'']; [reflexivity|]. destruct (c' =? 125); [reflexivity|]. destruct (c' =? 44); [|reflexivity].
    apply jbind_mono; auto.
Qed.
Lemma value_mono f g t : (f <= g)%nat -> value f t <> JFuel -> value g t = value f t.
Proof using. induction 1 as [|g L IH]; intro H; [reflexivity|]. rewrite <- IH by exact H. apply mono. now rewrite IH. Qed.

Lemma scan_shorter t : forall s r, scan t = JOk (s, r) -> (List.length r < List.length t)%nat.
Proof using.
  remember (List.length t) as n eqn:E. revert t E. induction n as [n IH] using (well_founded_induction lt_wf). intros t E s r.
  assert (P : forall c u, (List.length u < n)%nat -> put c (scan u) = JOk (s, r) -> (List.length r < n)%nat).
  { intros c u L. unfold put. destruct (scan u) as [[s' r']| |] eqn:U; [|discriminate|discriminate]. cbn. intro K.
    assert (r' = r) by congruence. subst. specialize (IH _ L u eq_refl _ _ U). lia. }
  destruct t as [|c t]; [discriminate|]. cbn [List.length] in E. cbn [scan].
  destruct (c =? 34). { intro K. assert (t = r) by congruence. subst. lia. }
  destruct (c <? 32); [discriminate|]. destruct (c =? 92); [|apply P; lia].
  destruct t as [|e t]; [discriminate|]. cbn [List.length] in E. destruct (e =? 117).
  - destruct t as [|a [|b [|c' [|d t]]]]; try discriminate. cbn [List.length] in E. destruct (unhex4 a b c' d) as [hi|]; [|discriminate].
    assert (Q : put hi (scan t) = JOk (s, r) -> (List.length r < n)%nat) by (apply P; lia).
    destruct t as [|x1 [|x2 [|x3 [|x4 [|x5 [|x6 t]]]]]]; try exact Q.
    destruct ((x1 =? 92) && (x2 =? 117) && is_high hi); [|exact Q]. destruct (unhex4 x3 x4 x5 x6) as [lo|]; [|exact Q].
    destruct (is_low lo); [|exact Q]. apply P. cbn [List.length] in E. lia.
  - destruct (unescape e); [|discriminate]. apply P. lia.
Qed.
Lemma scan_fuel t : scan t <> JFuel.
Proof using.
  remember (List.length t) as n eqn:E. revert t E. induction n as [n IH] using (well_founded_induction lt_wf). intros t E.
  assert (P : forall c u, (List.length u < n)%nat -> put c (scan u) <> JFuel).
  { intros c u L. unfold put. specialize (IH _ L u eq_refl). destruct (scan u) as [x| |]; cbn; congruence. }
  destruct t as [|c t]; [discriminate|]. cbn [List.length] in E. cbn [scan].
  destruct (c =? 34); [discriminate|]. destruct (c <? 32); [discriminate|]. destruct (c =? 92); [|apply P; lia].
  destruct t as [|e t]; [discriminate|]. cbn [List.length] in E. destruct (e =? 117).
  - destruct t as [|a [|b [|c' [|d t]]]]; try discriminate. cbn [List.length] in E. destruct (unhex4 a b c' d) as [hi|]; [|discriminate].
    assert (Q : put hi (scan t) <> JFuel) by (apply P; lia).
    destruct t as [|x1 [|x2 [|x3 [|x4 [|x5 [|x6 t]]]]]]; try exact Q.
    destruct ((x1 =? 92) && (x2 =? 117) && is_high hi); [|exact Q]. destruct (unhex4 x3 x4 x5 x6) as [lo|]; [|exact Q].
    destruct (is_low lo); [|exact Q]. apply P. cbn [List.length] in E. lia.
  - destruct (unescape e); [|discriminate]. apply P. lia.
Qed.
Lemma literal_shorter t d r : literal read_float t = Some (d, r) -> (List.length r < List.length t)%nat.
Proof using.
  unfold literal. intro E.
  repeat match type of E with
  | match after_prefix ?p t with _ => _ end = _ =>
      let H := fresh in destruct (after_prefix p t) as [r'|] eqn:H; [apply after_prefix_spec in H; assert (r' = r) by congruence; subst; rewrite app_length; cbn [List.length ascii]; lia|]
  end. discriminate.
Qed.
Lemma scalar_spec t : scalar t <> JFuel /\ forall d r, scalar t = JOk (d, r) -> (List.length r < List.length t)%nat.
Proof using.
  unfold JsonText.scalar. destruct (literal read_float t) as [[d' r']|] eqn:L.
  { split; [discriminate|]. intros d r E. assert (r' = r) by congruence. subst. now apply literal_shorter in L. }
  destruct (number t) as [[[[] tok] r']|] eqn:N; [destruct (py_int tok)| |]; (split; [discriminate|]); intros d r E; try discriminate;
    assert (r' = r) by congruence; subst; now apply number_shorter in N.
Qed.
Lemma total f : (forall t, (2 * List.length t + 1 <= f)%nat -> value f t <> JFuel /\ forall d r, value f t = JOk (d, r) -> (List.length r < List.length t)%nat) /\
                (forall t, (2 * List.length t + 2 <= f)%nat -> elements f t <> JFuel /\ forall d r, elements f t = JOk (d, r) -> (List.length r < List.length t)%nat) /\
                (forall t, (2 * List.length t + 2 <= f)%nat -> members f t <> JFuel /\ forall d r, members f t = JOk (d, r) -> (List.length r < List.length t)%nat).
Proof using.
  induction f as [|f (IV & IE & IM)]; [repeat split; intros; lia|].
  split; [|split]; intros t L.
  - rewrite value_S. destruct t as [|c r0]; [split; discriminate|]. cbn [List.length] in L. destruct (c =? 34).
    { pose proof (scan_fuel r0) as SF. pose proof (scan_shorter r0) as SS. destruct (scan r0) as [[s r1]| |]; cbn; (split; [congruence|]); intros d r E; try discriminate.
      assert (r1 = r) by congruence. subst. specialize (SS _ _ eq_refl). lia. }
    pose proof (skip_ws_length r0) as K. destruct (c =? 123).
    { destruct (skip_ws r0) as [|c' r']; [split; discriminate|]. cbn [List.length] in K. destruct (c' =? 125).
      - split; [discriminate|]. intros d r E. assert (r' = r) by congruence. subst. cbn [List.length]. lia.
      - destruct (IM (c' :: r')) as [M1 M2]; [cbn [List.length]; lia|]. destruct (members f (c' :: r')) as [[l r1]| |]; cbn [jbind fst snd]; (split; [congruence|]); intros d r E; try discriminate.
        assert (r1 = r) by congruence. subst. specialize (M2 _ _ eq_refl). cbn [List.length] in *. lia. }
    destruct (c =? 91).
    { destruct (skip_ws r0) as [|c' r']; [split; discriminate|]. cbn [List.length] in K. destruct (c' =? 93).
      - split; [discriminate|]. intros d r E. assert (r' = r) by congruence. subst. cbn [List.length]. lia.
      - destruct (IE (c' :: r')) as [M1 M2]; [cbn [List.length]; lia|]. destruct (elements f (c' :: r')) as [[l r1]| |]; cbn [jbind fst snd]; (split; [congruence|]); intros d r E; try discriminate.
        assert (r1 = r) by congruence. subst. specialize (M2 _ _ eq_refl). cbn [List.length] in *. lia. }
    apply scalar_spec.
  - rewrite elements_S. destruct (IV t) as [V1 V2]; [lia|]. destruct (value f t) as [[v r1]| |]; cbn [jbind fst snd]; [|split; congruence|split; congruence].
    specialize (V2 _ _ eq_refl). pose proof (skip_ws_length r1) as K. destruct (skip_ws r1) as [|c r2]; [split; congruence|]. cbn [List.length] in K.
    destruct (c =? 93). { split; [discriminate|]. intros d r E. assert (r2 = r) by congruence. subst. lia. }
    destruct (c =? 44); [|split; discriminate]. pose proof (skip_ws_length r2) as K2. destruct (IE (skip_ws r2)) as [E1 E2]; [lia|].
    destruct (elements f (skip_ws r2)) as [[l r3]| |]; cbn [jbind fst snd]; (split; [congruence|]); intros d r E; try discriminate.
    assert (r3 = r) by congruence. subst. specialize (E2 _ _ eq_refl). lia.
  - rewrite members_S. destruct t as [|q r0]; [split; discriminate|]. cbn [List.length] in L. destruct (q =? 34); [|split; discriminate].
    pose proof (scan_fuel r0) as SF. pose proof (scan_shorter r0) as SS. destruct (scan r0) as [[s r1]| |]; cbn [jbind fst snd]; [|split; congruence|split; congruence].
    specialize (SS _ _ eq_refl). pose proof (skip_ws_length r1) as K. destruct (skip_ws r1) as [|c r2]; [split; congruence|]. cbn [List.length] in K.
    destruct (c =? 58); [|split; discriminate]. pose proof (skip_ws_length r2) as K2. destruct (IV (skip_ws r2)) as [V1 V2]; [lia|].
    destruct (value f (skip_ws r2)) as [[v r3]| |]; cbn [jbind fst snd]; [|split; congruence|split; congruence].
    specialize (V2 _ _ eq_refl). pose proof (skip_ws_length r3) as K3. destruct (skip_ws r3) as [|c' r4]; [split; congruence|]. cbn [List.length] in K3 |- *.
    destruct (c' =? 125). { split; [discriminate|]. intros d r E. assert (r4 = r) by congruence. subst. lia. }
    destruct (c' =? 44); [|split; discriminate]. pose proof (skip_ws_length r4) as K4. destruct (IM (skip_ws r4)) as [E1 E2]; [lia|].
    destruct (members f (skip_ws r4)) as [[l r5]| |]; cbn [jbind fst snd]; (split; [congruence|]); intros d r E; try discriminate.
    assert (r5 = r) by congruence. subst. specialize (E2 _ _ eq_refl). lia.
Qed.

(** What a parser gives once it has fuel enough. *)
Definition ev {X} (g : nat -> jres X) (R : jres X) : Prop := exists f0, forall f, (f0 <= f)%nat -> g f = R.
Lemma ev_loads t R : (forall r, t <> 65279 :: r) -> ev (fun f => value f (skip_ws t)) R ->
  loads t = jbind R (fun x => match skip_ws (snd x) with [] => JOk (fst x) | _ => JBad end).
Proof using.
  intros B (f0 & H). assert (L : loads t = jbind (value (2 * List.length t + 2) (skip_ws t)) (fun x => match skip_ws (snd x) with [] => JOk (fst x) | _ => JBad end)).
  { unfold JsonText.loads. destruct t as [|c t]; [reflexivity|].
    destruct (N.eq_dec c 65279) as [->|N]; [exfalso; now apply (B t)|].
    destruct c as [|p]; [reflexivity|]. repeat (destruct p as [p|p|]; try reflexivity). }
  rewrite L. f_equal. clear L B. set (F := (2 * List.length t + 2)%nat).
  assert (K : value F (skip_ws t) <> JFuel) by (apply total; pose proof (skip_ws_length t); unfold F; lia).
  rewrite <- (H (Nat.max f0 F)) by lia. symmetry. apply value_mono; [lia|exact K].
Qed.
Lemma loads_total t : loads t <> JFuel.
Proof using.
  intro E. unfold JsonText.loads in E.
  assert (K : value (2 * List.length t + 2) (skip_ws t) <> JFuel) by (apply total; pose proof (skip_ws_length t); lia).
  assert (G : jbind (value (2 * List.length t + 2) (skip_ws t)) (fun x => match skip_ws (snd x) with [] => JOk (fst x) | _ => JBad end) <> JFuel).
  { destruct (value _ _) as [[d r]| |]; cbn [jbind snd fst]; [|congruence|congruence]. destruct (skip_ws r); congruence. }
  destruct t as [|c t]; [exact (G E)|]. destruct c as [|p]; [exact (G E)|]. repeat (destruct p as [p|p|]; try exact (G E)); discriminate.
Qed.

(** Dictionaries. *)
Lemma text_eqb_neq a b : a <> b -> Cmd.text_eqb a b = false.
Proof using.
  clear show_float read_float.
  revert b; induction a as [|x a IH]; intros [|y b] H; try reflexivity; [congruence|]. cbn. destruct (N.eqb_spec x y) as [->|]; [|reflexivity].
  cbn. apply IH. congruence.
Qed.
Lemma dict_set_new (l : list (text * jdoc A)) k v : ~ In k (map fst l) -> dict_set Cmd.text_eqb l k v = l ++ [(k, v)].
Proof using.
  clear show_float read_float.
  induction l as [|[k' v'] l IH]; intro H; [reflexivity|]. cbn in H |- *. rewrite text_eqb_neq by (intro; subst; tauto). rewrite IH by tauto. reflexivity.
Qed.
Lemma dict_of_nodup (l : list (text * jdoc A)) : NoDup (map fst l) -> dict_of l = l.
Proof using.
  clear show_float read_float.
  unfold dict_of. assert (G : forall l acc : list (text * jdoc A), NoDup (map fst acc ++ map fst l) ->
    fold_left (fun d kv => dict_set Cmd.text_eqb d (fst kv) (snd kv)) l acc = acc ++ l).
  { clear l. induction l as [|[k v] l IH]; intros acc H; cbn [fold_left map fst snd] in *; [now rewrite app_nil_r|].
    rewrite dict_set_new.
    - rewrite IH; [now rewrite <- app_assoc|]. rewrite map_app. cbn [map fst]. rewrite <- app_assoc. exact H.
    - apply NoDup_remove_2 in H. intro I. apply H. apply in_or_app. now left. }
  intro H. now rewrite G.
Qed.

(** What comes after a value that was cut short. *)
Definition stuck (r : text) : Prop := match skip_ws r with [] => True | c :: _ => c <> 44 /\ c <> 93 /\ c <> 125 end.
Definition part (p : text) : Prop :=
  ev (fun f => value f p) JBad \/ exists v r, ev (fun f => value f p) (JOk (v, r)) /\ stuck r.
Ltac fuel2 H1 H2 := destruct H1 as (f1 & H1), H2 as (f2 & H2); exists (S (Nat.max f1 f2)); intros [|f] L; [lia|].
Ltac fuel1 H := destruct H as (f1 & H); exists (S f1); intros [|f] L; [lia|].

Lemma el_bad t : ev (fun f => value f t) JBad -> ev (fun f => elements f t) JBad.
Proof using. intro H. fuel1 H. rewrite elements_S, H by lia. reflexivity. Qed.
Lemma el_stuck t v r : ev (fun f => value f t) (JOk (v, r)) -> stuck r -> ev (fun f => elements f t) JBad.
Proof using.
  intros H K. fuel1 H. rewrite elements_S, H by lia. cbn [jbind snd fst]. unfold stuck in K. destruct (skip_ws r) as [|c r']; [reflexivity|].
  destruct (N.eqb_spec c 93), (N.eqb_spec c 44); try reflexivity; lia.
Qed.
Lemma el_last t v r r' : ev (fun f => value f t) (JOk (v, r)) -> skip_ws r = 93 :: r' -> ev (fun f => elements f t) (JOk ([v], r')).
Proof using. intros H K. fuel1 H. rewrite elements_S, H by lia. cbn [jbind snd fst]. rewrite K. reflexivity. Qed.
Lemma el_more t v r r' R : ev (fun f => value f t) (JOk (v, r)) -> skip_ws r = 44 :: r' -> ev (fun f => elements f (skip_ws r')) R ->
  ev (fun f => elements f t) (jbind R (fun y => JOk (v :: fst y, snd y))).
Proof using. intros H K H'. fuel2 H H'. rewrite elements_S, H by lia. cbn [jbind snd fst]. rewrite K. change (44 =? 93) with false. change (44 =? 44) with true. cbv iota. rewrite H' by lia. reflexivity. Qed.

Lemma mb_bad t : scan t = JBad -> ev (fun f => members f (34 :: t)) JBad.
Proof using. intro H. exists 1%nat. intros [|f] L; [lia|]. rewrite members_S. change (34 =? 34) with true. cbv iota. now rewrite H. Qed.
Lemma mb_nil : ev (fun f => members f []) JBad.
Proof using. exists 1%nat. intros [|f] L; [lia|]. reflexivity. Qed.
Lemma mb_key t k r : scan t = JOk (k, r) -> skip_ws r = [] -> ev (fun f => members f (34 :: t)) JBad.
Proof using. intros H K. exists 1%nat. intros [|f] L; [lia|]. rewrite members_S. change (34 =? 34) with true. cbv iota. rewrite H. cbn [jbind snd]. now rewrite K. Qed.
Ltac to_value H K := rewrite members_S; change (34 =? 34) with true; cbv iota; rewrite H; cbn [jbind snd fst]; rewrite K; change (58 =? 58) with true; cbv iota.
Lemma mb_value_bad t k r r' : scan t = JOk (k, r) -> skip_ws r = 58 :: r' -> ev (fun f => value f (skip_ws r')) JBad -> ev (fun f => members f (34 :: t)) JBad.
Proof using. intros H K V. fuel1 V. to_value H K. rewrite V by lia. reflexivity. Qed.
Lemma mb_stuck t k r r' v r2 : scan t = JOk (k, r) -> skip_ws r = 58 :: r' -> ev (fun f => value f (skip_ws r')) (JOk (v, r2)) -> stuck r2 ->
  ev (fun f => members f (34 :: t)) JBad.
Proof using.
  intros H K V S. fuel1 V. to_value H K. rewrite V by lia. cbn [jbind snd fst]. unfold stuck in S. destruct (skip_ws r2) as [|c r3]; [reflexivity|].
  destruct (N.eqb_spec c 125), (N.eqb_spec c 44); try reflexivity; lia.
Qed.
Lemma mb_last t k r r' v r2 r3 : scan t = JOk (k, r) -> skip_ws r = 58 :: r' -> ev (fun f => value f (skip_ws r')) (JOk (v, r2)) -> skip_ws r2 = 125 :: r3 ->
  ev (fun f => members f (34 :: t)) (JOk ([(k, v)], r3)).
Proof using. intros H K V E. fuel1 V. to_value H K. rewrite V by lia. cbn [jbind snd fst]. now rewrite E. Qed.
Lemma mb_more t k r r' v r2 r3 R : scan t = JOk (k, r) -> skip_ws r = 58 :: r' -> ev (fun f => value f (skip_ws r')) (JOk (v, r2)) -> skip_ws r2 = 44 :: r3 ->
  ev (fun f => members f (skip_ws r3)) R -> ev (fun f => members f (34 :: t)) (jbind R (fun y => JOk ((k, v) :: fst y, snd y))).
Proof using.
  intros H K V E M. fuel2 V M. to_value H K. rewrite V by lia. cbn [jbind snd fst]. rewrite E. change (44 =? 125) with false. change (44 =? 44) with true. cbv iota.
  rewrite M by lia. reflexivity.
Qed.

(** The inside of arrays and objects, with the closing bracket. *)
Fixpoint ebody (lvl : nat) (l : list (jdoc A)) : text :=
  match l with
  | [] => []
  | d :: l' => dump (S lvl) d ++ match l' with [] => newline lvl ++ [93] | _ => 44 :: newline (S lvl) ++ ebody lvl l' end
  end.
Fixpoint mbody (lvl : nat) (l : list (text * jdoc A)) : text :=
  match l with
  | [] => []
  | (k, d) :: l' => quote k ++ 58 :: 32 :: dump (S lvl) d ++ match l' with [] => newline lvl ++ [125] | _ => 44 :: newline (S lvl) ++ mbody lvl l' end
  end.
Definition erest (lvl : nat) : list (jdoc A) -> text :=
  fix rest l := match l with [] => [] | d :: l => [44] ++ newline (S lvl) ++ dump (S lvl) d ++ rest l end.
Definition mrest (lvl : nat) : list (text * jdoc A) -> text :=
  fix rest l := match l with [] => [] | (k, d) :: l => [44] ++ newline (S lvl) ++ quote k ++ [58; 32] ++ dump (S lvl) d ++ rest l end.
Lemma erest_ebody lvl l : erest lvl l ++ newline lvl ++ [93] = match l with [] => newline lvl ++ [93] | _ => 44 :: newline (S lvl) ++ ebody lvl l end.
Proof using.
  induction l as [|d l IH]; [reflexivity|]. change (erest lvl (d :: l)) with ([44] ++ newline (S lvl) ++ dump (S lvl) d ++ erest lvl l). cbn [ebody]. rewrite <- !app_assoc. rewrite IH. reflexivity.
Qed.
Lemma mrest_mbody lvl l : mrest lvl l ++ newline lvl ++ [125] = match l with [] => newline lvl ++ [125] | _ => 44 :: newline (S lvl) ++ mbody lvl l end.
Proof using.
  induction l as [|[k d] l IH]; [reflexivity|]. change (mrest lvl ((k, d) :: l)) with ([44] ++ newline (S lvl) ++ quote k ++ [58; 32] ++ dump (S lvl) d ++ mrest lvl l). cbn [mbody]. rewrite <- !app_assoc. rewrite IH. reflexivity.
Qed.
Lemma dump_arr lvl d l : dump lvl (TArr (d :: l)) = 91 :: newline (S lvl) ++ ebody lvl (d :: l).
Proof using.
  change (dump lvl (TArr (d :: l))) with ([91] ++ newline (S lvl) ++ dump (S lvl) d ++ erest lvl l ++ newline lvl ++ [93]).
  rewrite erest_ebody. reflexivity.
Qed.
Lemma dump_obj lvl k d l : dump lvl (TObj ((k, d) :: l)) = 123 :: newline (S lvl) ++ mbody lvl ((k, d) :: l).
Proof using.
  change (dump lvl (TObj ((k, d) :: l))) with ([123] ++ newline (S lvl) ++ quote k ++ [58; 32] ++ dump (S lvl) d ++ mrest lvl l ++ newline lvl ++ [125]).
  rewrite mrest_mbody. reflexivity.
Qed.

(** A document that is read back, and whose beginnings are not documents followed by a comma or a closing bracket. *)
Definition fine (lvl : nat) (d : jdoc A) : Prop :=
  (forall r, ends r -> ev (fun f => value f (dump lvl d ++ r)) (JOk (d, r))) /\
  (forall p q, dump lvl d = p ++ q -> q <> [] -> part p) /\
  exists c t, dump lvl d = c :: t /\ is_ws c = false /\ c <> 93 /\ c <> 65279.
Lemma value_nil : ev (fun f => value f []) JBad.
Proof using. exists 1%nat. intros [|f] L; [lia|]. reflexivity. Qed.
Lemma stuck_blank r : skip_ws r = [] -> stuck r.
Proof using. clear. unfold stuck. now intros ->. Qed.
Lemma newline_ends lvl p q : newline lvl = p ++ q -> ends p.
Proof using. clear. unfold newline. destruct p as [|c p]; [intros _; exact I|]. intro E. injection E as <- _. now right. Qed.
Lemma newline_app_ends lvl t : ends (newline lvl ++ t).
Proof using. clear. now right. Qed.

(** The beginnings of [newline lvl ++ t]. *)
Lemma newline_split lvl t p q : newline lvl ++ t = p ++ q ->
  (skip_ws p = [] /\ ends p) \/ (exists p', p = newline lvl ++ p' /\ t = p' ++ q).
Proof using.
  clear. intro E. apply app_eq_app in E. destruct E as (l & [[E1 E2] | [E1 E2]]).
  - left. split; [now apply (newline_prefix lvl p l)|now apply (newline_ends lvl p l)].
  - right. exists l. auto.
Qed.

Lemma cons_inv (a b : N) (l m : text) : a :: l = b :: m -> a = b /\ l = m.
Proof using. clear. intro H. split; congruence. Qed.
Lemma body_fine lvl l : l <> [] -> Forall (fine (S lvl)) l ->
  (forall r, ev (fun f => elements f (ebody lvl l ++ r)) (JOk (l, r))) /\
  (forall p q, ebody lvl l = p ++ q -> q <> [] -> ev (fun f => elements f p) JBad) /\
  exists c t, ebody lvl l = c :: t /\ is_ws c = false /\ c <> 93.
Proof using.
  induction l as [|d l IH]; [congruence|]. intros _ F. inversion F as [|? ? (F1 & F2 & c & t & F3 & F4 & F5 & _) Fl]; subst.
  split; [|split].
  - intro r. cbn [ebody]. destruct l as [|d' l].
    + rewrite <- !app_assoc. apply (el_last _ d (newline lvl ++ [93] ++ r)).
      * apply F1, newline_app_ends.
      * now rewrite skip_newline.
    + destruct IH as (IH1 & _ & c' & t' & IH3 & IH4 & _); [discriminate|assumption|]. rewrite <- !app_assoc.
      apply (el_more _ d ((44 :: newline (S lvl) ++ ebody lvl (d' :: l)) ++ r) (newline (S lvl) ++ ebody lvl (d' :: l) ++ r) (JOk (d' :: l, r))).
      * apply F1. now left.
      * rewrite <- app_comm_cons, <- app_assoc. reflexivity.
      * rewrite skip_newline. rewrite IH3. cbn [app]. rewrite skip_head by assumption. rewrite app_comm_cons, <- IH3. apply IH1.
  - intros p q E Q. cbn [ebody] in E. apply app_eq_app in E. destruct E as (u & [[E1 E2] | [E1 E2]]).
    { destruct u as [|x u].
      - rewrite app_nil_r in E1. subst p. specialize (F1 [] I). rewrite app_nil_r in F1. apply (el_stuck _ d []); [exact F1|exact I].
      - destruct (F2 p (x :: u) E1) as [B | (v & r & B & St)]; [discriminate|now apply el_bad|now apply (el_stuck _ v r)]. }
    subst p. destruct l as [|d' l].
    + apply newline_split in E2. destruct E2 as [[W K] | (p' & -> & E2)].
      * apply (el_stuck _ d u); [now apply F1|now apply stuck_blank].
      * destruct p' as [|? [|]]; [|apply cons_inv in E2; destruct E2 as [_ E2]; cbn in E2; congruence|discriminate].
        apply (el_stuck _ d (newline lvl ++ [])); [apply F1, newline_app_ends|]. apply stuck_blank. now rewrite skip_newline.
    + destruct IH as (_ & IH2 & c' & t' & IH3 & IH4 & _); [discriminate|assumption|].
      destruct u as [|x u].
      { apply (el_stuck _ d []); [now apply F1|exact I]. }
      apply cons_inv in E2. destruct E2 as [<- E2]. assert (M : ev (fun f => elements f (skip_ws u)) JBad).
      { apply newline_split in E2. destruct E2 as [[W K] | (p' & -> & E2)].
        - rewrite W. apply el_bad, value_nil.
        - rewrite skip_newline. destruct p' as [|x p']; [apply el_bad, value_nil|].
          assert (x = c') by (rewrite IH3 in E2; cbn [app] in E2; congruence). subst x. rewrite skip_head by assumption. apply (IH2 _ q); auto. }
      apply (el_more (dump (S lvl) d ++ 44 :: u) d (44 :: u) u JBad); [apply F1; now left|reflexivity|exact M].
  - cbn [ebody]. rewrite F3. cbn [app]. eauto 6.
Qed.

Lemma quote_scan k r : text_ok k -> exists t, quote k ++ r = 34 :: t /\ scan t = JOk (k, r).
Proof using.
  clear. intro H. unfold quote. exists (flat_map quote_char k ++ 34 :: r). split; [|now apply scan_quoted].
  cbn [app]. now rewrite <- app_assoc.
Qed.
Lemma mbody_fine lvl l : l <> [] -> Forall text_ok (map fst l) -> Forall (fine (S lvl)) (map snd l) ->
  (forall r, ev (fun f => members f (mbody lvl l ++ r)) (JOk (l, r))) /\
  (forall p q, mbody lvl l = p ++ q -> q <> [] -> ev (fun f => members f p) JBad) /\
  exists t, mbody lvl l = 34 :: t.
Proof using.
  induction l as [|[k d] l IH]; [congruence|]. cbn [map fst snd]. intros _ Fk F.
  inversion F as [|? ? (F1 & F2 & c & t & F3 & F4 & F5 & _) Fl]; subst. inversion Fk as [|? ? Hk Fk']; subst.
  assert (VH : forall u, skip_ws (32 :: dump (S lvl) d ++ u) = dump (S lvl) d ++ u).
  { intro u. cbn [skip_ws]. change (is_ws 32) with true. cbv iota. rewrite F3. cbn [app]. now apply skip_head. }
  split; [|split].
  - intro r. cbn [mbody]. destruct l as [|[k' d'] l].
    + rewrite <- !app_assoc. cbn [app]. rewrite <- !app_assoc.
      destruct (quote_scan k (58 :: 32 :: dump (S lvl) d ++ newline lvl ++ [125] ++ r) Hk) as (u & -> & U).
      apply (mb_last u k _ _ d (newline lvl ++ [125] ++ r) r U eq_refl).
      * rewrite VH. apply F1, newline_app_ends.
      * now rewrite skip_newline.
    + destruct IH as (IH1 & _ & t' & IH3); [discriminate|assumption|assumption|]. rewrite <- !app_assoc. cbn [app]. rewrite <- !app_assoc. cbn [app]. rewrite <- !app_assoc.
      destruct (quote_scan k (58 :: 32 :: dump (S lvl) d ++ 44 :: newline (S lvl) ++ mbody lvl ((k', d') :: l) ++ r) Hk) as (u & -> & U).
      apply (mb_more u k _ _ d (44 :: newline (S lvl) ++ mbody lvl ((k', d') :: l) ++ r) (newline (S lvl) ++ mbody lvl ((k', d') :: l) ++ r) (JOk ((k', d') :: l, r)) U eq_refl).
      * rewrite VH. apply F1. now left.
      * reflexivity.
      * rewrite skip_newline. rewrite IH3. cbn [app]. rewrite skip_head by reflexivity. rewrite app_comm_cons, <- IH3. apply IH1.
  - intros p q E Q. cbn [mbody] in E.
    apply app_eq_app in E. destruct E as (u & [[E1 E2] | [E1 E2]]).
    { destruct u as [|x u].
      - rewrite app_nil_r in E1. subst p. destruct (quote_scan k [] Hk) as (u & Eu & U). rewrite app_nil_r in Eu. rewrite Eu. now apply (mb_key _ k []).
      - unfold quote in E1. destruct p as [|y p]; [apply mb_nil|]. apply cons_inv in E1. destruct E1 as [<- E1]. apply mb_bad. apply (scan_prefix k p (x :: u) Hk E1). discriminate. }
    subst p. destruct (quote_scan k u Hk) as (u0 & -> & U).
    destruct u as [|x u]; [now apply (mb_key _ k [])|]. apply cons_inv in E2. destruct E2 as [<- E2].
    destruct u as [|x u]; [apply (mb_value_bad _ k _ [] U eq_refl), value_nil|]. apply cons_inv in E2. destruct E2 as [<- E2].
    apply app_eq_app in E2. destruct E2 as (w & [[E1 E2] | [E1 E2]]).
    { assert (SW : skip_ws (32 :: u) = u).
      { cbn [skip_ws]. change (is_ws 32) with true. cbv iota. destruct u as [|y u]; [reflexivity|]. rewrite F3 in E1. apply cons_inv in E1. destruct E1 as [<- E1]. now apply skip_head. }
      destruct w as [|x w].
      - rewrite app_nil_r in E1. subst u. specialize (F1 [] I). rewrite app_nil_r in F1. apply (mb_stuck _ k _ _ d [] U eq_refl); [now rewrite SW|exact I].
      - destruct (F2 u (x :: w) E1) as [B | (v & r & B & St)]; [discriminate| |].
        + apply (mb_value_bad _ k _ _ U eq_refl). now rewrite SW.
        + apply (mb_stuck _ k _ _ v r U eq_refl); [now rewrite SW|exact St]. }
    subst u. destruct l as [|[k' d'] l].
    + apply newline_split in E2. destruct E2 as [[W K] | (p' & -> & E2)].
      * apply (mb_stuck _ k _ _ d w U eq_refl); [rewrite VH; now apply F1|now apply stuck_blank].
      * destruct p' as [|? [|]]; [|apply cons_inv in E2; destruct E2 as [_ E2]; cbn in E2; congruence|discriminate].
        apply (mb_stuck _ k _ _ d (newline lvl ++ []) U eq_refl); [rewrite VH; apply F1, newline_app_ends|]. apply stuck_blank. now rewrite skip_newline.
    + destruct IH as (_ & IH2 & t' & IH3); [discriminate|assumption|assumption|].
      destruct w as [|x w].
      { apply (mb_stuck _ k _ _ d [] U eq_refl); [rewrite VH; now apply F1|exact I]. }
      apply cons_inv in E2. destruct E2 as [<- E2]. assert (M : ev (fun f => members f (skip_ws w)) JBad).
      { apply newline_split in E2. destruct E2 as [[W K] | (p' & -> & E2)].
        - rewrite W. apply mb_nil.
        - rewrite skip_newline. destruct p' as [|x p']; [apply mb_nil|].
          assert (x = 34) by (rewrite IH3 in E2; cbn [app] in E2; congruence). subst x. rewrite skip_head by reflexivity. apply (IH2 _ q); auto. }
      apply (mb_more _ k _ _ d (44 :: w) w JBad U eq_refl); [rewrite VH; apply F1; now left|reflexivity|exact M].
  - cbn [mbody]. unfold quote. cbn [app]. eauto.
Qed.

(** Scalars. *)
Lemma prefix_firstn (p q w : text) : w = p ++ q -> q <> [] -> exists k, (k < List.length w)%nat /\ p = firstn k w.
Proof using.
  clear. intros -> Q. exists (List.length p). split.
  - rewrite app_length. destruct q; [congruence|cbn; lia].
  - rewrite firstn_app, Nat.sub_diag, firstn_all. cbn. now rewrite app_nil_r.
Qed.
Ltac at1 := exists 1%nat; intros [|f] L; [lia|reflexivity].
Ltac word_prefix := let E := fresh "E" in let Q := fresh "Q" in let k := fresh "k" in let K := fresh "K" in
  intros p q E Q; left; destruct (prefix_firstn _ _ _ E Q) as (k & K & ->); cbn in K;
  do 9 (destruct k as [|k]; [at1|try lia]).
Lemma literal_ncode t : Forall ncode t -> literal read_float t = None.
Proof using.
  clear show_float.
  intro H. unfold literal.
  assert (N : forall c : N, ncode c -> c <> 110 /\ c <> 116 /\ c <> 102 /\ c <> 78 /\ c <> 73) by (unfold ncode, digit_code; lia).
  assert (G : forall a w, (a = 110 \/ a = 116 \/ a = 102 \/ a = 78 \/ a = 73) -> after_prefix (a :: w) t = None).
  { intros a w Ha. apply after_prefix_None. intros r ->. inversion H as [|? ? X _]; subst. apply N in X. lia. }
  change (ascii "null") with (110 :: ascii "ull"). rewrite G by tauto. change (ascii "true") with (116 :: ascii "rue"). rewrite G by tauto.
  change (ascii "false") with (102 :: ascii "alse"). rewrite G by tauto. change (ascii "NaN") with (78 :: ascii "aN"). rewrite G by tauto.
  change (ascii "Infinity") with (73 :: ascii "nfinity"). rewrite G by tauto.
  rewrite after_prefix_None; [reflexivity|]. intros r ->. inversion H as [|? ? _ X]; subst. inversion X as [|? ? Y _]; subst. apply N in Y. cbn in Y. lia.
Qed.
Lemma literal_number s w f e r : plain_number s w f e -> literal read_float ((s ++ w ++ f ++ e) ++ r) = None.
Proof using.
  clear show_float.
  intros (S & W & _). assert (D : exists c w', w = c :: w' /\ digit_code c).
  { destruct W as [-> | [[N F] _]]; [exists 48, []; split; [reflexivity|unfold digit_code; lia]|]. destruct w as [|c w]; [congruence|]. inversion F; subst. eauto. }
  destruct D as (c & w' & -> & D). unfold digit_code in D. unfold literal.
  assert (X : forall t, after_prefix (ascii "null") (c :: t) = None /\ after_prefix (ascii "true") (c :: t) = None /\
                      after_prefix (ascii "false") (c :: t) = None /\ after_prefix (ascii "NaN") (c :: t) = None /\
                      after_prefix (ascii "Infinity") (c :: t) = None /\ after_prefix (ascii "-Infinity") (c :: t) = None /\
                      after_prefix (ascii "-Infinity") (45 :: c :: t) = None).
  { intro t. change (ascii "null") with (110 :: ascii "ull"). change (ascii "true") with (116 :: ascii "rue").
    change (ascii "false") with (102 :: ascii "alse"). change (ascii "NaN") with (78 :: ascii "aN"). change (ascii "Infinity") with (73 :: ascii "nfinity").
    change (ascii "-Infinity") with (45 :: 73 :: ascii "nfinity"). cbn [after_prefix]. change (45 =? 45) with true. cbv iota.
    destruct (N.eqb_spec 110 c), (N.eqb_spec 116 c), (N.eqb_spec 102 c), (N.eqb_spec 78 c), (N.eqb_spec 73 c), (N.eqb_spec 45 c); try lia. tauto. }
  destruct S as [-> | ->]; cbn [app].
  - destruct (X ((w' ++ f ++ e) ++ r)) as (-> & -> & -> & -> & -> & -> & _). reflexivity.
  - destruct (X ((w' ++ f ++ e) ++ r)) as (_ & _ & _ & _ & _ & _ & X'). rewrite X'. reflexivity.
Qed.
Lemma number_value s w f e r : plain_number s w f e -> ends r ->
  ev (fun n => value n ((s ++ w ++ f ++ e) ++ r))
     (match f, e with
      | [], [] => match py_int (s ++ w ++ f ++ e) with Ok z => JOk (TInt z, r) | Err _ => JBad end
      | _, _ => JOk (TFloat (read_float (s ++ w ++ f ++ e)), r)
      end).
Proof using.
  intros P R. exists 1%nat. intros [|n] L; [lia|]. rewrite value_S.
  pose proof (literal_number _ _ _ _ r P) as Li. pose proof (number_spec _ _ _ _ r P R) as Nu.
  destruct (plain_number_head _ _ _ _ P) as (c & t & E & Hc). unfold digit_code in Hc.
  assert (Sc : scalar ((s ++ w ++ f ++ e) ++ r) = match f, e with
      | [], [] => match py_int (s ++ w ++ f ++ e) with Ok z => JOk (TInt z, r) | Err _ => JBad end
      | _, _ => JOk (TFloat (read_float (s ++ w ++ f ++ e)), r)
      end).
  { unfold JsonText.scalar. rewrite Li, Nu. destruct f, e; reflexivity. }
  rewrite <- Sc. rewrite E. cbn [app]. destruct (N.eqb_spec c 34), (N.eqb_spec c 123), (N.eqb_spec c 91); try lia; try reflexivity.
Qed.
Lemma ncode_stuck r : Forall ncode r -> stuck r.
Proof using.
  clear. intro H. unfold stuck. destruct r as [|c r]; [exact I|]. inversion H as [|? ? X _]; subst. unfold ncode, digit_code in X. rewrite skip_head; [lia|].
  unfold is_ws. destruct (N.eqb_spec c 32), (N.eqb_spec c 9), (N.eqb_spec c 10), (N.eqb_spec c 13); try lia; try reflexivity.
Qed.
Lemma number_prefix s w f e p q : plain_number s w f e -> s ++ w ++ f ++ e = p ++ q -> part p.
Proof using.
  intros P E. pose proof (plain_number_ncode _ _ _ _ P) as H. rewrite E in H. apply Forall_app in H. destruct H as [H _].
  destruct p as [|c p]; [left; apply value_nil|].
  assert (Sc : forall n, value (S n) (c :: p) = scalar (c :: p)).
  { intro n. rewrite value_S. inversion H as [|? ? X _]; subst. unfold ncode, digit_code in X.
    destruct (N.eqb_spec c 34), (N.eqb_spec c 123), (N.eqb_spec c 91); try lia; try reflexivity. }
  assert (V : ev (fun n => value n (c :: p)) (scalar (c :: p))) by (exists 1%nat; intros [|n] L; [lia|apply Sc]).
  unfold part. revert V. unfold JsonText.scalar. rewrite literal_ncode by assumption. destruct (number (c :: p)) as [[[b tok] r]|] eqn:Nu; [|tauto].
  pose proof (number_ncode _ _ _ _ H Nu) as K. apply ncode_stuck in K. destruct b; [destruct (py_int tok); [|tauto]|]; intro V; right; eauto.
Qed.

Lemma fine_number lvl d s w f e : plain_number s w f e -> dump lvl d = s ++ w ++ f ++ e ->
  (match f, e with
   | [], [] => match py_int (s ++ w ++ f ++ e) with Ok z => TInt z = d | Err _ => False end
   | _, _ => TFloat (read_float (s ++ w ++ f ++ e)) = d
   end) -> fine lvl d.
Proof using.
  intros P E V. split; [|split].
  - intros r R. rewrite E. pose proof (number_value _ _ _ _ r P R) as H.
    destruct f, e; [destruct (py_int _); [|contradiction]| | |]; rewrite <- V; exact H.
  - intros p q Ep _. rewrite E in Ep. now apply (number_prefix _ _ _ _ _ _ P Ep).
  - rewrite E. destruct (plain_number_head _ _ _ _ P) as (c & t & Et & Hc). exists c, t. unfold digit_code in Hc. repeat split; [exact Et| |lia|lia].
    unfold is_ws. destruct (N.eqb_spec c 32), (N.eqb_spec c 9), (N.eqb_spec c 10), (N.eqb_spec c 13); try lia; try reflexivity.
Qed.

(** Containers. *)
Lemma arr_value lvl d l : Forall (fine (S lvl)) (d :: l) ->
  (forall r, ev (fun f => value f (dump lvl (TArr (d :: l)) ++ r)) (JOk (TArr (d :: l), r))) /\
  (forall p q, dump lvl (TArr (d :: l)) = p ++ q -> q <> [] -> ev (fun f => value f p) JBad).
Proof using.
  intro F. destruct (body_fine lvl (d :: l)) as (B1 & B2 & c & t & B3 & B4 & B5); [discriminate|assumption|]. rewrite dump_arr.
  assert (V : forall f u, value (S f) (91 :: newline (S lvl) ++ c :: u) = jbind (elements f (c :: u)) (fun x => JOk (TArr (fst x), snd x))).
  { intros f u. rewrite value_S. change (91 =? 34) with false. change (91 =? 123) with false. change (91 =? 91) with true. cbv iota.
    rewrite skip_newline, skip_head by assumption. destruct (N.eqb_spec c 93); [congruence|reflexivity]. }
  split.
  - intro r. specialize (B1 r). rewrite B3 in B1 |- *. rewrite <- app_comm_cons, <- app_assoc. rewrite <- app_comm_cons in B1 |- *.
    fuel1 B1. rewrite V, B1 by lia. reflexivity.
  - intros p q E Q. destruct p as [|x u]; [apply value_nil|]. rewrite <- app_comm_cons in E. apply cons_inv in E. destruct E as [<- E].
    apply newline_split in E. destruct E as [[W _] | (p' & -> & E)].
    + exists 1%nat. intros [|f] L; [lia|]. rewrite value_S. change (91 =? 34) with false. change (91 =? 123) with false. change (91 =? 91) with true. cbv iota. now rewrite W.
    + destruct p' as [|x p'].
      * exists 1%nat. intros [|f] L; [lia|]. rewrite value_S. change (91 =? 34) with false. change (91 =? 123) with false. change (91 =? 91) with true. cbv iota.
        now rewrite skip_newline.
      * assert (x = c) by (rewrite B3 in E; cbn [app] in E; congruence). subst x. pose proof (B2 _ _ E Q) as B. fuel1 B. rewrite V, B by lia. reflexivity.
Qed.
Lemma obj_value lvl k d l : NoDup (map fst ((k, d) :: l)) -> Forall text_ok (map fst ((k, d) :: l)) -> Forall (fine (S lvl)) (map snd ((k, d) :: l)) ->
  (forall r, ev (fun f => value f (dump lvl (TObj ((k, d) :: l)) ++ r)) (JOk (TObj ((k, d) :: l), r))) /\
  (forall p q, dump lvl (TObj ((k, d) :: l)) = p ++ q -> q <> [] -> ev (fun f => value f p) JBad).
Proof using.
  intros ND K F. destruct (mbody_fine lvl ((k, d) :: l)) as (B1 & B2 & t & B3); [discriminate|assumption|assumption|]. rewrite dump_obj.
  assert (V : forall f u, value (S f) (123 :: newline (S lvl) ++ 34 :: u) = jbind (members f (34 :: u)) (fun x => JOk (TObj (dict_of (fst x)), snd x))).
  { intros f u. rewrite value_S. change (123 =? 34) with false. change (123 =? 123) with true. cbv iota.
    rewrite skip_newline, skip_head by reflexivity. reflexivity. }
  split.
  - intro r. specialize (B1 r). rewrite B3 in B1 |- *. rewrite <- app_comm_cons, <- app_assoc. rewrite <- app_comm_cons in B1 |- *.
    fuel1 B1. rewrite V, B1 by lia. cbn [jbind fst snd]. now rewrite dict_of_nodup.
  - intros p q E Q. destruct p as [|x u]; [apply value_nil|]. rewrite <- app_comm_cons in E. apply cons_inv in E. destruct E as [<- E].
    apply newline_split in E. destruct E as [[W _] | (p' & -> & E)].
    + exists 1%nat. intros [|f] L; [lia|]. rewrite value_S. change (123 =? 34) with false. change (123 =? 123) with true. cbv iota. now rewrite W.
    + destruct p' as [|x p'].
      * exists 1%nat. intros [|f] L; [lia|]. rewrite value_S. change (123 =? 34) with false. change (123 =? 123) with true. cbv iota.
        now rewrite skip_newline.
      * assert (x = 34) by (rewrite B3 in E; cbn [app] in E; congruence). subst x. pose proof (B2 _ _ E Q) as B. fuel1 B. rewrite V, B by lia. reflexivity.
Qed.
Lemma str_value lvl s : text_ok s ->
  (forall r, ev (fun f => value f (dump lvl (TStr s) ++ r)) (JOk (TStr s, r))) /\
  (forall p q, dump lvl (TStr s) = p ++ q -> q <> [] -> ev (fun f => value f p) JBad).
Proof using.
  intro H. cbn [JsonText.dump]. split.
  - intro r. destruct (quote_scan s r H) as (t & -> & T). exists 1%nat. intros [|f] L; [lia|]. rewrite value_S. change (34 =? 34) with true. cbv iota. now rewrite T.
  - intros p q E Q. destruct p as [|x u]; [apply value_nil|]. unfold quote in E. rewrite <- app_comm_cons in E. apply cons_inv in E. destruct E as [<- E].
    exists 1%nat. intros [|f] L; [lia|]. rewrite value_S. change (34 =? 34) with true. cbv iota. now rewrite (scan_prefix _ _ _ H E Q).
Qed.

Lemma all_fine d : writable d -> forall lvl, fine lvl d.
Proof using.
  induction d as [|b|z|x|s|l IH|l IH] using jdoc_rect'; intros W lvl.
  - split; [|split]; [intros r _; at1|cbn [JsonText.dump]; word_prefix|]. exists 110, (ascii "ull"). repeat split; discriminate.
  - destruct b; (split; [|split]); [intros r _; at1|cbn [JsonText.dump]; word_prefix| |intros r _; at1|cbn [JsonText.dump]; word_prefix|].
    + exists 116, (ascii "rue"). repeat split; discriminate.
    + exists 102, (ascii "alse"). repeat split; discriminate.
  - destruct (show_int_number z) as (s & w & E & P). apply (fine_number lvl (TInt z) _ _ _ _ P E). rewrite <- E. now rewrite CmdP.py_int_show.
  - inversion W as [| | |? Ft Rd| | |]; subst. destruct Ft as [(s & w & f & e & E & S & Wh & Hf & He & Ne) | [E | [E | E]]].
    + apply (fine_number lvl _ s w f e); [repeat split; assumption|exact E|]. rewrite <- E, Rd. destruct f, e; try reflexivity. destruct Ne; congruence.
    + split; [|split]; cbn [JsonText.dump]; rewrite E.
      * intros r _. exists 1%nat. intros [|f] L; [lia|]. transitivity (JOk (X := jdoc A * text) (TFloat (read_float (ascii "NaN")), r)); [reflexivity|]. now rewrite <- E, Rd.
      * word_prefix.
      * exists 78, (ascii "aN"). repeat split; discriminate.
    + split; [|split]; cbn [JsonText.dump]; rewrite E.
      * intros r _. exists 1%nat. intros [|f] L; [lia|]. transitivity (JOk (X := jdoc A * text) (TFloat (read_float (ascii "Infinity")), r)); [reflexivity|]. now rewrite <- E, Rd.
      * word_prefix.
      * exists 73, (ascii "nfinity"). repeat split; discriminate.
    + split; [|split]; cbn [JsonText.dump]; rewrite E.
      * intros r _. exists 1%nat. intros [|f] L; [lia|]. transitivity (JOk (X := jdoc A * text) (TFloat (read_float (ascii "-Infinity")), r)); [reflexivity|]. now rewrite <- E, Rd.
      * word_prefix.
      * exists 45, (ascii "Infinity"). repeat split; discriminate.
  - inversion W as [| | | |? T| |]; subst. destruct (str_value lvl s T) as [V1 V2]. split; [intros r _; apply V1|split].
    + intros p q E Q. left. exact (V2 p q E Q).
    + eexists 34, _. repeat split; try discriminate.
  - inversion W as [| | | | |? F|]; subst. destruct l as [|d l].
    + split; [intros r _; at1|split; [cbn [JsonText.dump]; word_prefix|]]. exists 91, [93]. repeat split; discriminate.
    + assert (G : Forall (fine (S lvl)) (d :: l)).
      { clear W. rewrite Forall_forall in *. intros x I. apply IH; auto. }
      destruct (arr_value lvl d l G) as [V1 V2]. split; [intros r _; apply V1|split].
      * intros p q E Q. left. exact (V2 p q E Q).
      * rewrite dump_arr. eexists 91, _. repeat split; discriminate.
  - inversion W as [| | | | | |? ND K F]; subst. destruct l as [|[k d] l].
    + split; [intros r _; at1|split; [cbn [JsonText.dump]; word_prefix|]]. exists 123, [125]. repeat split; discriminate.
    + assert (G : Forall (fine (S lvl)) (map snd ((k, d) :: l))).
      { clear W. rewrite Forall_forall in *. intros x I. apply IH; auto. }
      destruct (obj_value lvl k d l ND K G) as [V1 V2]. split; [intros r _; apply V1|split].
      * intros p q E Q. left. exact (V2 p q E Q).
      * rewrite dump_obj. eexists 123, _. repeat split; discriminate.
Qed.

(** The document written is the document read. *)
Lemma read_back d : writable d -> loads (dumps show_float d) = JOk d.
Proof using.
  intro W. destruct (all_fine d W 0%nat) as (F1 & _ & c & t & E & Wc & _ & Bc). unfold dumps.
  rewrite (ev_loads _ (JOk (d, []))); [reflexivity| |].
  - intros r X. rewrite E in X. congruence.
  - specialize (F1 [] I). rewrite app_nil_r in F1. rewrite E in F1 |- *. now rewrite skip_head.
Qed.
Definition enclosed (d : jdoc A) : Prop := match d with TStr _ | TArr _ | TObj _ => True | _ => False end.
Lemma cut_is_bad d p : writable d -> enclosed d -> cut_short p (dumps show_float d) -> loads p = JBad.
Proof using.
  intros W En (q & E & Q). unfold dumps in E. assert (V : ev (fun f => value f p) JBad).
  { destruct d as [|b|z|x|s|l|l]; try contradiction.
    - inversion W as [| | | |? T| |]; subst. destruct (str_value 0 s T) as [_ V]. exact (V p q E Q).
    - destruct l as [|d l]; [revert p q E Q; cbn [JsonText.dump]|].
      + intros p q E Q. destruct (prefix_firstn _ _ _ E Q) as (k & K & ->). cbn in K. destruct k as [|[|k]]; [at1|at1|lia].
      + inversion W as [| | | | |? F|]; subst. apply (arr_value 0 d l) with (q := q); [|assumption..].
        rewrite Forall_forall in *. intros x I. apply all_fine. auto.
    - destruct l as [|[k d] l]; [revert p q E Q; cbn [JsonText.dump]|].
      + intros p q E Q. destruct (prefix_firstn _ _ _ E Q) as (k & K & ->). cbn in K. destruct k as [|[|k]]; [at1|at1|lia].
      + inversion W as [| | | | | |? ND K F]; subst. apply (obj_value 0 k d l) with (q := q); [assumption|assumption| |assumption..].
        rewrite Forall_forall in *. intros x I. apply all_fine. auto. }
  destruct (all_fine d W 0%nat) as (_ & _ & c & t & Ec & Wc & _ & Bc).
  destruct p as [|x p]; [reflexivity|]. assert (x = c) by (rewrite Ec in E; cbn [app] in E; congruence). subst x.
  rewrite (ev_loads _ JBad); [reflexivity| |].
  - intros r X. congruence.
  - now rewrite skip_head.
Qed.
End Q.
