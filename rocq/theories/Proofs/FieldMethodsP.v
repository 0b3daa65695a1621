(** The remaining methods of FieldModel and BufferModel. *)
From Coq Require Import String Ascii List NArith ZArith Bool Lia Arith Reals Lra.
From Verif.Model Require Import Py Float Struct StatModels FieldMethods.
From Verif.Spec Require Import Header Frame RealOps Stats FieldSpec.
From Verif.Proofs Require Import Base DialectP StatP StatReal BufModelP.
Import ListNotations.
Local Open Scope R_scope.

Section Any.
Variable FO : fops.
Variables phi Phi : F FO -> F FO.
Lemma pdf_stats m x : coherent FO m -> value_of (fm_pdf FO phi m x) = (do! s <- stats_of FO (fm_samples FO m) in Ok (norm_pdf FO phi x (fst s) (snd s))).
Proof using. intros C. pose proof (refresh_spec FO m C) as H. unfold fm_pdf. destruct (stats_of FO (fm_samples FO m)) as [[mu sd]|e]; [|rewrite H; reflexivity]. destruct H as (m' & -> & <- & <- & _). reflexivity. Qed.
Lemma cdf_stats m x : coherent FO m -> value_of (fm_cdf FO Phi m x) = (do! s <- stats_of FO (fm_samples FO m) in Ok (norm_cdf FO Phi x (fst s) (snd s))).
Proof using. intros C. pose proof (refresh_spec FO m C) as H. unfold fm_cdf. destruct (stats_of FO (fm_samples FO m)) as [[mu sd]|e]; [|rewrite H; reflexivity]. destruct H as (m' & -> & <- & <- & _). reflexivity. Qed.
End Any.

Lemma rltb_true x y : Rltb x y = true <-> x < y.
Proof. unfold Rltb. destruct (Rlt_dec x y); split; intros; auto; try discriminate; contradiction. Qed.
Lemma rltb_false x y : Rltb x y = false <-> y <= x.
Proof. unfold Rltb. destruct (Rlt_dec x y); split; intros; auto; try discriminate; lra. Qed.

Lemma pow_bits (k : Z) s : 0 < s -> IZR k - 1 < ln (1 / s) / ln 2 <= IZR k -> 1 <= powerRZ 2 k * s /\ powerRZ 2 (k - 1) * s < 1.
Proof.
  intros Hs [H1 H2]. assert (L2 : 0 < ln 2) by (rewrite <- ln_1; apply ln_increasing; lra).
  assert (Hi : 0 < 1 / s) by (apply Rdiv_lt_0_compat; lra).
  assert (P : forall j, powerRZ 2 j = exp (IZR j * ln 2)) by (intros j; rewrite powerRZ_Rpower by lra; reflexivity).
  assert (E : 1 / s = exp (ln (1 / s))) by (rewrite exp_ln; [reflexivity|exact Hi]).
  assert (Es : 1 / s * s = 1) by (field; lra). set (t := 1 / s) in *. rewrite !P, minus_IZR. split.
  - apply Rmult_le_reg_l with t; [exact Hi|]. replace (t * (exp (IZR k * ln 2) * s)) with (exp (IZR k * ln 2) * (t * s)) by ring. rewrite Es, !Rmult_1_r, E.
    assert (X : ln t <= IZR k * ln 2) by (apply Rmult_le_compat_r with (r := ln 2) in H2; [|lra]; unfold Rdiv in H2; rewrite Rmult_assoc, Rinv_l in H2 by lra; lra).
    destruct X as [X|X]; [left; apply exp_increasing; exact X|right; rewrite X; reflexivity].
  - apply Rmult_lt_reg_l with t; [exact Hi|]. replace (t * (exp ((IZR k - 1) * ln 2) * s)) with (exp ((IZR k - 1) * ln 2) * (t * s)) by ring. rewrite Es, !Rmult_1_r, E. apply exp_increasing.
    apply Rmult_lt_compat_r with (r := ln 2) in H1; [|lra]. unfold Rdiv in H1. rewrite Rmult_assoc, Rinv_l in H1 by lra. lra.
Qed.

Lemma sum_opp xs : Rsum (map Ropp xs) = - Rsum xs.
Proof. induction xs as [|x xs IH]; cbn [map Rsum fold_right]; [ring|]. change (fold_right Rplus 0 (map Ropp xs)) with (Rsum (map Ropp xs)). change (fold_right Rplus 0 xs) with (Rsum xs). rewrite IH. ring. Qed.
Lemma mean_opp xs : mean_of (map Ropp xs) = - mean_of xs.
Proof. unfold mean_of. rewrite sum_opp, map_length. unfold Rdiv. ring. Qed.
Lemma std_opp xs : std_of (map Ropp xs) = std_of xs.
Proof. unfold std_of. rewrite map_map, map_length, mean_opp. do 3 f_equal. apply map_ext. intros x. ring. Qed.

Section Container.
Variable FO : fops.
Lemma came_names w h l : came FO h l -> bm_fields_names FO (fold_left (name_step FO) h (bm_init FO [] w)) = l /\ NoDup l.
Proof using.
  assert (Set_ : forall (m : buffer_model FO) k f, bm_fields_names FO (bm_set FO m k f) = if in_dec String.string_dec k (bm_fields_names FO m) then bm_fields_names FO m else bm_fields_names FO m ++ [k]).
  { intros m k f. unfold bm_fields_names, bm_set. cbn [bm_models]. destruct (in_dec _ _ _) as [I|I]; [apply dict_set_keys; exact I|]. rewrite (dict_set_fresh _ streqb_spec) by exact I. rewrite map_app. reflexivity. }
  assert (Get_ : forall (m : buffer_model FO) k, (exists f, bm_get FO m k = Some f) <-> In k (bm_fields_names FO m)).
  { intros m k. unfold bm_get, bm_fields_names. generalize (bm_models FO m). induction l0 as [|[k' f'] d IH]; cbn [dict_get map In fst]; [split; [intros (f & H); discriminate|intros []]|].
    destruct (String.eqb_spec k k') as [->|D]; [split; eauto|]. rewrite IH. split; [auto|intros [E|H]; [congruence|exact H]]. }
  induction 1 as [|h l e C IH I|h l name f C IH N|h l name s ty C IH N T|h l name s ty C IH N T]; [split; [reflexivity|constructor]|..]; destruct IH as [IH ND]; rewrite fold_left_app; cbn [fold_left];
    set (m := fold_left (name_step FO) h (bm_init FO [] w)) in *.
  - split; [|exact ND]. destruct e as [name s ty|name f]; cbn [name_step event_name] in *.
    + unfold bm_add_sample. assert (G : exists f, bm_get FO m name = Some f) by (apply Get_; rewrite IH; exact I). destruct G as (f & G). rewrite G. cbn [bind]. rewrite G.
      rewrite Set_, IH. destruct (in_dec _ _ _); [reflexivity|contradiction].
    + unfold bm_setitem. rewrite Set_, IH. destruct (in_dec _ _ _); [reflexivity|contradiction].
  - cbn [name_step]. unfold bm_setitem. rewrite Set_, IH. destruct (in_dec _ _ _); [contradiction|]. split; [reflexivity|apply NoDup_app_snoc; assumption].
  - cbn [name_step]. unfold bm_add_sample. destruct (bm_get FO m name) as [f|] eqn:G; [exfalso; apply N; rewrite <- IH; apply Get_; eauto|].
    destruct T as (sz & ch & T). destruct (ctype_init FO ty sz ch name (bm_window FO m) T) as (f0 & E0). rewrite E0. cbn [bind]. rewrite bm_get_set, String.eqb_refl.
    rewrite !Set_, IH. destruct (in_dec String.string_dec name l) as [X|_]; [contradiction|]. destruct (in_dec _ _ _) as [_|X]; [|exfalso; apply X, in_or_app; right; left; reflexivity]. split; [reflexivity|apply NoDup_app_snoc; assumption].
  - cbn [name_step]. unfold bm_add_sample. destruct (bm_get FO m name) as [f|] eqn:G; [exfalso; apply N; rewrite <- IH; apply Get_; eauto|].
    destruct (fm_init FO name ty (bm_window FO m)) as [f0|e] eqn:E0; cbn [bind]; [|auto]. exfalso. apply T. unfold fm_init in E0. destruct (dict_get String.eqb ProtocolMeta.field_lengths ty) as [n|] eqn:Gt; [|discriminate].
    apply (dict_get_in _ streqb_spec) in Gt. cbn in Gt. repeat (destruct Gt as [Gt|Gt]; [assert (ty = fst (ty, n)) as -> by reflexivity; rewrite <- Gt; cbn [fst]; do 2 eexists; constructor|]). destruct Gt.
Qed.
Lemma came_exists h : (forall ty, a_type ty \/ ~ a_type ty) -> exists l, came FO h l.
Proof using.
  intros D. induction h as [|e h (l & C)] using rev_ind; [exists []; constructor|]. destruct (in_dec String.string_dec (event_name FO e) l) as [I|N]; [exists l; constructor; assumption|].
  destruct e as [name s ty|name f]; cbn [event_name] in N; [|exists (l ++ [name]); constructor; assumption]. destruct (D ty) as [T|T]; [exists (l ++ [name])|exists l]; constructor; assumption.
Qed.
Lemma a_type_dec ty : a_type ty \/ ~ a_type ty.
Proof using FO.
  destruct (fm_init FO "x" ty None) as [f|e] eqn:E.
  - left. unfold fm_init in E. destruct (dict_get String.eqb ProtocolMeta.field_lengths ty) as [n|] eqn:Gt; [|discriminate].
    apply (dict_get_in _ streqb_spec) in Gt. cbn in Gt. repeat (destruct Gt as [Gt|Gt]; [assert (ty = fst (ty, n)) as -> by reflexivity; rewrite <- Gt; cbn [fst]; do 2 eexists; constructor|]). destruct Gt.
  - right. intros (sz & ch & T). destruct (ctype_init FO ty sz ch "x" None T) as (f0 & E0). congruence.
Qed.
Lemma init_type name ty w m : fm_init FO name ty w = Ok m -> a_type ty.
Proof using.
  intros E. unfold fm_init in E. destruct (dict_get String.eqb ProtocolMeta.field_lengths ty) as [n|] eqn:Gt; [|discriminate].
  apply (dict_get_in _ streqb_spec) in Gt. cbn in Gt. repeat (destruct Gt as [Gt|Gt]; [assert (ty = fst (ty, n)) as -> by reflexivity; rewrite <- Gt; cbn [fst]; do 2 eexists; constructor|]). destruct Gt.
Qed.
Lemma init_signed name ty w m : fm_init FO name ty w = Ok m -> fm_signed FO m = (c_signed ty || String.eqb ty "float")%bool.
Proof using. intros E. destruct (init_type _ _ _ _ E) as (sz & ch & T). destruct T; vm_compute in E; injection E as <-; reflexivity. Qed.
Lemma getitem_names (m : buffer_model FO) k : NoDup (bm_fields_names FO m) ->
  (bm_contains FO m k = true <-> In k (bm_fields_names FO m)) /\ (bm_getitem FO m k = Err KeyError <-> ~ In k (bm_fields_names FO m)) /\
  (forall f, bm_getitem FO m k = Ok f <-> In (k, f) (combine (bm_fields_names FO m) (bm_iter FO m))) /\ (forall f, bm_get_field_model FO m k = Some f <-> bm_getitem FO m k = Ok f) /\ bm_len FO m = length (bm_fields_names FO m) /\ length (bm_iter FO m) = bm_len FO m.
Proof using.
  intros ND. unfold bm_contains, bm_getitem, bm_get_field_model, bm_len, bm_iter, bm_fields_names in *. 
  assert (CB : combine (map fst (bm_models FO m)) (map snd (bm_models FO m)) = bm_models FO m) by (clear; induction (bm_models FO m) as [|[a b] d IH]; [reflexivity|cbn; f_equal; exact IH]).
  rewrite CB, !map_length. unfold bm_get. set (d := bm_models FO m) in *.
  assert (Gi : forall f, dict_get String.eqb d k = Some f <-> In (k, f) d).
  { intros f. clear CB. revert ND. generalize d. clear. induction d as [|[k' f'] d IH]; intros ND; cbn [dict_get In]; [split; [discriminate|intros []]|]. cbn [map fst] in ND. inversion ND as [|? ? N1 N2]; subst.
    destruct (String.eqb_spec k k') as [->|D].
    - split; [intros E; left; congruence|intros [E|I]; [congruence|]]. exfalso. apply N1. apply in_map_iff. exists (k', f). auto.
    - rewrite IH by exact N2. split; [auto|intros [E|I]; [congruence|exact I]]. }
  split; [|split; [|split; [|split; [|auto]]]].
  - rewrite existsb_exists. split; [intros (x & I & E); apply String.eqb_eq in E; subst; exact I|intros I; exists k; split; [exact I|apply String.eqb_refl]].
  - destruct (dict_get String.eqb d k) as [f|] eqn:G; split; try discriminate; try reflexivity.
    + intros N. exfalso. apply N. apply in_map_iff. exists (k, f). split; [reflexivity|apply (proj1 (Gi f) eq_refl)].
    + intros _ I. apply in_map_iff in I. destruct I as ([k' f] & E & I). cbn [fst] in E. subst. pose proof (proj2 (Gi f) I). congruence.
  - intros f. rewrite <- Gi. destruct (dict_get String.eqb d k); split; congruence.
  - intros f. destruct (dict_get String.eqb d k); split; congruence.
Qed.
End Container.
