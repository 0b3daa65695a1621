(** Generic lemmas about the Python primitives of Model/Py.v and about lists. *)
From Coq Require Import String Ascii List ZArith NArith Bool Lia.
From Verif.Model Require Import Py.
From Verif.Spec Require Import Bytes.
Import ListNotations.
Set Implicit Arguments.

Ltac inv H := inversion H; subst; clear H.

Lemma bind_ok {A B} (x : res A) (f : A -> res B) b :
  bind x f = Ok b <-> exists a, x = Ok a /\ f a = Ok b.
Proof.
  destruct x; simpl; split; intros H.
  - eauto.
  - destruct H as (a' & E & H); inv E; auto.
  - discriminate.
  - destruct H as (a' & E & H); discriminate.
Qed.

Lemma nth_error_nth_iff {A} (l : list A) i d x :
  nth_error l i = Some x <-> i < length l /\ nth i l d = x.
Proof.
  revert i; induction l; intros [|i]; simpl; split; intros H.
  - discriminate.
  - destruct H; lia.
  - discriminate.
  - destruct H; lia.
  - inv H; split; [lia|auto].
  - destruct H; subst; auto.
  - apply IHl in H; destruct H; split; [lia|auto].
  - apply IHl; destruct H; split; [lia|auto].
Qed.

Lemma nth_ext_eq {A} (l1 l2 : list A) d :
  length l1 = length l2 -> (forall i, i < length l1 -> nth i l1 d = nth i l2 d) -> l1 = l2.
Proof. intros; eapply nth_ext; eauto. Qed.

(** slices *)
Lemma length_slice {A} (l : list A) i j : length (slice l i j) = Nat.min (j - i) (length l - i).
Proof. unfold slice; rewrite firstn_length, skipn_length; lia. Qed.

Lemma nth_skipn {A} (l : list A) n i d : nth i (skipn n l) d = nth (n + i) l d.
Proof. revert l; induction n; intros l; simpl; auto. destruct l; simpl; auto. destruct i; auto. Qed.

Lemma nth_firstn {A} (l : list A) n i d : i < n -> nth i (firstn n l) d = nth i l d.
Proof.
  revert l i; induction n; intros l i H; [lia|].
  destruct l; simpl; auto. destruct i; auto. apply IHn; lia.
Qed.

Lemma nth_slice {A} (l : list A) i j k d : k < j - i -> nth k (slice l i j) d = nth (i + k) l d.
Proof. intros H; unfold slice. rewrite nth_firstn by auto. apply nth_skipn. Qed.

Lemma slice_app_mid {A} (a b c : list A) :
  slice (a ++ b ++ c) (length a) (length a + length b) = b.
Proof.
  unfold slice. rewrite skipn_app, skipn_all, Nat.sub_diag; simpl.
  replace (length a + length b - length a) with (length b) by lia.
  rewrite firstn_app, firstn_all, Nat.sub_diag; simpl. apply app_nil_r.
Qed.

(** set_nth, fill *)
Lemma length_set_nth {A} (l : list A) i v : length (set_nth l i v) = length l.
Proof. revert i; induction l; intros [|i]; simpl; auto. Qed.

Lemma nth_set_nth {A} (l : list A) i v k d :
  nth k (set_nth l i v) d = if (Nat.eqb k i && Nat.ltb i (length l))%bool then v else nth k l d.
Proof.
  revert i k; induction l; intros i k.
  - simpl. replace (Nat.ltb i 0) with false by (symmetry; apply Nat.ltb_ge; lia).
    rewrite andb_false_r. reflexivity.
  - destruct i, k; simpl; auto. rewrite IHl. reflexivity.
Qed.

Lemma length_fill {A} (l : list A) i j v : length (fill l i j v) = length l.
Proof. revert i j; induction l; intros [|i] [|j]; simpl; auto. Qed.

Lemma nth_fill {A} (l : list A) i j v k d :
  nth k (fill l i j v) d = if (Nat.leb i k && Nat.ltb k j && Nat.ltb k (length l))%bool then v else nth k l d.
Proof.
  revert i j k; induction l; intros i j k.
  - replace (Nat.ltb k (length (@nil A))) with false by (symmetry; apply Nat.ltb_ge; simpl; lia).
    rewrite andb_false_r. destruct i, j; reflexivity.
  - destruct j.
    + assert (E : (Nat.leb i k && Nat.ltb k 0 && Nat.ltb k (length (a :: l)))%bool = false).
      { destruct (Nat.ltb_spec k 0); [lia|]. rewrite andb_false_r. reflexivity. }
      rewrite E. destruct i; reflexivity.
    + destruct i; simpl fill; destruct k; auto.
      * simpl nth. rewrite IHl. reflexivity.
      * simpl nth. rewrite IHl. reflexivity.
Qed.

(** dicts *)
Section Dict.
Context {K V : Type} (eqb : K -> K -> bool).
Hypothesis eqb_spec : forall x y, eqb x y = true <-> x = y.

Lemma eqb_refl' x : eqb x x = true.
Proof. apply eqb_spec; auto. Qed.

Lemma dict_get_in (d : list (K * V)) k v : dict_get eqb d k = Some v -> In (k, v) d.
Proof.
  induction d as [|[k' v'] d]; simpl; [discriminate|].
  destruct (eqb k k') eqn:E; intros H.
  - apply eqb_spec in E; inv H; auto.
  - right; auto.
Qed.

Lemma dict_get_none (d : list (K * V)) k : dict_get eqb d k = None <-> ~ In k (map fst d).
Proof.
  induction d as [|[k' v'] d]; simpl; split; auto.
  - destruct (eqb k k') eqn:E; [discriminate|]. intros H [H1|H1].
    + subst. rewrite eqb_refl' in E; discriminate.
    + apply IHd in H; auto.
  - intros H. destruct (eqb k k') eqn:E.
    + apply eqb_spec in E; subst. destruct H; auto.
    + apply IHd. intro; apply H; auto.
Qed.

Lemma dict_in_get (d : list (K * V)) k v : NoDup (map fst d) -> In (k, v) d -> dict_get eqb d k = Some v.
Proof.
  induction d as [|[k' v'] d]; simpl; intros ND H; [tauto|].
  inv ND. destruct H as [H|H].
  - inv H. rewrite eqb_refl'. reflexivity.
  - destruct (eqb k k') eqn:E.
    + apply eqb_spec in E; subst. destruct H2. change k' with (fst (k', v)). apply in_map; auto.
    + auto.
Qed.

Lemma dict_get_iff (d : list (K * V)) k v : NoDup (map fst d) -> (dict_get eqb d k = Some v <-> In (k, v) d).
Proof. split; [apply dict_get_in | apply dict_in_get; auto]. Qed.

Lemma dict_set_fresh (d : list (K * V)) k v : ~ In k (map fst d) -> dict_set eqb d k v = d ++ [(k, v)].
Proof.
  induction d as [|[k' v'] d]; simpl; intros H; auto.
  destruct (eqb k k') eqn:E.
  - apply eqb_spec in E; subst; tauto.
  - f_equal; apply IHd; tauto.
Qed.

Lemma dict_get_set (d : list (K * V)) k v k' :
  dict_get eqb (dict_set eqb d k v) k' = if eqb k' k then Some v else dict_get eqb d k'.
Proof.
  induction d as [|[k2 v2] d]; simpl.
  - destruct (eqb k' k); auto.
  - destruct (eqb k k2) eqn:E; simpl.
    + apply eqb_spec in E; subst. destruct (eqb k' k2); auto.
    + rewrite IHd. destruct (eqb k' k) eqn:E1; auto.
      apply eqb_spec in E1; subst. rewrite E. reflexivity.
Qed.
End Dict.

Lemma nateqb_spec x y : Nat.eqb x y = true <-> x = y.
Proof. apply Nat.eqb_eq. Qed.
Lemma Neqb_spec x y : N.eqb x y = true <-> x = y.
Proof. apply N.eqb_eq. Qed.
Lemma streqb_spec x y : String.eqb x y = true <-> x = y.
Proof. apply String.eqb_eq. Qed.

(** boolean duplicate check *)
Section Nodup.
Context {A : Type} (eqb : A -> A -> bool).
Hypothesis eqb_spec : forall x y, eqb x y = true <-> x = y.
Fixpoint nodupb (l : list A) : bool :=
  match l with [] => true | x :: t => negb (existsb (eqb x) t) && nodupb t end.
Lemma nodupb_sound l : nodupb l = true -> NoDup l.
Proof.
  induction l; simpl; intros H; constructor; apply andb_true_iff in H; destruct H as [H1 H2]; auto.
  intro C. apply negb_true_iff in H1. assert (existsb (eqb a) l = true); [|congruence].
  apply existsb_exists. exists a; split; auto. apply eqb_spec; auto.
Qed.
End Nodup.

Lemma fold_res_app {A B} (f : B -> A -> res B) l1 l2 b :
  fold_res f (l1 ++ l2) b = bind (fold_res f l1 b) (fold_res f l2).
Proof. revert b; induction l1; intros b; simpl; auto. destruct (f b a); simpl; auto. Qed.

Lemma map_res_length {A B} (f : A -> res B) l r : map_res f l = Ok r -> length r = length l.
Proof.
  revert r; induction l; simpl; intros r H; [inv H; auto|].
  apply bind_ok in H; destruct H as (y & H1 & H). apply bind_ok in H; destruct H as (ys & H2 & H). inv H.
  simpl; f_equal; auto.
Qed.

Lemma map_res_nth {A B} (f : A -> res B) l r i da db :
  map_res f l = Ok r -> i < length l -> f (nth i l da) = Ok (nth i r db).
Proof.
  revert r i; induction l; simpl; intros r i H Hi; [lia|].
  apply bind_ok in H; destruct H as (y & H1 & H). apply bind_ok in H; destruct H as (ys & H2 & H). inv H.
  destruct i; simpl; auto. apply IHl; auto; lia.
Qed.

Lemma list_sum_app' l1 l2 : list_sum (l1 ++ l2) = list_sum l1 + list_sum l2.
Proof. induction l1; simpl; lia. Qed.

Lemma list_sum_cons x l : list_sum (x :: l) = x + list_sum l.
Proof. reflexivity. Qed.


Lemma is_bytes_app a b : is_bytes (a ++ b) <-> is_bytes a /\ is_bytes b.
Proof. apply Forall_app. Qed.
Lemma is_bytes_firstn n l : is_bytes l -> is_bytes (firstn n l).
Proof.
  intros H. unfold is_bytes in *. rewrite Forall_forall in *. intros x Hx. apply H.
  rewrite <- (firstn_skipn n l). apply in_or_app; auto.
Qed.
Lemma is_bytes_skipn n l : is_bytes l -> is_bytes (skipn n l).
Proof.
  intros H. unfold is_bytes in *. rewrite Forall_forall in *. intros x Hx. apply H.
  rewrite <- (firstn_skipn n l). apply in_or_app; auto.
Qed.
Lemma is_bytes_slice l i j : is_bytes l -> is_bytes (slice l i j).
Proof. intros; apply is_bytes_firstn, is_bytes_skipn; auto. Qed.
Lemma is_bytes_nth l i : is_bytes l -> (nth i l 0 < 256)%N.
Proof.
  intros H. destruct (Nat.lt_ge_cases i (length l)).
  - unfold is_bytes in H. rewrite Forall_forall in H. apply H. apply nth_In; auto.
  - rewrite nth_overflow by auto. lia.
Qed.
