(** Lemmas about splitting results. *)
From Coq Require Import String Ascii List Bool Arith Lia.
From Verif.Model Require Import Py FixResults.
From Verif.Spec Require Import FixSpec.
From Verif.Proofs Require Import Base.
Import ListNotations.
Local Open Scope string_scope. Local Open Scope list_scope.

Section Dict.
Context {A : Type}.
Implicit Types d : list (string * A).
Lemma get_in d k e : dict_get String.eqb d k = Some e -> In (k, e) d.
Proof. induction d as [|[x v] d IH]; cbn; [discriminate|]. destruct (String.eqb_spec k x) as [->|]; intro H; [left; congruence|right; auto]. Qed.
Lemma get_iff d k e : NoDup (map fst d) -> (dict_get String.eqb d k = Some e <-> In (k, e) d).
Proof.
  intro N. split; [apply get_in|]. induction d as [|[x v] d IH]; cbn; [easy|]. inversion N as [|? ? N1 N2]; subst.
  intros [E|I]; [injection E as -> ->; now rewrite String.eqb_refl|]. destruct (String.eqb_spec k x) as [->|]; [|now apply IH].
  exfalso. apply N1. change x with (fst (x, e)). now apply in_map.
Qed.
Lemma get_none d k : dict_get String.eqb d k = None <-> ~ In k (map fst d).
Proof.
  induction d as [|[x v] d IH]; cbn; [tauto|]. destruct (String.eqb_spec k x) as [->|N]; [split; [discriminate|intro H; exfalso; apply H; now left]|].
  rewrite IH. split; [intros H [E|E]; [congruence|tauto]|tauto].
Qed.
Lemma set_keys d k v : map fst (dict_set String.eqb d k v) = if in_dec string_dec k (map fst d) then map fst d else map fst d ++ [k].
Proof.
  induction d as [|[x w] d IH]; cbn [map fst dict_set]; [destruct (in_dec _ _ _) as [[]|]; reflexivity|].
  destruct (String.eqb_spec k x) as [->|N]; cbn [map fst].
  - destruct (in_dec string_dec x (x :: map fst d)) as [|H]; [reflexivity|exfalso; apply H; now left].
  - rewrite IH. destruct (in_dec string_dec k (map fst d)) as [I|I], (in_dec string_dec k (x :: map fst d)) as [I'|I']; try reflexivity; exfalso.
    + apply I'. now right.
    + destruct I'; [congruence|contradiction].
Qed.
Lemma set_nodup d k v : NoDup (map fst d) -> NoDup (map fst (dict_set String.eqb d k v)).
Proof.
  intro N. rewrite set_keys. destruct (in_dec _ _ _) as [|I]; [exact N|].
  induction (map fst d) as [|x l IH]; cbn; [constructor; [easy|constructor]|]. inversion N; subst. cbn in I. constructor.
  - intro H. apply in_app_or in H as [H|[H|[]]]; [contradiction|]. apply I. left. congruence.
  - apply IH; [assumption|tauto].
Qed.
Lemma set_in d k v x w : NoDup (map fst d) -> (In (x, w) (dict_set String.eqb d k v) <-> (x = k /\ w = v) \/ (x <> k /\ In (x, w) d)).
Proof.
  induction d as [|[y u] d IH]; intro N; cbn [dict_set].
  - cbn. split; [intros [E|[]]; injection E as -> ->; auto|intros [[-> ->]|[_ []]]; auto].
  - inversion N as [|? ? N1 N2]; subst. destruct (String.eqb_spec k y) as [->|K].
    + cbn [In]. split.
      * intros [E|E]; [injection E as -> ->; auto|]. right. split; [|now right]. intros ->. apply N1. change y with (fst (y, w)). now apply in_map.
      * intros [[-> ->]|[H [E|E]]]; [now left|injection E as -> ->; congruence|now right].
    + cbn [In]. rewrite IH by assumption. split.
      * intros [E|[H|H]]; [injection E as -> ->; right; split; [congruence|now left]|now left|right; tauto].
      * intros [H|[H [E|E]]]; [tauto|now left|tauto].
Qed.
Lemma filter_nodup (f : string * A -> bool) d : NoDup (map fst d) -> NoDup (map fst (filter f d)).
Proof.
  induction d as [|x d IH]; cbn; intro N; [constructor|]. inversion N as [|? ? N1 N2]; subst. destruct (f x); [|auto]. cbn. constructor; [|auto].
  intro H. apply N1. apply in_map_iff in H as (y & <- & H). apply filter_In in H as [H _]. now apply in_map.
Qed.
End Dict.

Lemma map_res_forall2 {A B} (f : A -> res B) l r : map_res f l = Ok r <-> Forall2 (fun a b => f a = Ok b) l r.
Proof.
  split.
  - revert r; induction l as [|a l IH]; cbn [map_res]; intros r H; [injection H as <-; constructor|].
    destruct (f a) as [b|] eqn:E; cbn [bind] in H; [|discriminate]. destruct (map_res f l) as [t|]; cbn [bind] in H; [|discriminate].
    injection H as <-. constructor; auto.
  - induction 1 as [|a b l r E _ IH]; cbn [map_res]; [reflexivity|]. rewrite E. cbn [bind]. now rewrite IH.
Qed.

Section Fix.
Variable V : Type.
Lemma columns_fold cols : columns_of V cols (fold_left (fun d c => dict_set String.eqb d (fst c) (snd c)) cols []).
Proof.
  induction cols as [|[y u] cols IH] using rev_ind.
  - split; [constructor|]. cbn. split; [easy|]. intros (a & b & E & _). destruct a; discriminate.
  - rewrite fold_left_app. cbn [fold_left fst snd]. destruct IH as [N I]. split; [now apply set_nodup|].
    intros x c. rewrite set_in by assumption. rewrite I. split.
    + intros [[-> ->]|[H (a & b & -> & Hb)]].
      * exists cols, []. split; [reflexivity|cbn; tauto].
      * exists a, (b ++ [(y, u)])%list. split; [now rewrite <- app_assoc|]. rewrite map_app, in_app_iff. cbn. intros [K|[K|[]]]; [contradiction|congruence].
    + intros (a & b & E & Hb). destruct b as [|z b] using rev_ind.
      * apply app_inj_tail in E as [-> E]. injection E as -> ->. now left.
      * clear IHb. change (a ++ (x, c) :: b ++ [z])%list with (a ++ ((x, c) :: b) ++ [z])%list in E. rewrite app_assoc in E. apply app_inj_tail in E as [-> <-].
        rewrite map_app, in_app_iff in Hb. cbn in Hb. right. split; [intros ->; apply Hb; right; now left|]. exists a, b. split; [reflexivity|tauto].
Qed.
Lemma to_dict_ok e l : to_dict V e = Ok l <-> exists cols, e = Frame V cols /\ l = fold_left (fun d c => dict_set String.eqb d (fst c) (snd c)) cols [].
Proof.
  destruct e; cbn; split; try discriminate; try (intros (c & E & _); discriminate).
  - intro H. injection H as <-. eauto.
  - intros (c & E & ->). injection E as ->. reflexivity.
Qed.

(** The three passes over one step. *)
Definition split1 (s : step V) : res (list (string * list V) * list (string * list V) * step V) :=
  do! s1 <- data_step V s in do! (e, s2) <- pop V "decoded_entropy" s1 in do! (l, s3) <- pop V "decoded_ldpc" s2 in Ok (e, l, s3).

Lemma lookup_ok k s e : lookup V k s = Ok e <-> dict_get String.eqb s k = Some e.
Proof. unfold lookup. destruct (dict_get _ s k); split; congruence. Qed.
Lemma data_step_ok s s' : NoDup (map fst s) ->
  (data_step V s = Ok s' <-> exists cols, In ("data", Frame V cols) s /\ s' = dict_set String.eqb s "data" (Lists V (fold_left (fun d c => dict_set String.eqb d (fst c) (snd c)) cols []))).
Proof.
  intro N. unfold data_step. split.
  - destruct (lookup V "data" s) as [e|] eqn:E; cbn [bind]; [|discriminate]. apply lookup_ok in E. apply get_in in E.
    destruct (to_dict V e) as [l|] eqn:T; cbn [bind]; [|discriminate]. apply to_dict_ok in T as (cols & -> & ->). intro H. injection H as <-. eauto.
  - intros (cols & I & ->). apply (get_iff s _ _ N) in I. apply lookup_ok in I. rewrite I. reflexivity.
Qed.
Lemma pop_ok k s l s' : NoDup (map fst s) ->
  (pop V k s = Ok (l, s') <-> exists cols, In (k, Frame V cols) s /\ l = fold_left (fun d c => dict_set String.eqb d (fst c) (snd c)) cols [] /\
                                           s' = filter (fun kv => negb (String.eqb k (fst kv))) s).
Proof.
  intro N. unfold pop. split.
  - destruct (lookup V k s) as [e|] eqn:E; cbn [bind]; [|discriminate]. apply lookup_ok in E. apply get_in in E.
    destruct (to_dict V e) as [t|] eqn:T; cbn [bind]; [|discriminate]. apply to_dict_ok in T as (cols & -> & ->). intro H. injection H as <- <-. eauto.
  - intros (cols & I & -> & ->). apply (get_iff s _ _ N) in I. apply lookup_ok in I. rewrite I. reflexivity.
Qed.

(** One step: it can be split just if it holds the three tables, and then its parts have everything. *)
Lemma three_ok s : NoDup (map fst s) -> splittable V s ->
  exists s1 e s2 l s3, data_step V s = Ok s1 /\ pop V "decoded_entropy" s1 = Ok (e, s2) /\ pop V "decoded_ldpc" s2 = Ok (l, s3).
Proof.
  intros N [_ H]. destruct (H "data") as (c1 & I1); [now left|]. destruct (H "decoded_entropy") as (c2 & I2); [right; now left|].
  destruct (H "decoded_ldpc") as (c3 & I3); [right; right; now left|].
  eexists _, _, _, _, _. split; [apply data_step_ok; [exact N|]; eexists; split; [exact I1|reflexivity]|].
  split; [apply pop_ok; [now apply set_nodup|]; exists c2; split; [apply set_in; [exact N|right; split; [discriminate|exact I2]]|split; reflexivity]|].
  apply pop_ok; [apply filter_nodup; now apply set_nodup|]. exists c3. split; [|split; reflexivity].
  apply filter_In. split; [apply set_in; [exact N|right; split; [discriminate|exact I3]]|reflexivity].
Qed.
Lemma three_inv s s1 e s2 l s3 : NoDup (map fst s) ->
  data_step V s = Ok s1 -> pop V "decoded_entropy" s1 = Ok (e, s2) -> pop V "decoded_ldpc" s2 = Ok (l, s3) ->
  splittable V s /\ NoDup (map fst s3) /\ ~ In "decoded_entropy" (map fst s3) /\ ~ In "decoded_ldpc" (map fst s3) /\
  (forall k v, In (k, v) (parts V e l s3) -> holds V s k v) /\ (forall k, In k (map fst s) <-> In k (map fst (parts V e l s3))).
Proof.
  intros N D P Q. apply data_step_ok in D as (c1 & I1 & ->); [|exact N].
  assert (N1 := set_nodup s "data" (Lists V (fold_left (fun d c => dict_set String.eqb d (fst c) (snd c)) c1 [])) N).
  apply pop_ok in P as (c2 & I2 & -> & ->); [|exact N1]. apply set_in in I2 as [[E _]|[_ I2]]; [discriminate|..|exact N].
  apply pop_ok in Q as (c3 & I3 & -> & ->); [|now apply filter_nodup]. apply filter_In in I3 as [I3 _].
  apply set_in in I3 as [[E _]|[_ I3]]; [discriminate|..|exact N].
  split.
  { split; [exact N|]. intros k [<-|[<-|[<-|[]]]]; eauto. }
  split; [now apply filter_nodup, filter_nodup|].
  split. { intro H. apply in_map_iff in H as ([k v] & E & H). cbn in E. subst k. apply filter_In in H as [H _]. apply filter_In in H as [_ H]. discriminate. }
  split. { intro H. apply in_map_iff in H as ([k v] & E & H). cbn in E. subst k. apply filter_In in H as [_ H]. discriminate. }
  split.
  - intros k v H. unfold holds. cbn [parts In] in H. destruct H as [E|[E|H]].
    + injection E as <- <-. cbn [in_dec]. destruct (in_dec _ _ _) as [_|X]; [|exfalso; apply X; cbn; tauto].
      eexists _, _. split; [exact I2|split; [reflexivity|apply columns_fold]].
    + injection E as <- <-. destruct (in_dec _ _ _) as [_|X]; [|exfalso; apply X; cbn; tauto].
      eexists _, _. split; [exact I3|split; [reflexivity|apply columns_fold]].
    + apply filter_In in H as [H K3]. apply filter_In in H as [H K2]. cbn [fst] in *. apply negb_true_iff, String.eqb_neq in K2. apply negb_true_iff, String.eqb_neq in K3.
      apply set_in in H as [[-> ->]|[K1 H]]; [..|exact N].
      * destruct (in_dec _ _ _) as [_|X]; [|exfalso; apply X; cbn; tauto]. eexists _, _. split; [exact I1|split; [reflexivity|apply columns_fold]].
      * destruct (in_dec _ _ _) as [X|_]; [|exact H]. exfalso. destruct X as [X|[X|[X|[]]]]; congruence.
  - intro k. cbn [parts map fst In]. split.
    + intro H. destruct (string_dec "decoded_entropy" k) as [K2|K2]; [now left|]. destruct (string_dec "decoded_ldpc" k) as [K3|K3]; [right; now left|]. right. right.
      apply in_map_iff in H as ([k' v] & E & H). cbn in E. subst k'.
      destruct (string_dec k "data") as [->|K1].
      * apply in_map_iff. eexists ("data", _). split; [reflexivity|]. apply filter_In. split; [|reflexivity]. apply filter_In. split; [|reflexivity]. apply set_in; [exact N|]. now left.
      * apply in_map_iff. exists (k, v). split; [reflexivity|]. apply filter_In. split; [|cbn [fst]; apply negb_true_iff; now apply String.eqb_neq].
        apply filter_In. split; [|cbn [fst]; apply negb_true_iff; now apply String.eqb_neq]. apply set_in; [exact N|]. right. split; [congruence|exact H].
    + assert (G : forall x v, In (x, v) s -> In x (map fst s)) by (intros x v H; change x with (fst (x, v)); now apply in_map).
      intros [<-|[<-|H]]; [eauto|eauto|]. apply in_map_iff in H as ([k' v] & E & H). cbn in E. subst k'.
      apply filter_In in H as [H _]. apply filter_In in H as [H _]. apply set_in in H as [[-> _]|[_ H]]; [eauto|eauto|exact N].
Qed.

(** The passes over all steps. *)
Lemma passes_inv rs r1 r2 r3 : Forall (fun s => NoDup (map fst s)) rs ->
  map_res (data_step V) rs = Ok r1 -> map_res (pop V "decoded_entropy") r1 = Ok r2 -> map_res (pop V "decoded_ldpc") (map snd r2) = Ok r3 ->
  Forall (splittable V) rs /\ length r2 = length rs /\ length r3 = length rs /\
  Forall2 (fun s p => let '(e, l, s3) := p in restored V s e l s3) rs (combine (combine (map fst r2) (map fst r3)) (map snd r3)).
Proof.
  intros N. revert r1 r2 r3. induction N as [|s rs Ns N IH]; intros r1 r2 r3 H1 H2 H3.
  - cbn in H1. injection H1 as <-. cbn in H2. injection H2 as <-. cbn in H3. injection H3 as <-. repeat split; constructor.
  - apply map_res_forall2 in H1. inversion H1 as [|? s1 ? r1' E1 H1']; subst. apply map_res_forall2 in H1'.
    apply map_res_forall2 in H2. inversion H2 as [|? [e s2] ? r2' E2 H2']; subst. apply map_res_forall2 in H2'.
    cbn [map snd] in H3. apply map_res_forall2 in H3. inversion H3 as [|? [l s3] ? r3' E3 H3']; subst. apply map_res_forall2 in H3'.
    destruct (IH _ _ _ H1' H2' H3') as (I1 & I2 & I3 & I4). destruct (three_inv s s1 e s2 l s3 Ns E1 E2 E3) as (T1 & T2 & T3 & T4 & T5 & T6).
    split; [constructor; assumption|]. split; [cbn; now rewrite I2|]. split; [cbn; now rewrite I3|]. cbn [map fst snd combine]. constructor; [|exact I4]. unfold restored. split; [cbn [parts map fst]; constructor; [intros [E|E]; [discriminate|contradiction]|constructor; assumption]|split; assumption].
Qed.
Lemma passes_ok rs : Forall (splittable V) rs ->
  exists r1 r2 r3, map_res (data_step V) rs = Ok r1 /\ map_res (pop V "decoded_entropy") r1 = Ok r2 /\ map_res (pop V "decoded_ldpc") (map snd r2) = Ok r3.
Proof.
  induction 1 as [|s rs H _ (r1 & r2 & r3 & R1 & R2 & R3)]; [exists [], [], []; repeat split|].
  destruct (three_ok s (proj1 H) H) as (s1 & e & s2 & l & s3 & E1 & E2 & E3).
  exists (s1 :: r1), ((e, s2) :: r2), ((l, s3) :: r3).
  split; [apply map_res_forall2; constructor; [exact E1|now apply map_res_forall2]|].
  split; [apply map_res_forall2; constructor; [exact E2|now apply map_res_forall2]|].
  cbn [map snd]. apply map_res_forall2. constructor; [exact E3|now apply map_res_forall2].
Qed.
Lemma map_res_err {A B} (f : A -> res B) l e : map_res f l = Err e -> exists a, In a l /\ f a = Err e.
Proof.
  induction l as [|a l IH]; cbn [map_res]; [discriminate|]. destruct (f a) as [b|x] eqn:E; cbn [bind].
  - destruct (map_res f l) as [t|x]; cbn [bind]; [discriminate|]. intro H. destruct (IH H) as (c & I & Ec). exists c. split; [now right|exact Ec].
  - intro H. injection H as ->. exists a. split; [now left|exact E].
Qed.
Lemma step_err s e : data_step V s = Err e \/ (exists k, pop V k s = Err e) -> e = KeyError \/ e = AttributeError.
Proof.
  unfold data_step, pop, lookup, to_dict. intros [H|[k H]].
  - destruct (dict_get _ s "data") as [[]|]; cbn [bind] in H; try discriminate; injection H as <-; tauto.
  - destruct (dict_get _ s k) as [[]|]; cbn [bind] in H; try discriminate; injection H as <-; tauto.
Qed.
End Fix.

Section Dir.
Context {A : Type}.
Implicit Types d : list (string * A).
Lemma get_set_same d k v : dict_get String.eqb (dict_set String.eqb d k v) k = Some v.
Proof. induction d as [|[x w] d IH]; cbn; [now rewrite String.eqb_refl|]. destruct (String.eqb k x) eqn:E; cbn; [now rewrite String.eqb_refl|now rewrite E]. Qed.
Lemma get_set_other d k v x : x <> k -> dict_get String.eqb (dict_set String.eqb d k v) x = dict_get String.eqb d x.
Proof.
  intro N. induction d as [|[y w] d IH]; cbn; [destruct (String.eqb_spec x k); [congruence|reflexivity]|].
  destruct (String.eqb_spec k y) as [->|K]; cbn; [destruct (String.eqb_spec x y); [congruence|reflexivity]|]. now rewrite IH.
Qed.
Lemma set_id d k v : dict_get String.eqb d k = Some v -> dict_set String.eqb d k v = d.
Proof.
  induction d as [|[x w] d IH]; cbn; [discriminate|]. destruct (String.eqb_spec k x) as [->|K]; intro H; [congruence|now rewrite IH].
Qed.
(** Setting different keys, some of them first: the same. *)
Definition sets (l : list (string * A)) d := fold_left (fun d f => dict_set String.eqb d (fst f) (snd f)) l d.
Lemma sets_get l : NoDup (map fst l) -> forall d k v, In (k, v) l -> dict_get String.eqb (sets l d) k = Some v.
Proof.
  induction l as [|[x w] l IH] using rev_ind; intros N d k v I; [easy|]. rewrite map_app in N. cbn in N. unfold sets. rewrite fold_left_app. cbn [fold_left fst snd].
  apply NoDup_remove in N as [N1 N2]. rewrite app_nil_r in N1, N2. apply in_app_or in I as [I|[I|[]]].
  - rewrite get_set_other; [now apply IH|]. intros ->. apply N2. change x with (fst (x, v)). now apply in_map.
  - injection I as -> ->. apply get_set_same.
Qed.
Lemma sets_id l d : (forall k v, In (k, v) l -> dict_get String.eqb d k = Some v) -> sets l d = d.
Proof.
  induction l as [|[x w] l IH]; intro H; [reflexivity|]. cbn [sets fold_left fst snd]. rewrite set_id by (apply H; now left). apply IH. intros k v I. apply H. now right.
Qed.
Lemma nodup_left (l m : list string) : NoDup (l ++ m) -> NoDup l.
Proof. induction l as [|x l IH]; cbn; intro N; constructor; inversion N; subst; [intro I; apply H1; apply in_or_app; now left|auto]. Qed.
Lemma sets_again l k d : NoDup (map fst l) -> sets l (sets (firstn k l) d) = sets l d.
Proof.
  intro N. rewrite <- (firstn_skipn k l) at 1 3. unfold sets. rewrite !fold_left_app. fold (sets (firstn k l) d). fold (sets (firstn k l) (sets (firstn k l) d)).
  f_equal. apply sets_id. apply sets_get. rewrite <- (firstn_skipn k l), map_app in N. exact (nodup_left _ _ N).
Qed.
End Dir.
