(** Lemmas about the unification of results. *)
From Coq Require Import String Ascii List ZArith NArith Bool Permutation Sorted Lia.
From Verif.Model Require Import Py ShipLog Cmd Unify.
From Verif.Spec Require Import UnifySpec.
From Verif.Proofs Require Import Base CmdP.
Import ListNotations.

(** ** Order of texts *)
Lemma text_lt_irrefl a : ~ text_lt a a.
Proof. induction a as [|x a IH]; intro H; inversion H; subst; [lia|auto]. Qed.
Lemma text_lt_trans a b c : text_lt a b -> text_lt b c -> text_lt a c.
Proof.
  intro H. revert c. induction H as [y b|x y a b L|x a b H IH]; intros c K; inversion K; subst;
    first [now constructor | apply lt_head; lia | apply lt_tail; now apply IH | idtac].
Qed.
Lemma text_total a b : a = b \/ text_lt a b \/ text_lt b a.
Proof.
  revert b; induction a as [|x a IH]; intros [|y b]; [auto|right; left; constructor|right; right; constructor|].
  destruct (N.lt_trichotomy x y) as [L|[->|L]]; [right; left; now constructor| |right; right; now constructor].
  destruct (IH b) as [->|[L|L]]; [auto|right; left; now constructor|right; right; now constructor].
Qed.
Lemma text_leb_spec a b : text_leb a b = true <-> a = b \/ text_lt a b.
Proof.
  revert b; induction a as [|x a IH]; intros [|y b]; cbn.
  - intuition.
  - split; [right; constructor|auto].
  - split; [discriminate|]. intros [E|L]; [discriminate|inversion L].
  - destruct (N.eqb_spec x y) as [->|Nx].
    + rewrite IH. split; (intros [E|L]; [left; congruence|right]); [now constructor|inversion L; subst; [lia|assumption]].
    + rewrite N.ltb_lt. split; [right; now constructor|]. intros [E|L]; [congruence|inversion L; subst; [assumption|congruence]].
Qed.

(** ** Sorting *)
Section Sort.
Context {A : Type}.
Variable le : A -> A -> bool.
Lemma insert_perm x l : Permutation (insert le x l) (x :: l).
Proof.
  induction l as [|y l IH]; cbn; [reflexivity|]. destruct (le x y); [reflexivity|]. rewrite IH. constructor.
Qed.
Lemma sorted_perm l : Permutation (sorted le l) l.
Proof. induction l as [|x l IH]; cbn; [reflexivity|]. rewrite insert_perm. now constructor. Qed.
(** Inserting from the right a list whose elements are related by [R], with [S] the order wanted. *)
Variables R T : A -> A -> Prop.
Hypothesis here : forall x y, R x y -> le x y = true -> T x y.
Hypothesis there : forall x y, le x y = false -> T y x.
Hypothesis trans : forall x y z, T x y -> T y z -> T x z.
Lemma insert_sorted x l : Forall (R x) l -> StronglySorted T l -> StronglySorted T (insert le x l).
Proof.
  induction l as [|y l IH]; cbn; intros F S; [repeat constructor|]. inversion F as [|? ? F1 F2]; inversion S as [|? ? S1 S2]; subst.
  destruct (le x y) eqn:E.
  - constructor; [assumption|]. constructor; [apply here; assumption|]. eapply Forall_impl; [|exact S2].
    intros z Hz. apply (trans x y z); [apply here; assumption|exact Hz].
  - constructor; [now apply IH|]. apply (Permutation_Forall (Permutation_sym (insert_perm x l))). constructor; [now apply there|assumption].
Qed.
Lemma sorted_sorted l : StronglySorted R l -> StronglySorted T (sorted le l).
Proof.
  induction l as [|x l IH]; cbn; intro S; [constructor|]. inversion S as [|? ? S1 S2]; subst.
  apply insert_sorted; [|now apply IH]. apply (Permutation_Forall (Permutation_sym (sorted_perm l))). assumption.
Qed.
End Sort.

Section Files.
Context {V : Type}.
Notation file := (file V).
Lemma earlier_irrefl (f : file) : ~ earlier f f.
Proof. intros [H|[_ H]]; [lia|now apply text_lt_irrefl in H]. Qed.
Lemma earlier_trans (a b c : file) : earlier a b -> earlier b c -> earlier a c.
Proof.
  intros [H|[H H1]] [K|[K K1]]; [left; lia|left; lia|left; lia|right]. split; [lia|]. eapply text_lt_trans; eassumption.
Qed.
Lemma sorted_unique (l l' : list file) : Permutation l l' -> StronglySorted earlier l -> StronglySorted earlier l' -> l = l'.
Proof.
  revert l'; induction l as [|x l IH]; intros l' P S S'.
  - apply Permutation_nil in P. now subst.
  - inversion S as [|? ? S1 S2]; subst. destruct l' as [|y l']; [symmetry in P; apply Permutation_nil in P; discriminate|].
    inversion S' as [|? ? S1' S2']; subst.
    assert (x = y) as ->.
    { assert (Ix : In x (y :: l')) by (eapply Permutation_in; [exact P|now left]).
      assert (Iy : In y (x :: l)) by (eapply Permutation_in; [symmetry; exact P|now left]).
      destruct Ix as [->|Ix]; [reflexivity|]. destruct Iy as [->|Iy]; [reflexivity|].
      rewrite Forall_forall in S2, S2'. exfalso. apply (earlier_irrefl x). eapply earlier_trans; [apply S2, Iy|apply S2', Ix]. }
    f_equal. apply IH; auto. now apply Permutation_cons_inv in P.
Qed.

(** Pairwise different names make the name order strict. *)
Definition by_name (a b : file) : Prop := text_lt (f_name a) (f_name b).
Lemma name_le_total (a b : file) : text_leb (f_name a) (f_name b) = false -> by_name b a.
Proof.
  intro E. destruct (text_total (f_name a) (f_name b)) as [Q|[Q|Q]]; [| |exact Q];
    exfalso; assert (text_leb (f_name a) (f_name b) = true) by (apply text_leb_spec; auto); congruence.
Qed.
Lemma nodup_apart (l : list file) : NoDup (map f_name l) -> StronglySorted (fun a b => f_name a <> f_name b) l.
Proof.
  induction l as [|x l IH]; cbn; intro D; [constructor|]. inversion D as [|? ? D1 D2]; subst. constructor; [auto|].
  apply Forall_forall. intros y Iy E. apply D1. rewrite E. now apply in_map.
Qed.
Lemma picked_sorted d : NoDup (map f_name d) -> StronglySorted earlier (picked V d).
Proof.
  intro D. unfold picked.
  apply (sorted_sorted (fun a b => (f_time a <=? f_time b)%Z) by_name earlier).
  - intros x y N L. apply Z.leb_le in L. destruct (Z.eq_dec (f_time x) (f_time y)); [right; auto|left; lia].
  - intros x y L. apply Z.leb_gt in L. left. lia.
  - exact earlier_trans.
  - apply (sorted_sorted (fun a b => text_leb (f_name a) (f_name b)) (fun a b => f_name a <> f_name b) by_name).
    + intros x y N L. apply text_leb_spec in L as [L|L]; [congruence|exact L].
    + exact name_le_total.
    + intros x y z. apply text_lt_trans.
    + apply nodup_apart. unfold pickles. clear -D.
      induction d as [|x d IH]; [constructor|]. cbn [filter]. inversion D as [|? ? D1 D2]; subst.
      destruct (ends_with (ascii ".pickle") (f_name x)); cbn [map]; [|now apply IH]. constructor; [|now apply IH]. intro I. apply D1.
      apply in_map_iff in I as (f & E & I). apply filter_In in I as [I _]. rewrite <- E. now apply in_map.
Qed.
Lemma starts_app p s : starts p s = true <-> exists u, s = p ++ u.
Proof.
  revert s; induction p as [|x p IH]; intro s; cbn; [split; eauto|]. destruct s as [|y s]; [split; [discriminate|intros (u & E); discriminate]|].
  rewrite andb_true_iff, N.eqb_eq, IH. split.
  - intros (-> & u & ->). eauto.
  - intros (u & E). injection E as <- ->. eauto.
Qed.
Lemma ends_with_spec p s : ends_with p s = true <-> exists u, s = u ++ p.
Proof.
  unfold ends_with. rewrite starts_app. split; intros (u & E).
  - exists (rev u). rewrite <- (rev_involutive s), E, rev_app_distr, rev_involutive. reflexivity.
  - exists (rev u). rewrite E, rev_app_distr. reflexivity.
Qed.
Lemma picked_in d f : In f (picked V d) <-> In f d /\ is_pickle f.
Proof.
  unfold picked.
  assert (Q : forall le l, In f (@sorted file le l) <-> In f l).
  { intros le l. split; apply Permutation_in; [|symmetry]; apply sorted_perm. }
  rewrite !Q. unfold pickles. rewrite filter_In, ends_with_spec. reflexivity.
Qed.
Lemma sorted_nodup (l : list file) : StronglySorted earlier l -> NoDup l.
Proof.
  induction 1 as [|x l S IH F]; constructor; [|assumption]. intro I. rewrite Forall_forall in F. now apply (earlier_irrefl x), F.
Qed.
Lemma picked_is d fs : NoDup (map f_name d) -> StronglySorted earlier fs -> (forall f, In f fs <-> In f d /\ is_pickle f) -> picked V d = fs.
Proof.
  intros D S I. apply sorted_unique; [|now apply picked_sorted|assumption].
  apply NoDup_Permutation; [now apply sorted_nodup, picked_sorted|now apply sorted_nodup|].
  intro f. now rewrite picked_in, I.
Qed.

(** ** Loading and the columns *)
Lemma load_broken fs : (exists f, In f fs /\ f_content f = Broken) -> map_res (load V) fs = Err RuntimeError.
Proof.
  induction fs as [|x fs IH]; intros (f & I & E); [easy|]. cbn [map_res]. unfold load at 1.
  destruct (f_content x) as [d|] eqn:C; cbn [bind]; [|reflexivity].
  destruct I as [->|I]; [congruence|]. rewrite IH by eauto. reflexivity.
Qed.
Lemma load_whole fs ds : map f_content fs = map Whole ds -> map_res (load V) fs = Ok ds.
Proof.
  revert ds; induction fs as [|x fs IH]; intros [|d ds] E; cbn in E; try discriminate; [reflexivity|].
  injection E as E1 E2. cbn [map_res]. unfold load at 1. rewrite E1. cbn [bind]. rewrite (IH ds E2). reflexivity.
Qed.
Lemma column_ok k (ds : list (dict V)) : (forall d, In d ds -> exists v, lookup V k d = Ok v) ->
  exists vs, column V k ds = Ok vs /\ Forall2 (fun d v => lookup V k d = Ok v) ds vs.
Proof.
  unfold column. induction ds as [|d ds IH]; intro K; [exists []; split; [reflexivity|constructor]|].
  destruct (K d (or_introl eq_refl)) as (v & E). destruct IH as (vs & E' & F); [intros; apply K; now right|].
  exists (v :: vs). cbn [map_res]. rewrite E. cbn [bind]. rewrite E'. split; [reflexivity|now constructor].
Qed.
Lemma lookup_err k (d : dict V) e : lookup V k d = Err e -> e = KeyError.
Proof. induction d as [|[x v] d IH]; cbn; [congruence|]. destruct (String.eqb x k); [discriminate|exact IH]. Qed.
Lemma column_err k (ds : list (dict V)) e : column V k ds = Err e -> e = KeyError.
Proof.
  unfold column. induction ds as [|d ds IH]; cbn [map_res]; [discriminate|].
  destruct (lookup V k d) eqn:E; cbn [bind]; [|intro K; injection K as <-; now apply lookup_err in E].
  destruct (map_res (lookup V k) ds); cbn [bind]; [discriminate|]. intro K; injection K as <-. now apply IH.
Qed.
Lemma column_all k (ds : list (dict V)) vs : column V k ds = Ok vs -> forall d, In d ds -> exists v, lookup V k d = Ok v.
Proof.
  unfold column. revert vs; induction ds as [|d ds IH]; cbn [map_res]; intros vs E d' I; [easy|].
  destruct (lookup V k d) as [v|] eqn:L; cbn [bind] in E; [|discriminate].
  destruct (map_res (lookup V k) ds) as [ws|]; cbn [bind] in E; [|discriminate].
  destruct I as [<-|I]; [eauto|]. now apply (IH ws).
Qed.

Lemma unify_loaded d ds : map_res (load V) (picked V d) = Ok ds ->
  fst (unify V d) = Some ds /\
  (ds = [] -> snd (unify V d) = Err IndexError) /\
  ((exists x, In x ds /\ ~ has_keys x) -> snd (unify V d) = Err KeyError) /\
  (ds <> [] -> (forall x, In x ds -> has_keys x) -> exists s, snd (unify V d) = Ok s /\ summary_of ds s).
Proof.
  intro E. unfold unify. rewrite E. cbn [fst snd]. split; [reflexivity|]. split; [intros ->; reflexivity|]. split.
  - intros (x & Ix & Nk).
    destruct (column V "raw_ber" ds) as [raw|e] eqn:C1; cbn [bind]; [|apply column_err in C1; now subst].
    destruct (column V "ldpc_decoder_ber" ds) as [a|e] eqn:C2; cbn [bind]; [|apply column_err in C2; now subst].
    destruct (column V "entropy_decoder_ber" ds) as [b|e] eqn:C3; cbn [bind]; [|apply column_err in C3; now subst].
    destruct (column V "ldpc_buffer_success_rate" ds) as [c|e] eqn:C4; cbn [bind]; [|apply column_err in C4; now subst].
    destruct (column V "entropy_buffer_success_rate" ds) as [f|e] eqn:C5; cbn [bind]; [|apply column_err in C5; now subst].
    exfalso. apply Nk. intros k [<-|[<-|[<-|[<-|[<-|[]]]]]];
      [eapply (column_all _ _ _ C1)|eapply (column_all _ _ _ C2)|eapply (column_all _ _ _ C3)|eapply (column_all _ _ _ C4)|eapply (column_all _ _ _ C5)]; eauto.
  - intros Ne K.
    assert (Q : forall k, In k keys -> exists vs, column V k ds = Ok vs /\ Forall2 (fun d v => lookup V k d = Ok v) ds vs).
    { intros k Ik. apply column_ok. intros x Ix. now apply K. }
    destruct (Q "raw_ber"%string) as (raw & C1 & F1); [cbn; tauto|]. destruct (Q "ldpc_decoder_ber"%string) as (a & C2 & F2); [cbn; tauto|].
    destruct (Q "entropy_decoder_ber"%string) as (b & C3 & F3); [cbn; tauto|].
    destruct (Q "ldpc_buffer_success_rate"%string) as (c & C4 & F4); [cbn; tauto|].
    destruct (Q "entropy_buffer_success_rate"%string) as (f & C5 & F5); [cbn; tauto|].
    rewrite C1, C2, C3, C4, C5. cbn [bind].
    destruct ds as [|d0 ds]; [congruence|]. inversion F1 as [|? m ? raw' L1 F1']; subst.
    eexists. split; [reflexivity|]. repeat split; cbn [u_raw u_ldpc u_entropy u_ldpc_rate u_entropy_rate u_minflip]; auto.
    exists d0. split; [reflexivity|exact L1].
Qed.

(** ** Histories *)
Lemma put_new (f : file) d : ~ In (f_name f) (map f_name d) -> put V f d = d ++ [f].
Proof.
  intro N. unfold put. destruct (existsb _ d) eqn:E; [|reflexivity]. exfalso. apply existsb_exists in E as (g & I & E).
  apply text_eqb_spec in E. apply N. rewrite <- E. now apply in_map.
Qed.
Lemma put_map (f : file) d : In (f_name f) (map f_name d) -> put V f d = map (fun g => if text_eqb (f_name g) (f_name f) then f else g) d.
Proof.
  intro I. unfold put. destruct (existsb _ d) eqn:E; [reflexivity|]. exfalso. apply in_map_iff in I as (g & E' & I).
  assert (existsb (fun g => text_eqb (f_name g) (f_name f)) d = true); [|congruence].
  apply existsb_exists. exists g. split; [exact I|]. now apply text_eqb_spec.
Qed.
Lemma map_other (f : file) d : ~ In (f_name f) (map f_name d) -> map (fun g => if text_eqb (f_name g) (f_name f) then f else g) d = d.
Proof.
  intro N. rewrite <- (map_id d) at 2. apply map_ext_in. intros g I. destruct (text_eqb _ _) eqn:E; [|reflexivity].
  apply text_eqb_spec in E. exfalso. apply N. rewrite <- E. now apply in_map.
Qed.
Lemma put_names (f : file) d : NoDup (map f_name d) -> NoDup (map f_name (put V f d)).
Proof.
  intro D. destruct (in_dec (list_eq_dec N.eq_dec) (f_name f) (map f_name d)) as [I|I].
  - rewrite put_map by exact I. rewrite map_map.
    rewrite (map_ext _ f_name); [exact D|]. intro g. destruct (text_eqb _ _) eqn:E; [|reflexivity]. apply text_eqb_spec in E. now rewrite E.
  - rewrite put_new by exact I. rewrite map_app. cbn. apply NoDup_rev in D.
    rewrite <- (rev_involutive (map f_name d ++ [f_name f])). apply NoDup_rev. rewrite rev_app_distr. cbn.
    constructor; [now rewrite <- in_rev|exact D].
Qed.
Lemma put_perm (f g : file) d d' : NoDup (map f_name d) -> f_name g = f_name f -> Permutation d (g :: d') -> Permutation (put V f d) (f :: d').
Proof.
  intros D E P.
  assert (I : In (f_name f) (map f_name d)). { rewrite <- E. apply in_map. eapply Permutation_in; [symmetry; exact P|now left]. }
  rewrite put_map by exact I.
  rewrite (Permutation_map (fun g => if text_eqb (f_name g) (f_name f) then f else g) P). cbn [map].
  rewrite (proj2 (text_eqb_spec (f_name g) (f_name f)) E). rewrite map_other; [reflexivity|].
  apply (Permutation_NoDup (Permutation_map f_name P)) in D. cbn in D. inversion D as [|? ? D1 D2]; subst. now rewrite <- E.
Qed.
Lemma history_dir op dn (es : list (event V)) : run_history op dn es ->
  NoDup (map f_name (after V [] es)) /\
  exists bs, map f_name bs = op /\ Forall (fun f => f_content f = Broken) bs /\ Permutation (after V [] es) (bs ++ dn).
Proof.
  induction 1 as [|op dn es n t H (D & bs & Eb & Fb & P) N1 N2|op1 op2 dn es n t r H (D & bs & Eb & Fb & P)].
  - split; [constructor|]. exists []. repeat split; [constructor|reflexivity].
  - unfold after in *. rewrite fold_left_app. cbn [fold_left happen].
    assert (Nn : ~ In n (map f_name (fold_left (happen V) es []))).
    { intro I. eapply Permutation_in in I; [|exact (Permutation_map f_name P)]. rewrite map_app, Eb in I. apply in_app_or in I as [I|I]; auto. }
    split; [now apply put_names|]. exists (File n t Broken :: bs). cbn [map f_name]. rewrite Eb. split; [reflexivity|]. split; [now constructor|].
    rewrite put_new by exact Nn. rewrite P. symmetry. apply Permutation_cons_append.
  - unfold after in *. rewrite fold_left_app. cbn [fold_left happen]. split; [now apply put_names|].
    assert (X : exists b1 g b2, bs = b1 ++ g :: b2 /\ map f_name b1 = op1 /\ f_name g = n /\ map f_name b2 = op2).
    { clear -Eb. revert bs Eb. induction op1 as [|o op1 IH]; intros [|b bs] E; cbn in E; try discriminate.
      - injection E as E1 E2. exists [], b, bs. auto.
      - injection E as E1 E2. destruct (IH bs E2) as (b1 & g & b2 & -> & Q1 & Q2 & Q3). exists (b :: b1), g, b2. cbn. rewrite E1, Q1. auto. }
    destruct X as (b1 & g & b2 & -> & Q1 & Q2 & Q3). exists (b1 ++ b2). rewrite map_app, Q1, Q3. split; [reflexivity|].
    apply Forall_app in Fb as [F1 F2]. inversion F2 as [|? ? F3 F4]; subst. split; [apply Forall_app; auto|].
    rewrite (put_perm (File (f_name g) t (Whole r)) g _ (b1 ++ b2 ++ dn) D eq_refl).
    + rewrite (app_assoc (b1 ++ b2) dn), (app_assoc b1 b2 dn). apply Permutation_cons_append.
    + rewrite P. rewrite <- !app_assoc. cbn. symmetry. apply Permutation_middle.
Qed.
Lemma put_put (f g : file) d : f_name f = f_name g -> put V g (put V f d) = put V g d.
Proof.
  intro E. destruct (in_dec (list_eq_dec N.eq_dec) (f_name f) (map f_name d)) as [I|I].
  - rewrite (put_map f d I). rewrite (put_map g d) by now rewrite <- E.
    rewrite put_map.
    + rewrite map_map. apply map_ext. intro h. rewrite <- E. destruct (text_eqb (f_name h) (f_name f)) eqn:Q; [|now rewrite Q].
      now rewrite (proj2 (text_eqb_spec (f_name f) (f_name f)) eq_refl).
    + rewrite map_map. rewrite <- E. apply in_map_iff in I as (h & Eh & Ih). apply in_map_iff. exists h. split; [|exact Ih].
      now rewrite (proj2 (text_eqb_spec _ _) Eh).
  - rewrite (put_new f d I). rewrite (put_new g d) by now rewrite <- E.
    rewrite put_map by (rewrite map_app, in_app_iff; right; left; exact E).
    rewrite map_app. rewrite map_other by now rewrite <- E. cbn. now rewrite (proj2 (text_eqb_spec _ _) E).
Qed.
End Files.
