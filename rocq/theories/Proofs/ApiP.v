(** The generated interface. *)
From Coq Require Import String Ascii List NArith ZArith Arith Bool Lia.
From Verif.Model Require Import Py Dialect ProtocolMeta Struct Crc Mavlink ApiTable Wrappers.
From Verif.Spec Require Import Bytes Frame ApiSpec.
From Verif.Proofs Require Import Base DialectP.
Import ListNotations.
Local Open Scope list_scope.
Local Notation length := List.length.

(** ** Variables *)
Lemma get_combine : forall names (fs : list fieldval) i, NoDup names -> length names = length fs -> i < length names ->
  dict_get String.eqb (combine names fs) (nth i names ""%string) = Some (nth i fs (FText [])).
Proof.
  induction names as [|n names IH]; intros fs i Hn Hl Hi; [cbn in Hi; lia|]. destruct fs as [|f fs]; [discriminate|].
  inversion Hn as [|? ? Hnotin Hn']. subst. destruct i as [|i]; cbn [nth combine dict_get].
  - rewrite String.eqb_refl. reflexivity.
  - cbn [length] in *. destruct (String.eqb (nth i names ""%string) n) eqn:E.
    + apply String.eqb_eq in E. exfalso. apply Hnotin. rewrite <- E. apply nth_In. lia.
    + apply IH; [assumption|lia|lia].
Qed.

Lemma get_combine_notin : forall names (fs : list fieldval) n, ~ In n names -> dict_get String.eqb (combine names fs) n = None.
Proof.
  induction names as [|m names IH]; intros fs n H; [reflexivity|]. destruct fs as [|f fs]; [reflexivity|]. cbn [combine dict_get].
  destruct (String.eqb n m) eqn:E; [apply String.eqb_eq in E; exfalso; apply H; left; auto|]. apply IH. intros H'. apply H. right. exact H'.
Qed.

Lemma map_res_nth {A B} (f : A -> res B) da db : forall l r, length l = length r -> (forall i, i < length l -> f (nth i l da) = Ok (nth i r db)) ->
  map_res f l = Ok r.
Proof.
  induction l as [|x l IH]; intros r Hl H; destruct r as [|y r]; try discriminate; [reflexivity|]. cbn [map_res].
  pose proof (H 0 ltac:(cbn; lia)) as H0. cbn [nth] in H0. rewrite H0. cbn [bind]. rewrite (IH r); [reflexivity|cbn in Hl; lia|]. intros i Hi. apply (H (S i)). cbn. lia.
Qed.

Lemma vars_all names (fs : list fieldval) : NoDup names -> length names = length fs -> map_res (var (combine names fs)) names = Ok fs.
Proof.
  intros Hn Hl. apply (map_res_nth _ ""%string (FText [])); [exact Hl|]. intros i Hi. unfold var. rewrite get_combine by assumption. reflexivity.
Qed.

Lemma bind_exact names ds (fs : list fieldval) : length fs = length names -> bind_args names ds fs = Ok (combine names fs).
Proof.
  intros H. unfold bind_args. rewrite (proj2 (Nat.ltb_ge _ _)) by lia. rewrite (proj2 (Nat.ltb_ge _ _)) by lia.
  rewrite skipn_all2 by lia. rewrite app_nil_r. reflexivity.
Qed.

Lemma set_snoc : forall (d : vars) n v, dict_get String.eqb d n = None -> dict_set String.eqb d n v = d ++ [(n, v)].
Proof.
  induction d as [|[m w] d IH]; intros n v H; [reflexivity|]. cbn [dict_get dict_set app] in *. destruct (String.eqb n m); [discriminate|].
  rewrite IH by exact H. reflexivity.
Qed.

Lemma sets_all vs : forall names (fs : list fieldval) attrs, NoDup names -> length names = length fs ->
  (forall i, i < length names -> var vs (nth i names ""%string) = Ok (nth i fs (FText []))) ->
  (forall n, In n names -> dict_get String.eqb attrs n = None) ->
  fold_res (fun attrs s => do! v <- var vs (snd s) in Ok (dict_set String.eqb attrs (fst s) v)) (map (fun n => (n, n)) names) attrs =
  Ok (attrs ++ combine names fs).
Proof.
  induction names as [|n names IH]; intros fs attrs Hn Hl Hv Ha.
  - cbn. rewrite app_nil_r. reflexivity.
  - destruct fs as [|f fs]; [discriminate|]. inversion Hn as [|? ? Hni Hn']. subst. cbn [map fold_res fst snd].
    pose proof (Hv 0 ltac:(cbn; lia)) as H0. cbn [nth] in H0. rewrite H0. cbn [bind]. rewrite set_snoc by (apply Ha; left; reflexivity).
    rewrite (IH fs).
    + cbn [combine]. rewrite <- app_assoc. reflexivity.
    + assumption.
    + cbn in Hl. lia.
    + intros i Hi. apply (Hv (S i)). cbn. lia.
    + intros m Hm. assert (E : forall d, dict_get String.eqb d m = None -> dict_get String.eqb (d ++ [(n, f)]) m = None).
      { assert (Hne : String.eqb m n = false) by (apply String.eqb_neq; congruence).
        induction d as [|[a b] d IHd]; cbn [app dict_get]; [rewrite Hne; reflexivity|]. destruct (String.eqb m a); [discriminate|exact IHd]. }
      apply E. apply Ha. right. exact Hm.
Qed.

Lemma construct_exact c k (fs : list fieldval) names : k_params k = names -> k_sets k = map (fun n => (n, n)) names -> NoDup names -> length fs = length names ->
  construct c k fs = Ok (Object c k (combine names fs)).
Proof.
  intros Hp Hs Hn Hl. unfold construct. rewrite Hp, Hs, bind_exact by exact Hl. cbn [bind].
  rewrite (sets_all (combine names fs) names fs []); [reflexivity|assumption|lia| |reflexivity].
  intros i Hi. unfold var. rewrite get_combine by (auto; lia). reflexivity.
Qed.

(** ** The table *)
Fixpoint strs_eqb (a b : list string) : bool :=
  match a, b with [], [] => true | x :: a, y :: b => (String.eqb x y && strs_eqb a b)%bool | _, _ => false end.
Lemma strs_eqb_eq : forall a b, strs_eqb a b = true -> a = b.
Proof.
  induction a as [|x a IH]; intros [|y b] H; try discriminate; [reflexivity|]. cbn in H. apply andb_prop in H as [H1 H2].
  apply String.eqb_eq in H1. rewrite (IH b H2), H1. reflexivity.
Qed.
Definition pair_eqb (a b : string * string) : bool := (String.eqb (fst a) (fst b) && String.eqb (snd a) (snd b))%bool.
Definition ref_eqb (a b : string * option nat) : bool :=
  (String.eqb (fst a) (fst b) && match snd a, snd b with None, None => true | Some i, Some j => Nat.eqb i j | _, _ => false end)%bool.
Fixpoint all_eqb {A} (f : A -> A -> bool) (a b : list A) : bool :=
  match a, b with [], [] => true | x :: a, y :: b => (f x y && all_eqb f a b)%bool | _, _ => false end.
Lemma all_eqb_eq {A} (f : A -> A -> bool) : (forall x y, f x y = true -> x = y) -> forall a b, all_eqb f a b = true -> a = b.
Proof.
  intros Hf. induction a as [|x a IH]; intros [|y b] H; try discriminate; [reflexivity|]. cbn in H. apply andb_prop in H as [H1 H2].
  rewrite (IH b H2), (Hf _ _ H1). reflexivity.
Qed.
Lemma pair_eqb_eq x y : pair_eqb x y = true -> x = y.
Proof. destruct x, y. unfold pair_eqb. cbn. intros H. apply andb_prop in H as [H1 H2]. apply String.eqb_eq in H1, H2. congruence. Qed.
Lemma ref_eqb_eq x y : ref_eqb x y = true -> x = y.
Proof.
  destruct x as [a [i|]], y as [b [j|]]; unfold ref_eqb; cbn; intros H; apply andb_prop in H as [H1 H2]; apply String.eqb_eq in H1; try discriminate; [|congruence].
  apply Nat.eqb_eq in H2. congruence.
Qed.

Fixpoint nodupb (l : list string) : bool := match l with [] => true | x :: t => (negb (existsb (String.eqb x) t) && nodupb t)%bool end.
Lemma nodupb_ok : forall l, nodupb l = true -> NoDup l.
Proof.
  induction l as [|x l IH]; intros H; [constructor|]. cbn in H. apply andb_prop in H as [H1 H2]. constructor; [|apply IH; exact H2].
  intros Hi. apply negb_true_iff in H1. assert (E : existsb (String.eqb x) l = true) by (apply existsb_exists; exists x; split; [exact Hi|apply String.eqb_refl]). congruence.
Qed.

Definition refs (c : msg_class) (i : nat) : list (string * option nat) :=
  let n := nth i (mc_fieldnames c) ""%string in
  if (String.eqb (f_type c i) "char" || Nat.eqb (f_array c i) 0)%bool then [(n, None)] else map (fun j => (n, Some j)) (seq 0 (f_array c i)).
Definition place (c : msg_class) (n : string) : nat := match str_index (mc_fieldnames c) n with Ok i => i | Err _ => f_count c end.

Definition row_ok (x : ctor * msg_class) : bool :=
  let '(k, c) := x in
  (strs_eqb (k_params k) (mc_fieldnames c) && all_eqb pair_eqb (k_sets k) (map (fun n => (n, n)) (mc_fieldnames c)) && nodupb (mc_fieldnames c) &&
   (forallb (fun n => Nat.ltb (place c n) (f_count c)) (mc_ordered c) && forallb (fun n => existsb (String.eqb n) (mc_ordered c)) (mc_fieldnames c)) &&
   all_eqb ref_eqb (k_packs k) (flat_map (fun n => refs c (place c n)) (mc_ordered c)) &&
   match find_method encodes (encode_of c), find_method sends (send_of c) with
   | Some e, Some s => String.eqb (h_calls e) (k_name k) && strs_eqb (h_params e) (mc_fieldnames c) && strs_eqb (h_args e) (mc_fieldnames c) &&
       String.eqb (h_calls s) (encode_of c) && strs_eqb (h_params s) (mc_fieldnames c) && strs_eqb (h_args s) (mc_fieldnames c) &&
       Nat.leb (length (h_defaults e)) (if N.eqb (mc_id c) 0 then 1 else 0) && Nat.leb (length (h_defaults s)) (if N.eqb (mc_id c) 0 then 1 else 0)
   | _, _ => false
   end)%bool.
Lemma table_ok : forallb row_ok (combine ctors mavlink_classes) = true /\ length ctors = length mavlink_classes /\ nodupb (map k_name ctors) = true.
Proof. split; [|split]; vm_compute; reflexivity. Qed.

Lemma find_key {A} (key : A -> string) : forall l x, NoDup (map key l) -> In x l -> find (fun y => String.eqb (key y) (key x)) l = Some x.
Proof.
  induction l as [|y l IH]; intros x Hn Hi; [contradiction|]. cbn [map] in Hn. inversion Hn as [|? ? Hni Hn']. subst. cbn [find].
  destruct (String.eqb (key y) (key x)) eqn:E.
  - apply String.eqb_eq in E. destruct Hi as [->|Hi]; [reflexivity|]. exfalso. apply Hni. rewrite E. apply in_map. exact Hi.
  - destruct Hi as [->|Hi]; [rewrite String.eqb_refl in E; discriminate|]. apply IH; assumption.
Qed.

Lemma map_fst_combine {A B} : forall (l : list A) (r : list B), length l = length r -> map fst (combine l r) = l.
Proof. induction l as [|x l IH]; intros [|y r] H; try discriminate; [reflexivity|]. cbn. rewrite IH by (cbn in H; lia). reflexivity. Qed.
Lemma in_combine_snd {A B} : forall (l : list A) (r : list B) y, length l = length r -> In y r -> exists x, In (x, y) (combine l r).
Proof.
  induction l as [|x l IH]; intros [|z r] y H Hi; try discriminate; try contradiction. destruct Hi as [->|Hi]; [exists x; left; reflexivity|].
  destruct (IH r y) as (x' & Hx); [cbn in H; lia|exact Hi|]. exists x'. right. exact Hx.
Qed.

(** What the table says about a message. *)
Definition methods_ok (c : msg_class) (k : ctor) (e s : method) : Prop :=
  find_ctor (k_name k) = Some (k, c) /\ k_params k = mc_fieldnames c /\ k_sets k = map (fun n => (n, n)) (mc_fieldnames c) /\ NoDup (mc_fieldnames c) /\
  (forall n, In n (mc_ordered c) -> place c n < f_count c) /\ (forall n, In n (mc_fieldnames c) -> In n (mc_ordered c)) /\ k_packs k = flat_map (fun n => refs c (place c n)) (mc_ordered c) /\
  find_method encodes (encode_of c) = Some e /\ find_method sends (send_of c) = Some s /\
  h_calls e = k_name k /\ h_params e = mc_fieldnames c /\ h_args e = mc_fieldnames c /\
  h_calls s = encode_of c /\ h_params s = mc_fieldnames c /\ h_args s = mc_fieldnames c /\
  length (h_defaults e) <= (if N.eqb (mc_id c) 0 then 1 else 0) /\ length (h_defaults s) <= (if N.eqb (mc_id c) 0 then 1 else 0).

Lemma message_methods c : In c mavlink_classes -> exists k e s, methods_ok c k e s.
Proof.
  intros Hc. destruct table_ok as (T & L & K). destruct (in_combine_snd ctors mavlink_classes c L Hc) as (k & Hk). exists k.
  pose proof (proj1 (forallb_forall _ _) T _ Hk) as R. unfold row_ok in R.
  apply andb_prop in R as [R R6]. apply andb_prop in R as [R R5]. apply andb_prop in R as [R R4]. apply andb_prop in R as [R R3]. apply andb_prop in R as [R1 R2].
  destruct (find_method encodes (encode_of c)) as [e|] eqn:Ee; [|discriminate]. destruct (find_method sends (send_of c)) as [s|] eqn:Es; [|discriminate].
  exists e, s. repeat (apply andb_prop in R6 as [R6 ?]). unfold methods_ok. repeat split; auto.
  - unfold find_ctor. rewrite <- (find_key (fun x : ctor * msg_class => k_name (fst x)) (combine ctors mavlink_classes) (k, c)); [reflexivity| |exact Hk].
    rewrite <- map_map, map_fst_combine by exact L. apply nodupb_ok. exact K.
  - apply strs_eqb_eq. exact R1.
  - apply (all_eqb_eq pair_eqb pair_eqb_eq). exact R2.
  - apply nodupb_ok. exact R3.
  - intros n Hn. apply Nat.ltb_lt. apply andb_prop in R4 as [R4 _]. exact (proj1 (forallb_forall _ _) R4 n Hn).
  - intros n Hn. apply andb_prop in R4 as [_ R4]. pose proof (proj1 (forallb_forall _ _) R4 n Hn) as Hx. apply existsb_exists in Hx as (y & Hy & Ey).
    apply String.eqb_eq in Ey. subst. exact Hy.
  - apply (all_eqb_eq ref_eqb ref_eqb_eq). exact R5.
  - apply String.eqb_eq. exact R6.
  - apply strs_eqb_eq. assumption.
  - apply strs_eqb_eq. assumption.
  - apply String.eqb_eq. assumption.
  - apply strs_eqb_eq. assumption.
  - apply strs_eqb_eq. assumption.
  - apply Nat.leb_le. assumption.
  - apply Nat.leb_le. assumption.
Qed.

Lemma encode_exact c : In c mavlink_classes -> exists k, (forall fs, length fs = f_count c ->
  call_encode (encode_of c) fs = Ok (Object c k (combine (mc_fieldnames c) fs))) /\ exists e s, methods_ok c k e s.
Proof.
  intros Hc. destruct (message_methods c Hc) as (k & e & s & M). exists k. split; [|eauto]. intros fs Hl.
  destruct M as (F & P & S & Nd & _ & _ & _ & Fe & _ & C1 & C2 & C3 & _).
  unfold call_encode. rewrite Fe, C2, bind_exact by exact Hl. cbn [bind]. rewrite C1, F, C3, vars_all by (auto; lia). cbn [bind].
  apply construct_exact; auto.
Qed.

(** ** Packing *)
Lemma map_res_app {A B} (f : A -> res B) : forall a b, map_res f (a ++ b) = do! x <- map_res f a in do! y <- map_res f b in Ok (x ++ y).
Proof.
  induction a as [|x a IH]; intros b; cbn [app map_res bind]; [destruct (map_res f b); reflexivity|].
  destruct (f x) as [v|e]; [|reflexivity]. cbn [bind]. rewrite IH. destruct (map_res f a); [|reflexivity]. cbn [bind]. destruct (map_res f b); reflexivity.
Qed.
Lemma map_res_flat {A B C} (f : B -> res C) (g : A -> list B) : forall l,
  map_res f (flat_map g l) = do! x <- map_res (fun a => map_res f (g a)) l in Ok (concat x).
Proof.
  induction l as [|x l IH]; cbn [flat_map map_res bind]; [reflexivity|]. rewrite map_res_app, IH. destruct (map_res f (g x)); [|reflexivity]. cbn [bind].
  destruct (map_res _ l); reflexivity.
Qed.
Lemma map_res_ext {A B} (f g : A -> res B) : forall l, (forall x, In x l -> f x = g x) -> map_res f l = map_res g l.
Proof.
  induction l as [|x l IH]; intros H; [reflexivity|]. cbn [map_res]. rewrite (H x) by (left; reflexivity). rewrite IH; [reflexivity|].
  intros y Hy. apply H. right. exact Hy.
Qed.

Lemma index_seq {A} (l : list A) n : n <= length l -> map_res (index l) (seq 0 n) = Ok (firstn n l).
Proof.
  revert l. induction n as [|n IH]; intros l H; [reflexivity|]. rewrite seq_S, map_res_app, IH by lia. cbn [bind map_res Nat.add].
  unfold index at 1. destruct (nth_error l n) as [x|] eqn:E; [|apply nth_error_None in E; lia]. cbn [bind].
  f_equal. symmetry. apply nth_error_split in E as (a & b & -> & <-). rewrite firstn_app, firstn_all2 by lia.
  replace (S (length a) - length a) with 1 by lia. rewrite firstn_app, firstn_all, Nat.sub_diag, firstn_O, app_nil_r. reflexivity.
Qed.
Lemma index_seq_short {A} (l : list A) n : length l < n -> map_res (index l) (seq 0 n) = Err IndexError.
Proof.
  intros H. replace n with (length l + S (n - length l - 1)) by lia. rewrite seq_app, map_res_app, index_seq by lia. cbn [bind seq map_res].
  unfold index at 1. rewrite (proj2 (nth_error_None l (0 + length l))) by lia. reflexivity.
Qed.
Lemma map_res_map {A B C} (f : B -> res C) (g : A -> B) : forall l, map_res f (map g l) = map_res (fun a => f (g a)) l.
Proof. induction l as [|x l IH]; [reflexivity|]. cbn [map map_res]. rewrite IH. reflexivity. Qed.

Section Fields.
Variables (c : msg_class) (k : ctor) (fs : list fieldval).
Hypothesis Hnd : NoDup (mc_fieldnames c).
Hypothesis Hl : length fs = f_count c.
Let o := Object c k (combine (mc_fieldnames c) fs).

Lemma attr_field i : i < f_count c -> dict_get String.eqb (o_attrs o) (nth i (mc_fieldnames c) ""%string) = Some (field fs i).
Proof. intros H. unfold o. cbn [o_attrs]. apply get_combine; [exact Hnd|symmetry; exact Hl|exact H]. Qed.

Lemma refs_longer i : i < f_count c -> fits_or_longer c i (field fs i) ->
  map_res (pack_ref o) (refs c i) = match trim c i (field fs i) with FOne v => Ok [v] | FMany l => Ok l | FText _ => Err StructError end.
Proof.
  intros Hi F. pose proof (attr_field i Hi) as A. unfold refs.
  assert (One : forall v, field fs i = FOne v -> map_res (pack_ref o) [(nth i (mc_fieldnames c) ""%string, None)] = Ok [v]).
  { intros v E. cbn [map_res]. unfold pack_ref. cbn [fst snd]. rewrite A, E. reflexivity. }
  assert (Many : forall l, field fs i = FMany l -> f_array c i <= length l ->
            map_res (pack_ref o) (map (fun j => (nth i (mc_fieldnames c) ""%string, Some j)) (seq 0 (f_array c i))) = Ok (firstn (f_array c i) l)).
  { intros l E Hll. rewrite map_res_map, <- (index_seq l (f_array c i) Hll). apply map_res_ext. intros j _. unfold pack_ref. cbn [fst snd]. rewrite A, E. reflexivity. }
  destruct F as [F|((Ft & Fa) & l & E & Hll & _)].
  - unfold fits in F. destruct (String.eqb (f_type c i) "char") eqn:Et; cbn [orb].
    + destruct F as (b & E & _). rewrite (One _ E), E. reflexivity.
    + destruct (Nat.eqb (f_array c i) 0) eqn:Ea.
      * destruct F as (x & E & _). rewrite (One _ E), E. reflexivity.
      * destruct F as (l & E & El & _). rewrite (Many l E) by lia. rewrite E. reflexivity.
  - rewrite Ft. apply Nat.eqb_neq in Fa. rewrite Fa. cbn [orb]. rewrite (Many l E Hll), E. reflexivity.
Qed.

Lemma refs_short i : i < f_count c -> too_short c i (field fs i) -> map_res (pack_ref o) (refs c i) = Err IndexError.
Proof.
  intros Hi ((Ft & Fa) & l & E & Hll). unfold refs. rewrite Ft. apply Nat.eqb_neq in Fa. rewrite Fa. cbn [orb].
  rewrite map_res_map, <- (index_seq_short l (f_array c i) Hll). apply map_res_ext. intros j _. unfold pack_ref. cbn [fst snd]. rewrite (attr_field i Hi), E. reflexivity.
Qed.
End Fields.

Lemma place_ok c n : place c n < f_count c -> str_index (mc_fieldnames c) n = Ok (place c n) /\ nth (place c n) (mc_fieldnames c) ""%string = n.
Proof.
  unfold place, f_count. destruct (str_index (mc_fieldnames c) n) as [i|e] eqn:E; [|lia]. intros _. split; [reflexivity|].
  revert i E. induction (mc_fieldnames c) as [|m l IH]; intros i E; [discriminate|]. cbn [str_index] in E.
  destruct (String.eqb n m) eqn:Em; [injection E as <-; apply String.eqb_eq in Em; symmetry; exact Em|].
  destruct (str_index l n) as [j|e]; [|discriminate]. injection E as <-. cbn [nth]. apply IH. reflexivity.
Qed.

Lemma trim_all_nth c fs i : i < f_count c -> nth_error (trim_all c fs) i = Some (trim c i (field fs i)).
Proof.
  intros H. unfold trim_all. rewrite nth_error_map, (nth_error_nth' _ 0) by (rewrite seq_length; exact H). rewrite seq_nth by exact H. reflexivity.
Qed.

Lemma pack_longer c k e s fs seq sys comp : methods_ok c k e s -> length fs = f_count c -> (forall i, i < f_count c -> fits_or_longer c i (field fs i)) ->
  object_pack (Object c k (combine (mc_fieldnames c) fs)) seq sys comp = message_pack (Msg c (trim_all c fs)) seq sys comp.
Proof.
  intros (_ & _ & _ & Nd & Pl & _ & Pk & _) Hl F. unfold object_pack, message_pack. cbn [o_ctor o_class m_class]. rewrite Pk, map_res_flat. unfold pack_args.
  cbn [m_class m_fields].
  match goal with |- bind (bind ?a _) _ = bind (bind ?b _) _ => assert (E : a = b) end.
  { apply map_res_ext. intros n Hn. pose proof (Pl n Hn) as Hp. rewrite (refs_longer c k fs Nd Hl _ Hp (F _ Hp)).
    destruct (place_ok c n Hp) as [-> _]. cbn [bind]. unfold index. rewrite (trim_all_nth c fs _ Hp). cbn [bind].
    destruct (trim c (place c n) (field fs (place c n))); reflexivity. }
  rewrite E. reflexivity.
Qed.

Lemma map_res_err {A B} (f : A -> res B) e : forall l, (forall x, In x l -> (exists y, f x = Ok y) \/ f x = Err e) -> (exists x, In x l /\ f x = Err e) ->
  map_res f l = Err e.
Proof.
  induction l as [|x l IH]; intros H (y & Hy & Ey); [contradiction|]. cbn [map_res]. destruct (H x) as [(v & Ev)|Ev]; [left; reflexivity| |rewrite Ev; reflexivity].
  rewrite Ev. cbn [bind]. rewrite IH; [reflexivity| |].
  - intros z Hz. apply H. right. exact Hz.
  - destruct Hy as [->|Hy]; [congruence|eauto].
Qed.

Lemma pack_short c k e s fs seq sys comp : methods_ok c k e s -> length fs = f_count c ->
  (forall i, i < f_count c -> fits_or_longer c i (field fs i) \/ too_short c i (field fs i)) -> (exists i, i < f_count c /\ too_short c i (field fs i)) ->
  object_pack (Object c k (combine (mc_fieldnames c) fs)) seq sys comp = Err IndexError.
Proof.
  intros (_ & _ & _ & Nd & Pl & Po & Pk & _) Hl F (i & Hi & Hs). unfold object_pack. cbn [o_ctor]. rewrite Pk, map_res_flat. rewrite map_res_err with (e := IndexError); [reflexivity| |].
  - intros n Hn. pose proof (Pl n Hn) as Hp. destruct (F _ Hp) as [Hf|Hf].
    + left. rewrite (refs_longer c k fs Nd Hl _ Hp Hf). destruct Hf as [Hf|(_ & l & -> & _)]; [|eexists; reflexivity].
      unfold fits in Hf. destruct (String.eqb _ _); [destruct Hf as (b & -> & _); eexists; reflexivity|].
      destruct (Nat.eqb _ _); [destruct Hf as (x & -> & _)|destruct Hf as (l & -> & _)]; eexists; reflexivity.
    + right. exact (refs_short c k fs Nd Hl _ Hp Hf).
  - pose (n := nth i (mc_fieldnames c) ""%string). assert (Hn : In n (mc_ordered c)) by (apply Po; apply nth_In; exact Hi). exists n. split; [exact Hn|].
    destruct (place_ok c n (Pl n Hn)) as [_ Ep]. assert (E : place c n = i). { apply (proj1 (NoDup_nth (mc_fieldnames c) ""%string) Nd); [exact (Pl n Hn)|exact Hi|exact Ep]. }
    rewrite E. exact (refs_short c k fs Nd Hl i Hi Hs).
Qed.

Lemma send_exact c : In c mavlink_classes -> exists k e s, methods_ok c k e s /\ forall st fs, length fs = f_count c ->
  call_send st (send_of c) fs = object_send st (Object c k (combine (mc_fieldnames c) fs)).
Proof.
  intros Hc. destruct (encode_exact c Hc) as (k & E & e & s & M). exists k, e, s. split; [exact M|]. intros st fs Hl.
  destruct M as (F & P & S & Nd & _ & _ & _ & Fe & Fs & C1 & C2 & C3 & C4 & C5 & C6 & _).
  unfold call_send. rewrite Fs, C5, bind_exact by exact Hl. cbn [bind]. rewrite C6, vars_all by (auto; lia). cbn [bind]. rewrite C4, (E fs Hl). reflexivity.
Qed.

Lemma fits_trim c fs : fits_all c fs -> trim_all c fs = fs.
Proof.
  intros (Hl & F). apply (nth_ext _ _ (FText []) (FText [])); [unfold trim_all; rewrite map_length, seq_length; symmetry; exact Hl|].
  intros i Hi. unfold trim_all in Hi. rewrite map_length, seq_length in Hi. rewrite (nth_error_nth _ _ _ (trim_all_nth c fs i Hi)). pose proof (F i Hi) as Fi. unfold field. unfold fits in Fi. unfold trim.
  destruct (String.eqb _ _); [destruct Fi as (b & -> & _); reflexivity|].
  destruct (Nat.eqb _ _); [destruct Fi as (x & -> & _); reflexivity|destruct Fi as (l & -> & <- & _)]. rewrite firstn_all. reflexivity.
Qed.

Lemma bind_wrong names ds (args : list fieldval) : length args <> length names -> length ds = 0 \/ S (length args) <> length names /\ length ds <= 1 ->
  bind_args names ds args = Err TypeError.
Proof.
  intros H H'. unfold bind_args. destruct (Nat.ltb_spec (length names) (length args)); [reflexivity|].
  destruct (Nat.ltb_spec (length args + length ds) (length names)); [reflexivity|]. lia.
Qed.
