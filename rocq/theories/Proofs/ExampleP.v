(** The two ways of training a model of fields. *)
From Coq Require Import String Ascii List NArith ZArith Bool Lia Arith.
From Verif.Model Require Import Py Float Dialect ProtocolMeta MsgHeader Struct Mavlink Segmentation StatModels ExampleScript.
From Verif.Spec Require Import Bytes Bits Header CrcSpec Frame Segment Describe Stats ExampleSpec.
From Verif.Proofs Require Import Base DialectP HeaderP CrcP StructP MavlinkP FieldsP PackP SendP MavlinkMore SegmentP SegStream SegMore DescribeP
  LayoutP ValuesP StatP BufModelP.
Import ListNotations.

Lemma body_skip k c : skipn 6 (msg_slots k c) = body_slots k c.
Proof. reflexivity. Qed.

(* the values of one frame are those of its slots *)
Definition boxed (x : string * (pyval * string)) : string * (fieldval * string) := (fst x, (FOne (fst (snd x)), snd (snd x))).
Lemma frame_slots text b k i c : is_bytes b -> frame_at (fun f => exists d, decode text f = Ok d) b k i -> is_msg i c -> no_arrays c ->
  frame_values text c (frame_bytes b k) = map (fun x => boxed (slot_sample b x)) (body_slots k c).
Proof.
  intros B Fr M NA. destruct (decode_frame_inside text b k i B Fr) as (In_ & c' & M' & F). assert (c' = c) by (eapply is_msg_fun; eauto). subst c'.
  pose proof M as [Hc Hid]. destruct Fr as (Hd & N5 & _).
  assert (An : announced b k = wire_size c).
  { destruct Hd as [L V]. assert (X1 : nth 1 (firstn 6 (skipn k b)) 0%N = nth (k + 1) b 0%N) by (apply nth_hdr; lia).
    assert (X5 : nth 5 (firstn 6 (skipn k b)) 0%N = nth (k + 5) b 0%N) by (apply nth_hdr; lia).
    destruct (wire_plen c Hc) as (n & P & _ & X). apply X in NA. subst n. apply payload_length_spec in P.
    unfold announced. destruct V as [n q s0 c0 i0 P']. cbn [nth] in X1, X5. rewrite <- X1, Nat2N.id. apply payload_length_spec in P'.
    rewrite X5, N5, <- Hid in P'. congruence. }
  unfold frame_values, body_slots. rewrite map_map. apply map_ext_in. intros j Hj. apply in_seq in Hj. cbv zeta.
  destruct (field_at_wire_spec c j Hc ltac:(lia)) as [Hi _]. set (i' := field_at_wire c j) in *.
  unfold boxed, slot_sample, slot_value. cbn [fst snd s_name s_type s_first s_width]. f_equal. f_equal.
  unfold f_value. cbv zeta. pose proof (plain_not_char c i' Hc NA Hi) as NC. apply String.eqb_neq in NC. rewrite NC.
  rewrite (plain_array c i' Hc NA Hi). cbn [Nat.eqb]. f_equal. f_equal.
  pose proof (offset_bound c i' Hc Hi) as OB. unfold frame_end in In_.
  assert (Lf : length (frame_bytes b k) = 6 + wire_size c + 2) by (unfold frame_bytes; rewrite firstn_length, skipn_length; lia).
  assert (Pl : payload (frame_bytes b k) = firstn (wire_size c) (skipn (k + 6) b)).
  { unfold payload. rewrite Lf. replace (6 + wire_size c + 2 - 8) with (wire_size c) by lia. unfold frame_bytes. rewrite firstn_skipn_firstn by lia. rewrite skipn_skipn. f_equal. f_equal. lia. }
  rewrite Pl, <- raw_eq by (rewrite firstn_length, skipn_length; lia). rewrite firstn_skipn_firstn by lia. rewrite skipn_skipn. f_equal. f_equal. lia.
Qed.

Lemma frames_slots text b s cs sl : is_bytes b -> Forall (plain_in (length b)) s ->
  Forall (fun ki => frame_at (fun f => exists d, decode text f = Ok d) b (fst ki) (snd ki)) s -> Forall2 (fun ki c => is_msg (snd ki) c) s cs -> payloads s sl ->
  concat (map (fun x => frame_values text (snd x) (frame_bytes b (fst (fst x)))) (combine s cs)) = map boxed (map (slot_sample b) sl).
Proof.
  intros B P Fr F2 Py. revert P Fr cs F2. induction Py as [|k i c s sl M Py IH]; intros P Fr cs F2; [reflexivity|].
  inversion P as [|? ? (c' & M' & NA & _) P2]; subst. inversion Fr as [|? ? Fr1 Fr2]; subst. inversion F2 as [|? c0 ? cs0 M0 F3]; subst. cbn [fst snd] in *.
  assert (c0 = c) by (eapply is_msg_fun; eauto). assert (c' = c) by (eapply is_msg_fun; eauto). subst c0 c'.
  cbn [combine map concat fst snd]. rewrite (IH P2 Fr2 cs0 F3), (frame_slots text b k i c B Fr1 M NA), body_skip, !map_app. f_equal. rewrite map_map. reflexivity.
Qed.

(* dictionaries of boxed values *)
Lemma dict_set_boxed d x : dict_set String.eqb (map boxed d) (fst (boxed x)) (snd (boxed x)) = map boxed (dict_set String.eqb d (fst x) (snd x)).
Proof. destruct x as [nm v]. induction d as [|[k w] d IH]; [reflexivity|]. cbn [map dict_set boxed fst snd] in *. destruct (String.eqb nm k); [reflexivity|]. cbn [map]. f_equal. exact IH. Qed.
Definition as_dict (l : list (string * (pyval * string))) := fold_left (fun d x => dict_set String.eqb d (fst x) (snd x)) l [].
Lemma fold_boxed l : forall d, fold_left (fun dd x => dict_set String.eqb dd (fst x) (snd x)) (map boxed l) (map boxed d) =
  map boxed (fold_left (fun dd x => dict_set String.eqb dd (fst x) (snd x)) l d).
Proof. induction l as [|x l IH]; intros d; [reflexivity|]. cbn [map fold_left]. rewrite dict_set_boxed. apply IH. Qed.

Lemma under_set nm d k v : NoDup (map fst d) -> under nm (dict_set String.eqb d k v) = if String.eqb nm k then [v] else under nm d.
Proof.
  induction d as [|[k' v'] d IH]; intros H.
  - cbn. rewrite String.eqb_sym. destruct (String.eqb nm k); reflexivity.
  - inversion H as [|? ? N H']; subst. cbn [dict_set]. destruct (String.eqb_spec k k') as [<-|D].
    + change ((k, v) :: d) with ([(k, v)] ++ d). change ((k, v') :: d) with ([(k, v')] ++ d). rewrite !under_app, !under_one. destruct (String.eqb_spec nm k) as [->|D]; [|reflexivity].
      assert (Z : under k d = []). { clear -N. unfold under. induction d as [|[k2 v2] d IH]; [reflexivity|]. cbn [filter fst map] in *. destruct (String.eqb_spec k2 k) as [->|D]; [exfalso; apply N; left; reflexivity|]. apply IH. intros I. apply N. right. exact I. }
      rewrite Z. reflexivity.
    + change ((k', v') :: dict_set String.eqb d k v) with ([(k', v')] ++ dict_set String.eqb d k v). change ((k', v') :: d) with ([(k', v')] ++ d). rewrite !under_app, !under_one, IH by exact H'.
      destruct (String.eqb_spec nm k') as [->|]; [|reflexivity]. destruct (String.eqb_spec k' k) as [->|]; [contradiction D; reflexivity|reflexivity].
Qed.
Lemma as_dict_nodup l : NoDup (map fst (as_dict l)).
Proof.
  unfold as_dict. assert (G : forall d : list (string * (pyval * string)), NoDup (map fst d) -> NoDup (map fst (fold_left (fun d x => dict_set String.eqb d (fst x) (snd x)) l d))).
  { induction l as [|x l IH]; intros d H; [exact H|]. cbn [fold_left]. apply IH, dict_set_nodup, H. }
  apply G. constructor.
Qed.
Lemma as_dict_snoc l x : as_dict (l ++ [x]) = dict_set String.eqb (as_dict l) (fst x) (snd x).
Proof. unfold as_dict. rewrite fold_left_app. reflexivity. Qed.
Lemma under_dict nm l : under nm (as_dict l) = match rev (under nm l) with [] => [] | v :: _ => [v] end.
Proof.
  induction l as [|[k v] l IH] using rev_ind; [reflexivity|]. rewrite as_dict_snoc, under_app, under_one. cbn [fst snd]. rewrite under_set by apply as_dict_nodup.
  destruct (String.eqb nm k); [rewrite rev_app_distr; reflexivity|]. rewrite app_nil_r. exact IH.
Qed.
Lemma under_slots nm b sl : under nm (map (slot_sample b) sl) = map (fun x => (slot_value b x, s_type x)) (filter (fun x => String.eqb (s_name x) nm) sl).
Proof. unfold under. induction sl as [|x sl IH]; [reflexivity|]. cbn [map filter]. cbn [slot_sample fst]. destruct (String.eqb (s_name x) nm); [cbn [map snd]; f_equal; exact IH|exact IH]. Qed.
Lemma newest_dict nm b sl : values_under nm (as_dict (map (slot_sample b) sl)) = newest nm b sl.
Proof. unfold values_under, newest. rewrite under_dict, under_slots, <- map_rev. destruct (rev (filter _ sl)) as [|x l]; reflexivity. Qed.

Lemma payloads_types n s sl : Forall (plain_in n) s -> payloads s sl -> Forall (fun x => exists sz ch, ctype (s_type x) sz ch) sl.
Proof.
  intros P Py. revert P. induction Py as [|k i c s sl M Py IH]; intros P; [constructor|]. inversion P as [|? ? P1 P2]; subst. apply Forall_app. split; [|auto].
  destruct M as [H _]. rewrite body_skip. unfold body_slots. apply Forall_forall. intros x Hx. apply in_map_iff in Hx. destruct Hx as (j & <- & Hj). apply in_seq in Hj.
  cbn [s_type]. destruct (field_at_wire_spec c j H ltac:(lia)) as [Hi _]. destruct (f_type_ctype c _ H Hi) as (sz & ch & C & _). eauto.
Qed.

Lemma payloads_exist n s : Forall (plain_in n) s -> exists sl, payloads s sl.
Proof. induction 1 as [|[k i] s (c & M & _) _ (sl & IH)]; [exists []; constructor|]. eexists. econstructor; eauto. Qed.
Lemma payloads_fun s : forall sl sl', payloads s sl -> payloads s sl' -> sl = sl'.
Proof. induction s as [|[k i] s IH]; intros sl sl' H H'; inversion H; inversion H'; subst; [reflexivity|]. f_equal; [|auto]. match goal with A : is_msg i ?c, B : is_msg i ?c' |- _ => rewrite (is_msg_fun i c c' A B) end. reflexivity. Qed.

Section Ways.
Variable FO : fops.
Variable text : bytes -> list N.

Lemma add_msg_boxed l : forall m, add_msg_fields FO m (map boxed l) = add_fields FO m l.
Proof. induction l as [|[nm [v ty]] l IH]; intros m; [reflexivity|]. cbn [map add_msg_fields add_fields boxed fst snd sample_of]. destruct (bm_add_sample FO m nm (SOne v) ty); [apply IH|reflexivity]. Qed.

Lemma as_dict_in l x : In x (as_dict l) -> In x l.
Proof.
  revert x. induction l as [|[k v] l IH] using rev_ind; intros x H; [destruct H|]. rewrite as_dict_snoc in H. cbn [fst snd] in H. apply in_or_app.
  assert (G : forall d : list (string * (pyval * string)), In x (dict_set String.eqb d k v) -> In x d \/ x = (k, v)).
  { clear. induction d as [|[k' v'] d IH]; cbn [dict_set]; intros H; [destruct H as [<-|[]]; auto|]. destruct (String.eqb k k'); destruct H as [<-|H]; [right; reflexivity|left; right; exact H|left; left; reflexivity|]. destruct (IH H) as [G| ->]; [left; right; exact G|auto]. }
  destruct (G _ H) as [H1| ->]; [left; auto|right; left; reflexivity].
Qed.

Lemma one_buffer b s sl : cut_into text b s -> s <> [] -> payloads s sl ->
  exists d, (do! _ <- segment_buffer (decode text) b in do! r <- get_msg_fields text (decode text) b in two_names r) = Ok (map boxed (as_dict (map (slot_sample b) sl)), d).
Proof.
  intros (B & P & p & v & E) Ne Py. pose proof E as E0. apply segment_ok_iff in E; auto. destruct E as ((S1 & _) & _). destruct (segment_classes text b p v s B E0) as (cs & F2).
  rewrite E0. cbn [bind]. unfold get_msg_fields. rewrite E0. cbn [bind snd]. destruct s as [|x s]; [congruence|].
  assert (Fr : Forall (fun ki => frame_at (fun f => exists d, decode text f = Ok d) b (fst ki) (snd ki)) (x :: s)) by (apply Forall_forall; intros [k i] I; apply S1; auto).
  rewrite (msgs_loop text b B (x :: s) cs) by assumption. cbn [bind fst snd app two_names]. eexists. f_equal. f_equal.
  rewrite (frames_slots text b (x :: s) cs sl) by assumption. exact (fold_boxed _ []).
Qed.

Lemma values_app nm l l' : values_under nm (l ++ l') = values_under nm l ++ values_under nm l'.
Proof. unfold values_under. rewrite under_app, map_app. reflexivity. Qed.

(* the second way *)
Lemma fields_way w bs ss sls : window_ok w -> Forall2 (cut_into text) bs ss -> Forall (fun s => s <> []) ss -> Forall2 payloads ss sls -> forall l m, bm_inv FO w l m ->
  exists m' l', by_fields_loop FO text m bs = (m', Ok tt) /\ bm_inv FO w (l ++ l') m' /\ bm_size FO m' = bm_size FO m /\
    (forall nm, values_under nm l' = flat_map (fun bsl => newest nm (fst bsl) (snd bsl)) (combine bs sls)) /\
    (forall x, In x l' -> exists b sl y, In (b, sl) (combine bs sls) /\ In y sl /\ x = slot_sample b y).
Proof using.
  intros W F Ne Py. revert Ne sls Py. induction F as [|b s bs ss C F IH]; intros Ne sls Py l m I.
  - inversion Py; subst. exists m, []. rewrite app_nil_r. split; [reflexivity|]. split; [exact I|]. split; [reflexivity|]. split; [reflexivity|intros x []].
  - inversion Py as [|? sl ? sls0 Py1 Py2]; subst. inversion Ne as [|? ? N1 N2]; subst. destruct (one_buffer b s sl C N1 Py1) as (d & E).
    cbn [by_fields_loop]. rewrite E. rewrite add_msg_boxed. set (fs := as_dict (map (slot_sample b) sl)) in *.
    destruct (add_fields_inv FO w fs) with (l := l) (m := m) as (m1 & E1 & I1 & S1 & _); auto.
    { apply Forall_forall. intros x Hx. apply as_dict_in in Hx. apply in_map_iff in Hx. destruct Hx as (y & <- & Hy). destruct C as (_ & Pl & _). pose proof (payloads_types _ _ _ Pl Py1) as T. rewrite Forall_forall in T. exact (T y Hy). }
    rewrite E1. destruct (IH N2 sls0 Py2 _ _ I1) as (m2 & l2 & E2 & I2 & S2 & V2 & O2). exists m2, (fs ++ l2). split; [exact E2|]. split; [rewrite app_assoc; exact I2|]. split; [congruence|]. split.
    + intros nm. cbn [combine flat_map fst snd]. rewrite values_app, V2. f_equal. apply newest_dict.
    + intros x Hx. apply in_app_or in Hx. destruct Hx as [Hx|Hx].
      * apply as_dict_in in Hx. apply in_map_iff in Hx. destruct Hx as (y & <- & Hy). exists b, sl, y. split; [left; reflexivity|auto].
      * destruct (O2 x Hx) as (b' & sl' & y & H1 & H2). exists b', sl', y. split; [right; exact H1|exact H2].
Qed.

(* a buffer without messages *)
Lemma empty_buffer b : cut_into text b [] -> (do! _ <- segment_buffer (decode text) b in do! r <- get_msg_fields text (decode text) b in two_names r) = Err ValueError.
Proof. intros (_ & _ & p & v & E). rewrite E. cbn [bind]. unfold get_msg_fields. rewrite E. reflexivity. Qed.
Lemma fields_empty bs bs' b m : cut_into text b [] -> by_fields_loop FO text m (bs ++ b :: bs') =
  match by_fields_loop FO text m bs with (m, Ok _) => (m, Err ValueError) | r => r end.
Proof using.
  intros C. revert m. induction bs as [|x bs IH]; intros m; cbn [app by_fields_loop].
  - rewrite (empty_buffer b C). reflexivity.
  - destruct (do! _ <- _ in _) as [[f d]|e]; [|reflexivity]. destruct (add_msg_fields FO m f) as [m1 [u|e]]; [apply IH|reflexivity].
Qed.

(* the first way *)
Lemma buffers_way w s sl bs : window_ok w -> layout s sl -> Forall (fun b => is_bytes b /\ Forall (plain_in (length b)) s) bs -> forall l m, bm_inv FO w l m ->
  exists m', add_all FO m s bs = (m', Ok tt) /\ bm_inv FO w (l ++ flat_map (fun b => map (slot_sample b) sl) bs) m'.
Proof using.
  intros W L F. induction F as [|b bs (B & P) F IH]; intros l m I; cbn [add_all flat_map].
  - exists m. rewrite app_nil_r. auto.
  - destruct (add_buffer_accepted FO w l m (BBytes b) b s sl W I (h_bytes b B) P L) as (m1 & E1 & I1 & _). rewrite E1. destruct (IH _ _ I1) as (m2 & E2 & I2). exists m2. rewrite app_assoc. auto.
Qed.

Lemma inv_read w l m nm : bm_inv FO w l m -> match bm_get FO m nm with
  | None => values_under nm l = []
  | Some f => values_under nm l <> [] /\ fm_samples FO f = windowed w (values_under nm l) /\ fm_name FO f = nm /\ fm_window FO f = w /\
              exists v ty, In (nm, (v, ty)) l /\ fm_type FO f = ty
  end.
Proof using.
  intros (_ & _ & I). specialize (I nm). unfold field_state in I. unfold values_under. destruct (bm_get FO m nm) as [f|]; [|rewrite I; reflexivity].
  destruct I as ([v ty] & t & f0 & U & I0 & SI & Sm & _). rewrite U. cbn [snd] in I0.
  destruct (fm_init_facts FO _ _ _ _ I0) as (_ & A2 & A3 & A4 & _). destruct SI as (S1 & S2 & _ & S4 & _).
  split; [discriminate|]. split; [exact Sm|]. split; [congruence|]. split; [congruence|]. exists v, ty. split; [|congruence].
  assert (H : In (v, ty) (under nm l)) by (rewrite U; left; reflexivity). unfold under in H. apply in_map_iff in H. destruct H as ([k p] & E & H). apply filter_In in H. destruct H as [H K]. cbn [fst snd] in *. apply String.eqb_eq in K. subst. exact H.
Qed.

Lemma init_inv w : bm_inv FO w [] (bm_init FO [] w).
Proof using. split; [reflexivity|]. split; [constructor|]. intros nm. reflexivity. Qed.
End Ways.

(* the names of the dialect *)
Definition class_names (c : msg_class) : list string := map (full_name c) (seq 0 (f_count c)).
Definition header_names (c : msg_class) : list string := map s_name (head_slots 0 c).
Fixpoint nodupb (l : list string) : bool := match l with [] => true | x :: t => negb (existsb (String.eqb x) t) && nodupb t end.
Lemma nodupb_spec l : nodupb l = true -> NoDup l.
Proof.
  induction l as [|x l IH]; intros H; [constructor|]. cbn [nodupb] in H. apply andb_true_iff in H. destruct H as [H1 H2]. constructor; [|auto].
  intros I. apply negb_true_iff in H1. assert (existsb (String.eqb x) l = true) by (apply existsb_exists; exists x; split; [exact I|apply String.eqb_refl]). congruence.
Qed.
Lemma dialect_names : NoDup (flat_map class_names mavlink_classes).
Proof. apply nodupb_spec. vm_compute. reflexivity. Qed.
Lemma dialect_headers : forall c c' nm, In c mavlink_classes -> In c' mavlink_classes -> In nm (class_names c) -> ~ In nm (header_names c').
Proof.
  assert (H : forallb (fun nm => negb (existsb (String.eqb nm) (flat_map header_names mavlink_classes))) (flat_map class_names mavlink_classes) = true) by (vm_compute; reflexivity).
  rewrite forallb_forall in H. intros c c' nm Hc Hc' Hn Hh. specialize (H nm ltac:(apply in_flat_map; eauto)). apply negb_true_iff in H.
  assert (existsb (String.eqb nm) (flat_map header_names mavlink_classes) = true) by (apply existsb_exists; exists nm; split; [apply in_flat_map; eauto|apply String.eqb_refl]). congruence.
Qed.

Lemma flat_map_inj {A B} (f : A -> list B) l a b x : NoDup (flat_map f l) -> In a l -> In b l -> In x (f a) -> In x (f b) -> a = b.
Proof.
  induction l as [|y l IH]; intros N Ia Ib Xa Xb; [destruct Ia|]. cbn [flat_map] in N.
  assert (D : forall z, In x (f y) -> In z l -> In x (f z) -> False).
  { intros z Xy Iz Xz. clear -N Xy Iz Xz. induction (f y) as [|u t IHt]; [destruct Xy|]. cbn [app] in N. inversion N as [|? ? N1 N2]; subst. destruct Xy as [->|Xy]; [|auto]. apply N1, in_or_app. right. apply in_flat_map. eauto. }
  assert (N' : NoDup (flat_map f l)) by (clear -N; induction (f y) as [|u t IHt]; [exact N|inversion N; auto]).
  destruct Ia as [<-|Ia], Ib as [<-|Ib]; [reflexivity|exfalso; eauto|exfalso; eauto|auto].
Qed.
Lemma class_nodup c : In c mavlink_classes -> NoDup (class_names c).
Proof.
  intros H. pose proof dialect_names as N. revert H N. generalize mavlink_classes. induction l as [|y l IH]; intros H N; [destruct H|]. cbn [flat_map] in N.
  destruct H as [->|H].
  - clear -N. induction (class_names c) as [|u t IHt]; [constructor|]. cbn [app] in N. inversion N as [|? ? N1 N2]; subst. constructor; [|auto]. intros I. apply N1, in_or_app. auto.
  - apply IH; [exact H|]. clear -N. induction (class_names y) as [|u t IHt]; [exact N|]. inversion N; auto.
Qed.
Lemma body_names k c nm : In c mavlink_classes -> In nm (map s_name (body_slots k c)) -> In nm (class_names c).
Proof.
  intros H I. unfold body_slots in I. rewrite map_map in I. apply in_map_iff in I. destruct I as (j & <- & Hj). apply in_seq in Hj. cbn [s_name]. unfold class_names. apply in_map_iff.
  exists (field_at_wire c j). split; [reflexivity|]. apply in_seq. destruct (field_at_wire_spec c j H ltac:(lia)). lia.
Qed.
Lemma NoDup_map_in {A B} (f : A -> B) l : (forall x y, In x l -> In y l -> f x = f y -> x = y) -> NoDup l -> NoDup (map f l).
Proof.
  intros I N. induction N as [|x l Nx N IH]; [constructor|]. cbn [map]. constructor.
  - intros H. apply in_map_iff in H. destruct H as (y & E & Hy). assert (y = x) by (apply I; [right; exact Hy|left; reflexivity|exact E]). subst. contradiction.
  - apply IH. intros a b Ha Hb. apply I; right; assumption.
Qed.
Lemma body_nodup k c : In c mavlink_classes -> NoDup (map s_name (body_slots k c)).
Proof.
  intros H. unfold body_slots. rewrite map_map. cbn [s_name]. apply NoDup_map_in; [|apply seq_NoDup]. intros x y Hx Hy E. apply in_seq in Hx, Hy.
  destruct (field_at_wire_spec c x H ltac:(lia)) as [Bx Wx]. destruct (field_at_wire_spec c y H ltac:(lia)) as [By Wy].
  assert (Ei : field_at_wire c x = field_at_wire c y); [|congruence]. pose proof (class_nodup c H) as N. unfold class_names in N.
  apply (proj1 (NoDup_nth (map (full_name c) (seq 0 (f_count c))) (full_name c 0)) N); try (rewrite map_length, seq_length; assumption).
  rewrite !map_nth, !seq_nth by assumption. exact E.
Qed.
Lemma payload_name s sl nm : payloads s sl -> In nm (map s_name sl) -> exists i c, In i (map snd s) /\ is_msg i c /\ In nm (class_names c).
Proof.
  intros P. induction P as [|k i c s sl M P IH]; intros I; [destruct I|]. rewrite map_app in I. apply in_app_or in I. destruct I as [I|I].
  - exists i, c. split; [left; reflexivity|]. split; [exact M|]. destruct M as [Hc _]. rewrite body_skip in I. eapply body_names; eauto.
  - destruct (IH I) as (i' & c' & H & H'). exists i', c'. split; [right; exact H|exact H'].
Qed.
Lemma NoDup_app_dis {A} (l l' : list A) : NoDup l -> NoDup l' -> (forall x, In x l -> ~ In x l') -> NoDup (l ++ l').
Proof.
  intros N N' D. induction N as [|x l Nx N IH]; [exact N'|]. cbn [app]. constructor.
  - intros I. apply in_app_or in I. destruct I as [I|I]; [contradiction|]. exact (D x (or_introl eq_refl) I).
  - apply IH. intros y Hy. apply D. right. exact Hy.
Qed.
Lemma payload_nodup s sl : payloads s sl -> NoDup (map snd s) -> NoDup (map s_name sl).
Proof.
  intros P. induction P as [|k i c s sl M P IH]; intros N; [constructor|]. cbn [map snd] in N. inversion N as [|? ? N1 N2]; subst. rewrite map_app, body_skip. pose proof M as [Hc Hid].
  apply NoDup_app_dis; [apply body_nodup; exact Hc|auto|]. intros nm I1 I2. apply body_names in I1; [|exact Hc]. destruct (payload_name _ _ _ P I2) as (i' & c' & I' & [Hc' Hid'] & I3).
  assert (c = c') by (eapply (flat_map_inj class_names mavlink_classes); eauto using dialect_names). subst c'. apply N1. rewrite <- Hid, Hid'. exact I'.
Qed.

Lemma filter_one {A} (f : A -> string) nm l : NoDup (map f l) -> filter (fun x => String.eqb (f x) nm) l = [] \/ exists x, filter (fun x => String.eqb (f x) nm) l = [x].
Proof.
  intros N. induction l as [|y l IH]; [auto|]. cbn [map] in N. inversion N as [|? ? N1 N2]; subst. cbn [filter]. destruct (String.eqb_spec (f y) nm) as [<-|D]; [|auto]. right. exists y. f_equal.
  destruct (filter _ l) as [|z t] eqn:E; [reflexivity|]. exfalso. apply N1. assert (I : In z (filter (fun x => String.eqb (f x) (f y)) l)) by (rewrite E; left; reflexivity). apply filter_In in I. destruct I as [I K]. apply String.eqb_eq in K. rewrite <- K. apply in_map. exact I.
Qed.
Lemma newest_all nm b sl : NoDup (map s_name sl) -> newest nm b sl = map (slot_value b) (filter (fun x => String.eqb (s_name x) nm) sl).
Proof. intros N. unfold newest. destruct (filter_one s_name nm sl N) as [-> |(x & ->)]; reflexivity. Qed.

(* payload names and header names in the layout *)
Lemma head_name k c : map s_name (head_slots k c) = header_names c.
Proof. reflexivity. Qed.
Lemma filter_none {A} (p : A -> bool) l : (forall x, In x l -> p x = false) -> filter p l = [].
Proof. induction l as [|y l IH]; intros H; [reflexivity|]. cbn [filter]. rewrite (H y (or_introl eq_refl)). apply IH. intros x Hx. apply H. right. exact Hx. Qed.
Lemma layout_filter s full sl nm : layout s full -> payloads s sl -> (exists c i, In c mavlink_classes /\ i < f_count c /\ nm = full_name c i) ->
  filter (fun x => String.eqb (s_name x) nm) full = filter (fun x => String.eqb (s_name x) nm) sl.
Proof.
  intros L P (c0 & i0 & H0 & B0 & ->). revert sl P. induction L as [|k i c s full M L IH]; intros sl P; inversion P as [|? ? c' ? sl' M' P']; subst; [reflexivity|].
  assert (c' = c) by (eapply is_msg_fun; eauto). subst c'. rewrite body_skip, msg_slots_split, !filter_app, (IH sl' P'). f_equal.
  rewrite (filter_none _ (head_slots k c)); [reflexivity|]. intros x Hx. apply String.eqb_neq. intros E. destruct M as [Hc _].
  refine (dialect_headers c0 c (full_name c0 i0) H0 Hc _ _); [unfold class_names; apply in_map, in_seq; lia|]. rewrite <- (head_name k c), <- E. apply in_map. exact Hx.
Qed.
Lemma layout_header s full k i c nm : layout s full -> In (k, i) s -> is_msg i c -> In nm (header_names c) -> exists x, In x full /\ s_name x = nm.
Proof.
  intros L I M N. induction L as [|k' i' c' s full M' L IH]; [destruct I|]. destruct I as [E|I].
  - injection E as -> ->. assert (c' = c) by (eapply is_msg_fun; eauto). subst c'. rewrite <- (head_name k c) in N. apply in_map_iff in N. destruct N as (x & E & H). exists x. split; [|exact E]. rewrite msg_slots_split. apply in_or_app. left. apply in_or_app. left. exact H.
  - destruct (IH I) as (x & H & E). exists x. split; [apply in_or_app; right; exact H|exact E].
Qed.
Lemma payloads_header s sl c nm : payloads s sl -> In c mavlink_classes -> In nm (header_names c) -> filter (fun x => String.eqb (s_name x) nm) sl = [].
Proof.
  intros P Hc N. apply filter_none. intros x Hx. apply String.eqb_neq. intros E. destruct (payload_name s sl nm P) as (i & c' & _ & [Hc' _] & I); [rewrite <- E; apply in_map; exact Hx|].
  exact (dialect_headers c' c nm Hc' Hc I N).
Qed.

Lemma wire_exists c i : In c mavlink_classes -> i < f_count c -> exists j, j < f_count c /\ field_at_wire c j = i.
Proof.
  intros H Hi. destruct (wire_facts_in c H) as (items & W). exists (f_wire c i). pose proof (wf_wire _ _ W i Hi) as B. split; [exact B|].
  destruct (field_at_wire_spec c _ H B) as [Hj E]. unfold f_wire in E. pose proof (cf_nodup_orders c (class_facts_in _ H)) as N. pose proof (cf_orders _ (class_facts_in _ H)) as L.
  apply (proj1 (NoDup_nth (mc_orders c) 0) N); [rewrite L; exact Hj|rewrite L; exact Hi|exact E].
Qed.

Section Sizes.
Variable FO : fops.
Lemma next_saturated w n (m : buffer_model FO) : window_ok w -> bm_window FO m = w -> bm_size FO m = saturated w n -> next_size FO m = saturated w (S n).
Proof using.
  intros W Ew Es. unfold next_size. rewrite Ew, Es. unfold saturated. destruct w as [z|]; [|lia]. cbn [window_ok] in W. destruct (Z.ltb_spec (Z.min (Z.of_nat n) z) z); lia.
Qed.
Lemma buffers_size w s sl bs : window_ok w -> layout s sl -> Forall (fun b => is_bytes b /\ Forall (plain_in (length b)) s) bs -> forall l m n, bm_inv FO w l m -> bm_size FO m = saturated w n ->
  bm_size FO (fst (add_all FO m s bs)) = saturated w (n + length bs).
Proof using.
  intros W L F. induction F as [|b bs (B & P) F IH]; intros l m n I E; cbn [add_all length fst].
  - rewrite Nat.add_0_r. exact E.
  - destruct (add_buffer_accepted FO w l m (BBytes b) b s sl W I (h_bytes b B) P L) as (m1 & E1 & I1 & S1 & _). rewrite E1.
    rewrite (IH _ _ (S n) I1); [f_equal; lia|]. rewrite S1. apply next_saturated; [exact W|apply I|exact E].
Qed.
End Sizes.

(* values under a name, both ways *)
Lemma values_first nm full bs : values_under nm (flat_map (fun b => map (slot_sample b) full) bs) = flat_map (fun b => map (slot_value b) (filter (fun x => String.eqb (s_name x) nm) full)) bs.
Proof. induction bs as [|b bs IH]; [reflexivity|]. cbn [flat_map]. rewrite values_app, IH. f_equal. unfold values_under. rewrite under_slots, map_map. reflexivity. Qed.
Lemma combine_repeat {A B} (l : list A) (x : B) : combine l (repeat x (length l)) = map (fun a => (a, x)) l.
Proof. induction l as [|a l IH]; [reflexivity|]. cbn. f_equal. exact IH. Qed.
Lemma values_second nm sl bs : NoDup (map s_name sl) -> flat_map (fun bsl => newest nm (fst bsl) (snd bsl)) (combine bs (repeat sl (length bs))) = flat_map (fun b => map (slot_value b) (filter (fun x => String.eqb (s_name x) nm) sl)) bs.
Proof. intros N. rewrite combine_repeat. induction bs as [|b bs IH]; [reflexivity|]. cbn [map flat_map fst snd]. rewrite IH, newest_all by exact N. reflexivity. Qed.

(* predict on up to date models and numbers *)
Section Predict.
Variable FO : fops.
Variable erf : F FO -> F FO.
Definition fresh (m : buffer_model FO) : Prop := Forall (fun x => fm_up2date FO (snd x) = true) (bm_models FO m).
Lemma fresh_get m nm f : fresh m -> bm_get FO m nm = Some f -> fm_up2date FO f = true.
Proof using. intros H G. unfold bm_get in G. apply (dict_get_in _ streqb_spec) in G. unfold fresh in H. rewrite Forall_forall in H. exact (H _ G). Qed.
Lemma fresh_set m nm f : fresh m -> fm_up2date FO f = true -> fresh (bm_set FO m nm f).
Proof using.
  unfold fresh, bm_set. cbn [bm_models]. intros H U. induction H as [|[k g] l Hx H IH]; cbn [dict_set]; [constructor; [exact U|constructor]|].
  destruct (String.eqb nm k); constructor; [exact U|exact H|exact Hx|exact IH].
Qed.
Definition numeric (v : pyval) : Prop := match v with VBytes _ => False | _ => True end.
Lemma predict_fresh_loop bits : forall names vals idx m vf vb sd, fresh m -> Forall numeric vals -> exists r, predict_loop FO erf bits idx names vals (m, vf, vb, sd) = Ok r.
Proof using.
  induction names as [|nm names IH]; intros vals idx m vf vb sd H N; cbn [predict_loop]; [eauto|]. destruct vals as [|v vals]; [eauto|]. inversion N as [|? ? N1 N2]; subst.
  destruct (bm_get FO m nm) as [f|] eqn:G; [|cbn [bind]; apply IH; assumption]. pose proof (fresh_get m nm f H G) as U.
  assert (C : exists r, fm_classify_value FO erf f v = Ok (f, r)).
  { unfold fm_classify_value, fm_refresh. rewrite U. cbn [negb bind]. destruct (fle FO _ _); [eauto|]. destruct v as [z|p|b]; [cbn [value_num]; eauto|cbn [value_num]; eauto|destruct N1]. }
  destruct C as ([val std] & C). rewrite C. cbn [bind]. apply IH; [apply fresh_set; assumption|exact N2].
Qed.
End Predict.

(* the script *)
Definition script_bits : list bool := flat_map (fun x => map (fun k => N.testbit x (N.of_nat k)) [7; 6; 5; 4; 3; 2; 1; 0]) good_buffer.
Definition script_structure : structure := [(0, 212%N); (27, 218%N); (45, 33%N); (97, 234%N)].
Lemma script_good text : exists p v, segment_buffer (decode text) good_buffer = Ok (p, v, script_structure).
Proof. eexists. eexists. vm_compute. reflexivity. Qed.
Lemma script_bad text : exists r, segment_buffer (decode text) bad_buffer = Ok r.
Proof. eexists. vm_compute. reflexivity. Qed.
Lemma script_saved FO text : exists doc m, (do! r <- get_msg_fields text (decode text) good_buffer in
   do! fd <- two_names r in
   match add_msg_fields FO (bm_init FO [] None) (fst fd) with
   | (_, Err e) => Err e
   | (m, Ok _) => do! md <- save FO (bm_set_description FO m (map stored_item (snd fd))) in Ok (script_structure, snd md)
   end) = Ok (script_structure, doc) /\ load FO doc = Ok m /\ fresh FO m /\ bm_size FO m = 0%Z /\
   option_map (fm_samples FO) (bm_get FO m "GLOBAL_POSITION_INT_lat") = Some [VInt 295124754] /\ bm_get FO m "magic" = None.
Proof.
  eexists. eexists. split; [vm_compute; reflexivity|]. split; [vm_compute; reflexivity|]. split; [unfold fresh; cbn [bm_models]; repeat constructor|]. vm_compute. repeat split.
Qed.
Lemma script_predict FO erf m : fresh FO m -> exists r, predict FO erf m (BBits script_bits) script_structure = Ok r.
Proof.
  intros H. unfold predict. replace (buf_length (BBits script_bits)) with (@Ok nat 117) by (vm_compute; reflexivity). cbn [bind].
  destruct (unpack_structure true 117 script_structure) as [[[bits names] types]|e] eqn:E; [|vm_compute in E; discriminate]. cbn [bind].
  assert (V : exists vals, unpack_values (BBits script_bits) script_structure = Ok vals /\ Forall numeric vals).
  { eexists. split; [vm_compute; reflexivity|]. repeat constructor. }
  destruct V as (vals & -> & N). cbn [bind]. apply predict_fresh_loop; assumption.
Qed.
