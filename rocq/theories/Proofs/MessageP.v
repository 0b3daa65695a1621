(** Comparison of messages, to_dict, and packing a received message again. *)
From Coq Require Import String Ascii List Arith NArith ZArith Bool Lia ZifyBool ZifyNat ZifyN.
From Verif.Model Require Import Py Dialect ProtocolMeta Struct Crc Mavlink ApiTable Wrappers Message.
From Verif.Spec Require Import Bytes Bits Header CrcSpec Frame ApiSpec MessageSpec.
From Verif.Proofs Require Import Base BitOpsP DialectP HeaderP HeaderMore StructP CrcP MavlinkP FieldsP PackP MavlinkMore SendP ApiP.
Import ListNotations.
Local Open Scope list_scope.
Local Notation length := List.length.

(** 32 bit floats. *)
Lemma f32_split p : (N.modulo p 2147483648 = exponent p * 8388608 + fraction p /\ exponent p < 256 /\ fraction p < 8388608)%N.
Proof.
  unfold exponent, fraction. rewrite N.land_ones. change 255%N with (N.ones 8). rewrite N.land_ones, N.shiftr_div_pow2.
  change (2 ^ 23)%N with 8388608%N. change (2 ^ 8)%N with 256%N.
  split; [|split; apply N.mod_lt; discriminate].
  change 2147483648%N with (8388608 * 256)%N. rewrite N.mod_mul_r by discriminate. lia.
Qed.
Lemma f32_nan_spec p : f32_nan p = true <-> nan p.
Proof. unfold f32_nan, nan. destruct (f32_split p) as (E & A & B). rewrite E. rewrite N.ltb_lt. lia. Qed.
Lemma f32_zero_spec p : N.modulo p 2147483648 = 0%N <-> zero p.
Proof. unfold zero. destruct (f32_split p) as (E & A & B). rewrite E. lia. Qed.
Lemma f32_eq_spec p q : f32_eq p q = true <-> ~ nan p /\ ~ nan q /\ (p = q \/ (zero p /\ zero q)).
Proof.
  unfold f32_eq. rewrite !andb_true_iff, !negb_true_iff, orb_true_iff, andb_true_iff, !N.eqb_eq, !f32_zero_spec.
  rewrite <- !f32_nan_spec. destruct (f32_nan p), (f32_nan q); intuition congruence.
Qed.
Lemma num_eq_spec a b : py_num_eq a b = true <-> same_number a b.
Proof. destruct a, b; cbn; try (split; [discriminate|contradiction]); [apply Z.eqb_eq|apply f32_eq_spec]. Qed.
Lemma list_eq_spec {A} (eq : A -> A -> bool) (R : A -> A -> Prop) : (forall x y, eq x y = true <-> R x y) -> forall a b, list_eq eq a b = true <-> Forall2 R a b.
Proof.
  intros H. induction a as [|x a IH]; intros [|y b]; cbn; split; intros X; try discriminate; try constructor; try (inversion X; fail).
  - apply andb_prop in X as [X _]. apply H. exact X.
  - apply andb_prop in X as [_ X]. apply IH. exact X.
  - inversion X; subst. apply andb_true_intro. split; [apply H|apply IH]; assumption.
Qed.
Lemma forall2_eq {A} (a b : list A) : Forall2 eq a b <-> a = b.
Proof. split; [induction 1; congruence|intros ->; induction b; constructor; auto]. Qed.
Lemma py_eq_spec a b : py_eq a b = true <-> same_shown a b.
Proof.
  destruct a, b; cbn; try (split; [discriminate|contradiction]).
  - apply num_eq_spec.
  - apply list_eq_spec. exact num_eq_spec.
  - rewrite (list_eq_spec N.eqb eq N.eqb_eq). apply forall2_eq.
Qed.

(** Text. *)
Lemma rstrip_spec t : exists n, t = rstrip_nul t ++ repeat 0%N n /\ (rstrip_nul t = [] \/ last (rstrip_nul t) 0%N <> 0%N).
Proof.
  induction t as [|x t (n & E & L)]; [exists 0; auto|]. cbn [rstrip_nul]. destruct (rstrip_nul t) as [|y r] eqn:R.
  - destruct (N.eqb_spec x 0) as [->|Nx]; [exists (S n); cbn; split; [f_equal; exact E|auto]|]. exists n. split; [cbn; f_equal; exact E|]. right. exact Nx.
  - exists n. split; [cbn; f_equal; exact E|]. right. destruct L as [L|L]; [discriminate|]. exact L.
Qed.
Lemma rstrip_stripped t : stripped t (rstrip_nul t).
Proof. destruct (rstrip_spec t) as (n & E & L). rewrite E at 1. constructor. exact L. Qed.
Lemma last_repeat0 n : n <> 0 -> last (repeat 0%N n) 0%N = 0%N.
Proof. induction n as [|n IH]; [lia|]. intros _. destruct n; [reflexivity|]. cbn in *. apply IH. lia. Qed.
Lemma last_app_ne {A} (a b : list A) d : b <> [] -> last (a ++ b) d = last b d.
Proof. intros H. induction a as [|x a IH]; [reflexivity|]. cbn. rewrite IH. destruct (a ++ b) eqn:E; [|reflexivity]. apply app_eq_nil in E as [_ E]. contradiction. Qed.
Lemma rstrip_app0 t n : rstrip_nul (t ++ repeat 0%N n) = rstrip_nul t.
Proof.
  induction t as [|x t IH]; cbn; [|rewrite IH; reflexivity]. induction n as [|n IH]; [reflexivity|]. cbn. rewrite IH. reflexivity.
Qed.
Lemma rstrip_fix t : t = [] \/ last t 0%N <> 0%N -> rstrip_nul t = t.
Proof.
  intros H. destruct (rstrip_spec t) as (n & E & L). destruct n; [rewrite app_nil_r in E; auto|]. exfalso.
  destruct H as [H|H]; [subst; destruct (rstrip_nul []); discriminate|]. apply H. rewrite E. rewrite last_app_ne by discriminate. apply last_repeat0. lia.
Qed.
Lemma stripped_iff t s : stripped t s <-> s = rstrip_nul t.
Proof. split; [|intros ->; apply rstrip_stripped]. intros [s' n H]. rewrite rstrip_app0. symmetry. apply rstrip_fix. exact H. Qed.

(** What format_attr returns. *)
Definition shown (text : bytes -> list N) (v : fieldval) : fieldval := match v with FOne (VBytes b) => FText (rstrip_nul (text b)) | _ => v end.
Lemma shows_iff text v x : shows text v x <-> x = shown text v.
Proof.
  split.
  - intros [b t S|v' H]; [apply stripped_iff in S; subst; reflexivity|]. unfold shown. destruct v' as [[| |b]| |]; auto. destruct (H b); reflexivity.
  - intros ->. unfold shown. destruct v as [[| |b]| |]; try (apply shows_other; discriminate). constructor. apply rstrip_stripped.
Qed.
Lemma same_field_iff text a b : same_field text a b <-> py_eq (shown text a) (shown text b) = true.
Proof.
  rewrite py_eq_spec. unfold same_field. split.
  - intros (x & y & X & Y & S). apply shows_iff in X, Y. subst. exact S.
  - intros S. exists (shown text a), (shown text b). rewrite !shows_iff. auto.
Qed.
Lemma names_nodup c : In c mavlink_classes -> NoDup (mc_fieldnames c).
Proof. intros H. destruct (message_methods c H) as (k & e & s & M). destruct M as (_ & _ & _ & Nd & _). exact Nd. Qed.
Lemma format_ok text m i : proper m -> i < f_count (mo_class m) -> format_attr text m (nth i (mc_fieldnames (mo_class m)) ""%string) = Ok (shown text (field (mo_fields m) i)).
Proof.
  intros [Hc Hl] Hi. unfold format_attr. rewrite (str_index_nth _ i (names_nodup _ Hc) Hi).
  rewrite (index_ok (mo_fields m) i (FText [])) by lia. fold (field (mo_fields m) i). destruct (field (mo_fields m) i) as [[| |]| |]; reflexivity.
Qed.
Lemma class_names : NoDup (map mc_name mavlink_classes).
Proof. apply nodupb_ok. vm_compute. reflexivity. Qed.
Lemma nodup_map_inj {A B} (f : A -> B) : forall l x y, NoDup (map f l) -> In x l -> In y l -> f x = f y -> x = y.
Proof.
  induction l as [|z l IH]; intros x y N Hx Hy E; [contradiction|]. cbn in N. inversion N; subst.
  destruct Hx as [->|Hx], Hy as [->|Hy]; auto; exfalso; [apply H1; rewrite E; apply in_map; exact Hy|apply H1; rewrite <- E; apply in_map; exact Hx].
Qed.
Lemma same_class a b : In a mavlink_classes -> In b mavlink_classes -> mc_name a = mc_name b -> a = b.
Proof. apply nodup_map_inj. exact class_names. Qed.

Lemma skipn_nth_cons {A} (l : list A) j d : j < length l -> skipn j l = nth j l d :: skipn (S j) l.
Proof. revert j. induction l as [|x l IH]; intros [|j] H; cbn in *; try lia; [reflexivity|]. apply IH. lia. Qed.

Lemma fields_eq_spec text a b : proper a -> proper b -> mo_class a = mo_class b ->
  exists r, fields_eq text a b (mc_fieldnames (mo_class a)) = Ok r /\ (r = true <-> forall i, i < f_count (mo_class a) -> same_field text (field (mo_fields a) i) (field (mo_fields b) i)).
Proof.
  intros Pa Pb E.
  assert (G : forall n k, k + n = f_count (mo_class a) -> exists r, fields_eq text a b (skipn k (mc_fieldnames (mo_class a))) = Ok r /\
    (r = true <-> forall i, k <= i < f_count (mo_class a) -> same_field text (field (mo_fields a) i) (field (mo_fields b) i))).
  { induction n as [|n IH]; intros k Hk.
    - rewrite skipn_all2 by (unfold f_count in Hk; lia). exists true. split; [reflexivity|]. split; [intros _ i Hi; lia|auto].
    - destruct (IH (S k) ltac:(lia)) as (r & Er & Sr).
      rewrite (skipn_nth_cons _ k ""%string) by (unfold f_count in Hk; lia). cbn [fields_eq].
      rewrite (format_ok text a k Pa ltac:(lia)). cbn [bind].
      pose proof (format_ok text b k Pb) as Fb. rewrite <- E in Fb. rewrite (Fb ltac:(lia)). cbn [bind].
      destruct (py_eq _ _) eqn:Q.
      + exists r. split; [exact Er|]. rewrite Sr. split; [|intros H i Hi; apply H; lia]. intros H i Hi.
        destruct (Nat.eq_dec i k) as [->|Ne]; [apply same_field_iff; exact Q|apply H; lia].
      + exists false. split; [reflexivity|]. split; [discriminate|]. intros H. specialize (H k ltac:(lia)). apply same_field_iff in H. congruence. }
  destruct (G (f_count (mo_class a)) 0 ltac:(lia)) as (r & Er & Sr). exists r. split; [exact Er|]. rewrite Sr. split; intros H i Hi; apply H; lia.
Qed.

Lemma message_eq_spec text a b : proper a -> proper b -> exists r, message_eq text a (Some b) = Ok r /\ (r = true <-> same_message text a b).
Proof.
  intros Pa Pb. unfold message_eq, same_message. destruct (String.eqb_spec (mc_name (mo_class a)) (mc_name (mo_class b))) as [En|En]; cbn [negb].
  2:{ exists false. split; [reflexivity|]. split; [discriminate|]. intros (H & _). rewrite H in En. contradiction. }
  assert (Ec : mo_class a = mo_class b) by (apply same_class; [apply Pa|apply Pb|exact En]).
  destruct (Z.eqb_spec (mo_seq a) (mo_seq b)) as [E1|E1]; cbn [negb]; [|exists false; split; [reflexivity|]; split; [discriminate|]; intros (_ & H & _); contradiction].
  destruct (Z.eqb_spec (mo_sys a) (mo_sys b)) as [E2|E2]; cbn [negb]; [|exists false; split; [reflexivity|]; split; [discriminate|]; intros (_ & _ & H & _); contradiction].
  destruct (Z.eqb_spec (mo_comp a) (mo_comp b)) as [E3|E3]; cbn [negb]; [|exists false; split; [reflexivity|]; split; [discriminate|]; intros (_ & _ & _ & H & _); contradiction].
  destruct (fields_eq_spec text a b Pa Pb Ec) as (r & Er & Sr). exists r. split; [exact Er|]. rewrite Sr. tauto.
Qed.

(** A message and what comes back when it is sent. *)
Lemma same_number_refl v : same_number v v <-> no_nan_number v /\ forall b, v <> VBytes b.
Proof. destruct v; cbn; split; try tauto; intros; try (split; [tauto|discriminate]). destruct H as [_ H]. eapply H. reflexivity. Qed.
Lemma same_numbers_refl ty l : Forall (c_ok ty) l -> (Forall2 same_number l l <-> Forall no_nan_number l).
Proof.
  induction 1 as [|v l H F IH]; [split; constructor|].
  assert (Hv : same_number v v <-> no_nan_number v) by (rewrite same_number_refl; destruct v; cbn in H; try contradiction; split; [tauto|split; [tauto|discriminate]|tauto|split; [tauto|discriminate]]).
  split; intros X; inversion X; subst; constructor; try apply Hv; try apply IH; assumption.
Qed.
Lemma same_returned text c i v : fits c i v ->
  (same_field text v (returned text c i v) <-> no_nan v /\ forall b, v = FOne (VBytes b) ->
     stripped (text b) (before_nul (text (firstn (f_width c i) b ++ repeat 0%N (f_width c i - length b))))).
Proof.
  intros F. rewrite same_field_iff, py_eq_spec. unfold fits in F. destruct (String.eqb (f_type c i) "char").
  - destruct F as (b & -> & _). cbn. split.
    + intros H. split; [exact I|]. intros b' E. injection E as <-. rewrite <- H. apply rstrip_stripped.
    + intros [_ H]. specialize (H b eq_refl). apply stripped_iff in H. symmetry. exact H.
  - destruct (Nat.eqb (f_array c i) 0).
    + destruct F as (x & -> & Ok). assert (Nb : forall b, x <> VBytes b) by (intros b ->; exact Ok).
      assert (E : returned text c i (FOne x) = FOne x) by (destruct x; try reflexivity; destruct (Nb b); reflexivity). rewrite E.
      assert (E' : shown text (FOne x) = FOne x) by (destruct x; try reflexivity; destruct (Nb b); reflexivity). rewrite E'.
      change (same_number x x <-> no_nan_number x /\ forall b, FOne x = FOne (VBytes b) -> stripped (text b) (before_nul (text (firstn (f_width c i) b ++ repeat 0%N (f_width c i - length b))))).
      rewrite same_number_refl. split; [intros [H _]; split; [exact H|]; intros b E2; injection E2 as E2; destruct (Nb b E2)|tauto].
    + destruct F as (l & -> & _ & Ok). cbn. rewrite (same_numbers_refl _ l Ok). split; [intros H; split; [exact H|discriminate]|tauto].
Qed.

Lemma sent_same text c fs seq sys comp d : In c mavlink_classes -> fits_all c fs -> in_byte seq -> in_byte sys -> in_byte comp ->
  sent text c fs (Z.to_N seq) (Z.to_N sys) (Z.to_N comp) d ->
  proper (MsgObj c fs seq sys comp) /\ proper (obj_decoded d) /\
  (same_message text (MsgObj c fs seq sys comp) (obj_decoded d) <-> forall i, i < f_count c -> same_field text (field fs i) (returned text c i (field fs i))).
Proof.
  intros Hc [Hl F] S1 S2 S3 (E1 & _ & E2 & E3 & E4 & _ & E5). unfold proper, obj_decoded, same_message, in_byte in *. cbn [mo_class mo_fields mo_seq mo_sys mo_comp].
  rewrite E1, E2, E3, E4, E5. split; [auto|]. split; [rewrite map_length, seq_length; auto|].
  rewrite !Z2N.id by lia.
  assert (X : forall i, i < f_count c -> field (map (fun i => returned text c i (nth i fs (FText []))) (List.seq 0 (f_count c))) i = returned text c i (field fs i)).
  { intros i Hi. unfold field. rewrite nth_map_lt with (d' := 0) by (rewrite seq_length; exact Hi). rewrite seq_nth by exact Hi. reflexivity. }
  split; [intros (_ & _ & _ & _ & H) i Hi; rewrite <- (X i Hi); auto|]. intros H. do 4 (split; [reflexivity|]). intros i Hi. rewrite (X i Hi). auto.
Qed.

(** Text that is not cut. *)
Lemma before_nul_none t : ~ In 0%N t -> before_nul t = t.
Proof. induction t as [|x t IH]; [reflexivity|]. intros H. cbn. destruct (N.eqb_spec x 0) as [->|_]; [destruct H; left; reflexivity|]. rewrite IH; [reflexivity|]. intros X. apply H. right. exact X. Qed.
Lemma before_nul_nul t : ~ In 0%N (before_nul t).
Proof. induction t as [|x t IH]; cbn; [tauto|]. destruct (N.eqb_spec x 0) as [->|N]; [tauto|]. intros [->|H]; tauto. Qed.
Lemma before_nul_app t n : ~ In 0%N t -> before_nul (t ++ repeat 0%N n) = t.
Proof.
  induction t as [|x t IH]; [intros _; destruct n; reflexivity|]. intros H. cbn. destruct (N.eqb_spec x 0) as [->|_]; [destruct H; left; reflexivity|]. rewrite IH; [reflexivity|]. intros X. apply H. right. exact X.
Qed.
Lemma plain_kept text w b : length b <= w -> keeps_padding text b ->
  (stripped (text b) (before_nul (text (firstn w b ++ repeat 0%N (w - length b)))) <-> plain_text text w (FOne (VBytes b))).
Proof.
  intros Hl K. rewrite firstn_all2 by exact Hl. rewrite K. rewrite stripped_iff. cbn. destruct (rstrip_spec (text b)) as (n & E & L). split.
  - intros H. split; [exact Hl|]. intros t S. apply stripped_iff in S. subst t. rewrite <- H. apply before_nul_nul.
  - intros [_ H]. specialize (H _ (rstrip_stripped _)). rewrite E at 1. rewrite <- app_assoc, <- repeat_app. apply before_nul_app. exact H.
Qed.

(** to_dict. *)
Lemma no_type_field : forallb (fun c => negb (existsb (String.eqb "mavpackettype") (mc_fieldnames c))) mavlink_classes = true.
Proof. vm_compute. reflexivity. Qed.
Lemma dict_set_snoc {V} : forall (d : list (string * V)) n v, ~ In n (map fst d) -> dict_set String.eqb d n v = d ++ [(n, v)].
Proof.
  induction d as [|[k x] d IH]; intros n v H; [reflexivity|]. cbn in *. destruct (String.eqb_spec n k) as [->|E]; [tauto|]. rewrite IH by tauto. reflexivity.
Qed.
Lemma to_dict_ok text m : proper m ->
  to_dict text m = Ok (("mavpackettype"%string, DName (mc_name (mo_class m))) :: combine (mc_fieldnames (mo_class m)) (map (fun i => DField (shown text (field (mo_fields m) i))) (seq 0 (f_count (mo_class m))))).
Proof.
  intros P. pose proof P as [Hc Hl]. unfold to_dict. set (h := ("mavpackettype"%string, DName (mc_name (mo_class m)))).
  pose proof (names_nodup _ Hc) as Nd. pose proof (proj1 (forallb_forall _ _) no_type_field _ Hc) as Nt. cbv beta in Nt. apply negb_true_iff in Nt.
  assert (G : forall n k acc, k + n = f_count (mo_class m) -> (forall x, In x (map fst acc) -> x = "mavpackettype"%string \/ In x (firstn k (mc_fieldnames (mo_class m)))) ->
    fold_res (fun d nm => do! v <- format_attr text m nm in Ok (dict_set String.eqb d nm (DField v))) (skipn k (mc_fieldnames (mo_class m))) acc =
    Ok (acc ++ combine (skipn k (mc_fieldnames (mo_class m))) (map (fun i => DField (shown text (field (mo_fields m) i))) (seq k n)))).
  { induction n as [|n IH]; intros k acc Hk Ha.
    - rewrite skipn_all2 by (unfold f_count in Hk; lia). cbn. rewrite app_nil_r. reflexivity.
    - rewrite (skipn_nth_cons _ k ""%string) by (unfold f_count in Hk; lia). cbn [fold_res seq map combine]. rewrite (format_ok text m k P ltac:(lia)). cbn [bind].
      assert (Fr : ~ In (nth k (mc_fieldnames (mo_class m)) ""%string) (map fst acc)).
      { intros X. apply Ha in X as [X|X].
        - assert (Y : existsb (String.eqb "mavpackettype") (mc_fieldnames (mo_class m)) = true).
          { apply existsb_exists. exists (nth k (mc_fieldnames (mo_class m)) ""%string). split; [apply nth_In; unfold f_count in Hk; lia|]. rewrite X. reflexivity. }
          congruence.
        - apply In_nth with (d := ""%string) in X as (j & Hj & Ej). rewrite firstn_length in Hj. rewrite nth_firstn in Ej by lia.
          pose proof (proj1 (NoDup_nth _ ""%string) Nd j k). unfold f_count in Hk. specialize (H ltac:(lia) ltac:(lia) Ej). lia. }
      rewrite dict_set_snoc by exact Fr. rewrite IH; [rewrite <- app_assoc; reflexivity|lia|].
      intros x Hx. rewrite map_app in Hx. apply in_app_or in Hx as [Hx|[<-|[]]].
      + apply Ha in Hx as [Hx|Hx]; [auto|right]. rewrite <- (firstn_skipn k (firstn (S k) _)), firstn_firstn. apply in_or_app. left. rewrite Nat.min_l by lia. exact Hx.
      + right. cbn [fst]. rewrite <- (Base.nth_firstn (mc_fieldnames (mo_class m)) ""%string (Nat.lt_succ_diag_r k)). apply nth_In. rewrite firstn_length. unfold f_count in Hk. lia. }
  apply (G (f_count (mo_class m)) 0 [h]); [lia|]. intros x [<-|[]]. left. reflexivity.
Qed.

(** Packing a received message again. *)
Lemma scalar_bound b n : is_bytes b -> length b = n -> (0 <= Z.of_N (le_number b) < 2 ^ (8 * Z.of_nat n))%Z.
Proof. intros B L. rewrite le_number_val. pose proof (le_val_bound b B) as H. rewrite L, pow256 in H. lia. Qed.
Lemma even_pow n : n <> 0 -> exists h, (2 ^ (8 * Z.of_nat n) = 2 * h /\ 2 ^ (8 * Z.of_nat n) / 2 = h /\ 0 < h)%Z.
Proof.
  intros H. exists (2 ^ (8 * Z.of_nat n - 1))%Z. assert (E : (2 ^ (8 * Z.of_nat n) = 2 * 2 ^ (8 * Z.of_nat n - 1))%Z).
  { rewrite <- (Z.pow_succ_r 2) by lia. f_equal. lia. }
  rewrite E. split; [reflexivity|]. split; [rewrite Z.mul_comm; apply Z.div_mul; lia|apply Z.pow_pos_nonneg; lia].
Qed.
Lemma scalar_ok ty sz ch b : ctype ty sz ch -> ty <> "char"%string -> is_bytes b -> length b = sz -> c_ok ty (c_scalar ty b).
Proof.
  intros C Nc B L. pose proof (scalar_bound b sz B L) as V. destruct (ctype_size _ _ _ C) as [Sz _].
  assert (Z0 : sz <> 0) by (destruct C; discriminate). destruct (even_pow sz Z0) as (h & E1 & E2 & E3).
  unfold c_ok, c_scalar. rewrite Sz. destruct (String.eqb_spec ty "float") as [->|Nf].
  - split; [reflexivity|]. inversion C; subst. rewrite <- H0 in V. change (2 ^ (8 * Z.of_nat 4))%Z with (2 ^ 32)%Z in V. lia.
  - split; [exact Nf|]. destruct (c_signed ty); [|exact V]. rewrite E2, E1 in *. pose proof (Z.mod_pos_bound (Z.of_N (le_number b) + h) (2 * h) ltac:(lia)). lia.
Qed.
Lemma scalar_inj ty sz ch b b' : ctype ty sz ch -> is_bytes b -> is_bytes b' -> length b = sz -> length b' = sz -> c_scalar ty b = c_scalar ty b' -> b = b'.
Proof.
  intros C B B' L L' H. pose proof (scalar_bound b sz B L) as V. pose proof (scalar_bound b' sz B' L') as V'. destruct (ctype_size _ _ _ C) as [Sz _].
  assert (Z0 : sz <> 0) by (destruct C; discriminate). destruct (even_pow sz Z0) as (h & E1 & E2 & E3).
  apply le_val_inj; auto; [congruence|]. rewrite <- (le_number_val b), <- (le_number_val b'). unfold c_scalar in H. rewrite Sz in H. cbv zeta in H. destruct (String.eqb ty "float"); [injection H as H; exact H|].
  apply (f_equal (fun v => match v with VInt z => z | _ => 0%Z end)) in H; cbv iota beta in H. destruct (c_signed ty); [|apply N2Z.inj; exact H]. rewrite E2, E1 in H. rewrite E1 in V, V'.
  assert (D : forall x, (0 <= x < 2 * h)%Z -> ((x + h) mod (2 * h) = if x <? h then x + h else x - h)%Z).
  { intros x Hx. destruct (Z.ltb_spec x h); [apply Z.mod_small; lia|]. replace (x + h)%Z with (x - h + 1 * (2 * h))%Z by lia. rewrite Z.mod_add by lia. apply Z.mod_small. lia. }
  apply N2Z.inj. set (n := Z.of_N (le_number b)) in *. set (n' := Z.of_N (le_number b')) in *. clearbody n n'. clear E1 E2 L L' B B'. rewrite (D n V), (D n' V') in H. destruct (Z.ltb_spec n h), (Z.ltb_spec n' h); lia.
Qed.

(** The bytes of field [i]. *)
Definition raw (c : msg_class) (pl : bytes) (i : nat) : bytes := map (fun k => nth (f_offset c i + k) pl 0%N) (seq 0 (f_width c i)).
Lemma raw_length c pl i : length (raw c pl i) = f_width c i.
Proof. unfold raw. rewrite map_length, seq_length. reflexivity. Qed.
Lemma nth_byte l k : is_bytes l -> (nth k l 0 < 256)%N.
Proof. intros H. destruct (Nat.lt_ge_cases k (length l)) as [L|L]; [|rewrite nth_overflow by exact L; lia]. apply (proj1 (Forall_forall _ _) H). apply nth_In. exact L. Qed.
Lemma raw_bytes c pl i : is_bytes pl -> is_bytes (raw c pl i).
Proof. intros H. apply Forall_forall. intros x Hx. apply in_map_iff in Hx as (k & <- & _). apply nth_byte. exact H. Qed.
Lemma is_bytes_part (l : bytes) a n : is_bytes l -> is_bytes (firstn n (skipn a l)).
Proof. intros H. apply Forall_forall. intros x Hx. apply (proj1 (Forall_forall _ _) H). rewrite <- (firstn_skipn a l). apply in_or_app. right. rewrite <- (firstn_skipn n (skipn a l)). apply in_or_app. left. exact Hx. Qed.
Lemma not_text c i : In c mavlink_classes -> ~ has_text c -> i < f_count c -> String.eqb (f_type c i) "char" = false.
Proof. intros Hc T Hi. apply String.eqb_neq. intros E. apply T. exists i. auto. Qed.
Lemma field_type c i : In c mavlink_classes -> i < f_count c -> exists sz ch, ctype (f_type c i) sz ch /\ sz <> 0 /\ c_size (f_type c i) = sz.
Proof.
  intros Hc Hi. destruct (wire_facts_in c Hc) as (items & W). destruct (wf_item _ _ W i Hi) as (sz & ch & C & _). exists sz, ch. split; [exact C|]. split; [destruct C; discriminate|apply (ctype_size _ _ _ C)].
Qed.

Lemma value_fits text c pl i : In c mavlink_classes -> is_bytes pl -> i < f_count c -> String.eqb (f_type c i) "char" = false -> fits c i (f_value text c pl i).
Proof.
  intros Hc B Hi T. destruct (field_type c i Hc Hi) as (sz & ch & C & Z & Sz). unfold fits, f_value. fold (raw c pl i). rewrite T.
  apply String.eqb_neq in T. pose proof (raw_length c pl i) as L. pose proof (raw_bytes c pl i B) as Rb. unfold f_width in L.
  destruct (Nat.eqb_spec (f_array c i) 0) as [E|E].
  - eexists. split; [reflexivity|]. apply (scalar_ok _ sz ch); auto. rewrite L, E, Sz. cbn. lia.
  - eexists. split; [reflexivity|]. split; [rewrite map_length, seq_length; reflexivity|]. apply Forall_forall. intros v Hv. apply in_map_iff in Hv as (k & <- & Hk). apply in_seq in Hk.
    apply (scalar_ok _ sz ch); auto; [apply is_bytes_part; exact Rb|]. rewrite firstn_length, skipn_length, L, Sz. nia.
Qed.
Lemma value_inj text c pl pl' i : In c mavlink_classes -> is_bytes pl -> is_bytes pl' -> i < f_count c -> String.eqb (f_type c i) "char" = false ->
  f_value text c pl i = f_value text c pl' i -> raw c pl i = raw c pl' i.
Proof.
  intros Hc B B' Hi T H. destruct (field_type c i Hc Hi) as (sz & ch & C & Z & Sz). unfold f_value in H. fold (raw c pl i) in H. fold (raw c pl' i) in H. rewrite T in H.
  pose proof (raw_length c pl i) as L. pose proof (raw_bytes c pl i B) as Rb. pose proof (raw_length c pl' i) as L'. pose proof (raw_bytes c pl' i B') as Rb'. unfold f_width in L, L'.
  destruct (Nat.eqb_spec (f_array c i) 0) as [E|E].
  - injection H as H. apply (scalar_inj _ sz ch _ _ C) in H; auto; rewrite ?L, ?L', E, Sz; cbn; lia.
  - injection H as H. rewrite Sz in *.
    assert (P : forall k, k < f_array c i -> firstn sz (skipn (k * sz) (raw c pl i)) = firstn sz (skipn (k * sz) (raw c pl' i))).
    { intros k Hk. apply (scalar_inj _ sz ch _ _ C); try (apply is_bytes_part; assumption); try (rewrite firstn_length, skipn_length, ?L, ?L'; nia).
      assert (X : nth k (map (fun k => c_scalar (f_type c i) (firstn sz (skipn (k * sz) (raw c pl i)))) (seq 0 (f_array c i))) (VInt 0) =
                  nth k (map (fun k => c_scalar (f_type c i) (firstn sz (skipn (k * sz) (raw c pl' i)))) (seq 0 (f_array c i))) (VInt 0)) by (rewrite H; reflexivity).
      rewrite !nth_map_lt with (d' := 0) in X by (rewrite seq_length; exact Hk). rewrite !seq_nth in X by exact Hk. exact X. }
    apply (nth_ext _ _ 0%N 0%N); [congruence|]. intros n Hn. rewrite L in Hn.
    assert (Hk : n / sz < f_array c i) by (apply Nat.div_lt_upper_bound; [exact Z|]; nia). specialize (P _ Hk).
    pose proof (Nat.div_mod n sz Z) as Dm. pose proof (Nat.mod_upper_bound n sz Z) as Mb.
    assert (X : nth (n mod sz) (firstn sz (skipn (n / sz * sz) (raw c pl i))) 0%N = nth (n mod sz) (firstn sz (skipn (n / sz * sz) (raw c pl' i))) 0%N) by (rewrite P; reflexivity).
    rewrite !Base.nth_firstn, !Base.nth_skipn in X by exact Mb. replace (n / sz * sz + n mod sz) with n in X by nia. exact X.
Qed.

(** The fields cover the payload. *)
Lemma covered c k : In c mavlink_classes -> k < wire_size c -> exists i, i < f_count c /\ f_offset c i <= k < f_offset c i + f_width c i.
Proof.
  intros Hc Hk. destruct (wire_facts_in c Hc) as (items & W). rewrite <- (wf_size _ _ W) in Hk.
  assert (G : forall l k, k < items_size l -> exists j, j < length l /\ items_size (firstn j l) <= k < items_size (firstn j l) + item_size (nth j l (0, " "%char))).
  { induction l as [|it l IH]; intros n Hn; [cbn in Hn; lia|]. change (items_size (it :: l)) with (item_size it + items_size l) in Hn.
    destruct (Nat.lt_ge_cases n (item_size it)) as [X|X]; [exists 0; split; [cbn; lia|]; change (0 <= n < 0 + item_size it); lia|].
    destruct (IH (n - item_size it)) as (j & Hj & A); [lia|]. exists (S j). split; [cbn; lia|].
    change (item_size it + items_size (firstn j l) <= n < item_size it + items_size (firstn j l) + item_size (nth j l (0, " "%char))). lia. }
  destruct (G items k Hk) as (j & Hj & A). rewrite (wf_len _ _ W) in Hj. destruct (wf_onto _ _ W j Hj) as (i & Hi & <-). exists i. split; [exact Hi|].
  rewrite (wf_offset _ _ W i Hi), (wf_isize _ _ W i Hi) in A. exact A.
Qed.

Lemma payload_bytes b : is_bytes b -> is_bytes (payload b).
Proof. intros H. apply is_bytes_part. exact H. Qed.
(** Two frames of a message with the same header attributes and the same payload are equal. *)
Lemma le_two lo hi lo' hi' : (lo < 256 -> hi < 256 -> lo' < 256 -> hi' < 256 -> lo + 256 * hi = lo' + 256 * hi' -> lo = lo' /\ hi = hi')%N.
Proof. lia. Qed.
Lemma body_payload body lo hi : 5 <= length body -> payload (254%N :: body ++ [lo; hi]) = skipn 5 body.
Proof.
  intros H. unfold payload. cbn [length]. rewrite app_length. change (length [lo; hi]) with 2. change (skipn 6 (254%N :: body ++ [lo; hi])) with (skipn 5 (body ++ [lo; hi])).
  rewrite skipn_app. replace (5 - length body) with 0 by lia. rewrite skipn_O, firstn_app, skipn_length. replace (S (length body + 2) - 8 - (length body - 5)) with 0 by lia.
  rewrite firstn_O, app_nil_r. apply firstn_all2. rewrite skipn_length. lia.
Qed.
Lemma frame_unique c b b' : is_bytes b -> is_bytes b' -> frame_v1 c b -> frame_v1 c b' -> (forall i, 2 <= i < 5 -> nth i b 0%N = nth i b' 0%N) -> payload b = payload b' -> b = b'.
Proof.
  intros B B' [I (body & lo & hi & sig & E & Es & Hb & E1 & Ec)] [I' (body' & lo' & hi' & sig' & E' & Es' & Hb' & E1' & Ec')] H P.
  apply length_zero_iff_nil in Es, Es'. subst sig sig'. rewrite app_nil_r in *.
  assert (Id : nth 5 b 0%N = nth 5 b' 0%N) by (destruct I as [_ I], I' as [_ I']; congruence).
  assert (Pb : payload b = skipn 5 body) by (subst b; apply body_payload; lia).
  assert (Pb' : payload b' = skipn 5 body') by (subst b'; apply body_payload; lia).
  rewrite Pb, Pb' in P. assert (L : length body = length body') by (apply (f_equal (@length N)) in P; rewrite !skipn_length in P; lia).
  assert (Eb : body = body').
  { rewrite <- (firstn_skipn 5 body), <- (firstn_skipn 5 body'), P. f_equal. apply (nth_ext _ _ 0%N 0%N); [rewrite !firstn_length; lia|]. intros n Hn. rewrite firstn_length in Hn.
    rewrite !Base.nth_firstn by lia. assert (Nb : forall k, k < length body -> nth (S k) b 0%N = nth k body 0%N) by (intros k Hk; subst b; cbn [nth]; apply app_nth1; exact Hk).
    assert (Nb' : forall k, k < length body' -> nth (S k) b' 0%N = nth k body' 0%N) by (intros k Hk; subst b'; cbn [nth]; apply app_nth1; exact Hk).
    rewrite <- Nb, <- Nb' by lia. destruct n as [|n]; [rewrite E1, E1', L; reflexivity|]. destruct (Nat.eq_dec n 3) as [->|N3]; [exact Id|]. apply H. lia. }
  subst body'. rewrite <- Ec' in Ec. subst b b'. 
  assert (Q : Forall (fun x => (x < 256)%N) [lo; hi]) by (inversion B; subst; apply Forall_app in H3 as [_ H3]; exact H3).
  assert (Q' : Forall (fun x => (x < 256)%N) [lo'; hi']) by (inversion B'; subst; apply Forall_app in H3 as [_ H3]; exact H3).
  inversion Q as [|? ? Q1 Q2]; subst. inversion Q2; subst. inversion Q' as [|? ? Q1' Q2']; subst. inversion Q2'; subst. destruct (le_two lo hi lo' hi') as [-> ->]; auto.
Qed.

Lemma frame_length c b : frame_v1 c b -> 8 <= length b /\ length (payload b) = length b - 8.
Proof.
  intros [_ (body & lo & hi & sig & E & Es & Hb & _)]. assert (8 <= length b) by (subst b; cbn [length]; rewrite !app_length; cbn; lia). split; [exact H|].
  unfold payload. rewrite firstn_length, skipn_length. lia.
Qed.

Lemma repack text b d seq sys comp : is_bytes b -> nth 0 b 0%N = 254%N -> decode text b = Ok d -> in_byte seq -> in_byte sys -> in_byte comp -> ~ has_text (d_class d) ->
  exists b', message_pack (Msg (d_class d) (d_fields d)) seq sys comp = Ok b' /\ is_bytes b' /\ length b' = 8 + wire_size (d_class d) /\ frame_v1 (d_class d) b' /\
    nth 2 b' 0%N = Z.to_N seq /\ nth 3 b' 0%N = Z.to_N sys /\ nth 4 b' 0%N = Z.to_N comp /\ payload b' = padded (wire_size (d_class d)) (payload b).
Proof.
  intros B B0 D S1 S2 S3 T. pose proof (proj1 (decode_v1_iff text b B B0 d) D) as (c & F & Ec & _ & _ & _ & _ & _ & _ & _ & _ & Ef). rewrite Ec in *. clear Ec.
  assert (Hc : In c mavlink_classes) by apply (proj1 F).
  assert (Fits : fits_all c (d_fields d)).
  { rewrite Ef. split; [rewrite map_length, seq_length; reflexivity|]. intros i Hi. rewrite nth_map_lt with (d' := 0) by (rewrite seq_length; exact Hi). rewrite seq_nth by exact Hi.
    apply value_fits; auto. apply payload_bytes; exact B. apply not_text; auto. }
  destruct (pack_decode_sent text c (d_fields d) seq sys comp Hc Fits S1 S2 S3) as (b' & d' & Eb & B' & L & F' & D' & Sn).
  assert (B0' : nth 0 b' 0%N = 254%N) by (destruct F' as [_ (? & ? & ? & ? & -> & _)]; reflexivity).
  pose proof (proj1 (decode_v1_iff text b' B' B0' d') D') as (c' & _ & Ec' & _ & _ & E2 & E3 & E4 & _ & _ & _ & Ef').
  destruct Sn as (Sc & _ & Q2 & Q3 & Q4 & _ & Sf). rewrite <- Ec', Sc in Ef'.
  exists b'. repeat (split; [congruence || assumption|]).
  destruct (frame_length c b' F') as (_ & Lp). apply (nth_ext _ _ 0%N 0%N).
  - unfold padded. rewrite Lp, L, firstn_length, app_length, repeat_length. lia.
  - intros k Hk. rewrite Lp, L in Hk. unfold padded. rewrite nth_pad by lia. destruct (covered c k Hc ltac:(lia)) as (i & Hi & Ki).
    assert (V : f_value text c (payload b') i = f_value text c (payload b) i).
    { assert (X : nth i (d_fields d') (FText []) = returned text c i (nth i (d_fields d) (FText []))).
      { rewrite Sf. rewrite nth_map_lt with (d' := 0) by (rewrite seq_length; exact Hi). rewrite seq_nth by exact Hi. reflexivity. }
      rewrite Ef', Ef in X. rewrite !nth_map_lt with (d' := 0) in X by (rewrite seq_length; exact Hi). rewrite seq_nth in X by exact Hi. cbn [Nat.add] in X. rewrite X.
      pose proof (value_fits text c (payload b) i Hc (payload_bytes b B) Hi (not_text c i Hc T Hi)) as W. unfold fits in W. rewrite (not_text c i Hc T Hi) in W.
      destruct (Nat.eqb (f_array c i) 0); [destruct W as (x & -> & W); destruct x; try reflexivity; contradiction|destruct W as (l & -> & _); reflexivity]. }
    apply value_inj in V; auto using payload_bytes, not_text.
    assert (X : nth (k - f_offset c i) (raw c (payload b') i) 0%N = nth (k - f_offset c i) (raw c (payload b) i) 0%N) by (rewrite V; reflexivity).
    unfold raw in X. rewrite !nth_map_lt with (d' := 0) in X by (rewrite seq_length; lia). rewrite seq_nth in X by lia. replace (f_offset c i + (0 + (k - f_offset c i))) with k in X by lia. exact X.
Qed.

(** A text field cannot be packed again. *)
Lemma repack_text text b d seq sys comp : is_bytes b -> nth 0 b 0%N = 254%N -> decode text b = Ok d -> has_text (d_class d) ->
  message_pack (Msg (d_class d) (d_fields d)) seq sys comp = Err StructError.
Proof.
  intros B B0 D (i & Hi & Ti). pose proof (proj1 (decode_v1_iff text b B B0 d) D) as (c & F & Ec & _ & _ & _ & _ & _ & _ & _ & _ & Ef). rewrite Ec in *. clear Ec.
  assert (Hc : In c mavlink_classes) by apply (proj1 F). destruct (message_methods c Hc) as (k & e & s & M). destruct M as (_ & _ & _ & Nd & Pl & On & _).
  assert (Lf : length (d_fields d) = f_count c) by (rewrite Ef, map_length, seq_length; reflexivity).
  assert (Nf : forall j, j < f_count c -> nth j (d_fields d) (FText []) = f_value text c (payload b) j).
  { intros j Hj. rewrite Ef. rewrite nth_map_lt with (d' := 0) by (rewrite seq_length; exact Hj). rewrite seq_nth by exact Hj. reflexivity. }
  unfold message_pack, pack_args. cbn [m_class m_fields].
  rewrite (map_res_err _ StructError); [reflexivity| |].
  - intros n Hn. destruct (place_ok c n (Pl n Hn)) as [P1 P2]. rewrite P1. cbn [bind]. rewrite (index_ok _ _ (FText [])) by (rewrite Lf; apply Pl; exact Hn). cbn [bind].
    destruct (nth (place c n) (d_fields d) (FText [])) as [v|l|t]; eauto.
  - exists (nth i (mc_fieldnames c) ""%string). split; [apply On; apply nth_In; exact Hi|]. rewrite (str_index_nth _ i Nd Hi). cbn [bind].
    rewrite (index_ok _ _ (FText [])) by lia. cbn [bind]. rewrite (Nf i Hi). unfold f_value. rewrite Ti. reflexivity.
Qed.
