(** The generated classes and the XML definitions. *)
From Coq Require Import String Ascii List NArith ZArith Bool Arith Lia ZifyBool ZifyNat ZifyN.
From Verif.Model Require Import Py Dialect ProtocolMeta Struct Crc Mavlink MinimalTable XmlTable.
From Verif.Spec Require Import Bytes Bits Header CrcSpec Frame XmlSpec.
From Verif.Proofs Require Import Base BitOpsP DialectP HeaderP HeaderMore StructP CrcP MavlinkP FieldsP PackP MavlinkMore.
Import ListNotations.
Local Open Scope string_scope.
Local Open Scope list_scope.
Local Notation length := List.length.

Lemma hc_table : mavlink_classes = map x_class hc_xml.
Proof. vm_compute. reflexivity. Qed.

Lemma minimal_table : minimal_classes = map x_class minimal_xml.
Proof. vm_compute. reflexivity. Qed.

Definition x_char (f : xfield) : ascii := match x_letter (x_type f) with String a _ => a | EmptyString => " "%char end.
Definition x_it (f : xfield) : nat * ascii := (Nat.max 1 (xf_array f), x_char f).

Definition x_types : list string :=
  ["uint8_t"; "int8_t"; "uint16_t"; "int16_t"; "uint32_t"; "int32_t"; "uint64_t"; "int64_t"; "float"; "char"].

Lemma x_char_ctype f : existsb (String.eqb (x_type f)) x_types = true -> ctype (x_type f) (x_size f) (x_char f).
Proof.
  unfold x_size, x_char. generalize (x_type f). intros ty H. apply existsb_exists in H. destruct H as (t & I & E).
  apply String.eqb_eq in E. subst ty. simpl in I.
  repeat (destruct I as [<-|I]; [vm_compute; constructor|]). destruct I.
Qed.

Fixpoint items_eqb (a b : list (nat * ascii)) : bool :=
  match a, b with
  | [], [] => true
  | (n, c) :: a', (m, d) :: b' => Nat.eqb n m && Ascii.eqb c d && items_eqb a' b'
  | _, _ => false
  end.

Lemma items_eqb_eq a b : items_eqb a b = true -> a = b.
Proof.
  revert b; induction a as [|[n c] a IH]; intros [|[m d] b] H; try discriminate; auto. simpl in H.
  apply andb_prop in H. destruct H as [H1 H2]. apply andb_prop in H1. destruct H1 as [H0 H1].
  apply Nat.eqb_eq in H0. apply Ascii.eqb_eq in H1. subst. f_equal; auto.
Qed.

Definition x_check (x : xmsg) : bool :=
  let c := x_class x in
  forallb (fun i => Nat.eqb (f_array c i) (xf_array (x_field x i)) && Nat.eqb (f_offset c i) (x_offset x i) &&
                    existsb (String.eqb (x_type (x_field x i))) x_types)
    (seq 0 (length (xm_fields x))) &&
  Nat.eqb (wire_size c) (x_total x) &&
  match parse_fmt (x_format x) with Ok l => items_eqb l (map (fun p => x_it (snd p)) (x_wire x)) | Err _ => false end.

Lemma all_checked : forallb x_check hc_xml = true.
Proof. vm_compute. reflexivity. Qed.

Fixpoint list_eqb {A} (eqb : A -> A -> bool) (a b : list A) : bool :=
  match a, b with [], [] => true | x :: a', y :: b' => eqb x y && list_eqb eqb a' b' | _, _ => false end.
Lemma list_eqb_eq {A} (eqb : A -> A -> bool) : (forall x y, eqb x y = true -> x = y) -> forall a b, list_eqb eqb a b = true -> a = b.
Proof.
  intros E. induction a as [|x a IH]; intros [|y b] H; try discriminate; auto. simpl in H.
  apply andb_prop in H. destruct H. f_equal; auto.
Qed.
Definition xf_eqb (f g : xfield) : bool :=
  String.eqb (xf_name f) (xf_name g) && String.eqb (xf_type f) (xf_type g) && Nat.eqb (xf_array f) (xf_array g).
Definition xm_eqb (x y : xmsg) : bool :=
  N.eqb (xm_id x) (xm_id y) && String.eqb (xm_name x) (xm_name y) && list_eqb xf_eqb (xm_fields x) (xm_fields y).
Lemma xm_eqb_eq x y : xm_eqb x y = true -> x = y.
Proof.
  destruct x as [i nm l], y as [j nm' l']. unfold xm_eqb. cbn [xm_id xm_name xm_fields]. intros H.
  apply andb_prop in H. destruct H as [H H3]. apply andb_prop in H. destruct H as [H1 H2].
  apply N.eqb_eq in H1. apply String.eqb_eq in H2. subst. f_equal. revert H3. apply list_eqb_eq.
  intros [a b d] [a' b' d']. unfold xf_eqb. cbn [xf_name xf_type xf_array]. intros H.
  apply andb_prop in H. destruct H as [H H3]. apply andb_prop in H. destruct H as [H1 H2].
  apply String.eqb_eq in H1, H2. apply Nat.eqb_eq in H3. subst. reflexivity.
Qed.

Lemma minimal_checked : forallb (fun m => existsb (xm_eqb m) hc_xml) minimal_xml = true.
Proof. vm_compute. reflexivity. Qed.

Local Opaque hc_xml minimal_xml mavlink_classes minimal_classes.

Lemma minimal_in_hc : incl minimal_xml hc_xml.
Proof.
  intros m I. pose proof minimal_checked as H. rewrite forallb_forall in H. specialize (H m I).
  apply existsb_exists in H. destruct H as (h & Hh & E). apply xm_eqb_eq in E. subst. exact Hh.
Qed.

Lemma f2_length {A B} (R : A -> B -> Prop) l m : Forall2 R l m -> length l = length m.
Proof. induction 1; simpl; auto. Qed.

Section X.
Variable x : xmsg.
Hypothesis Hx : In x hc_xml.
Let c := x_class x.
Let n := length (xm_fields x).

Lemma x_in : In c mavlink_classes.
Proof using Hx. rewrite hc_table. apply in_map. exact Hx. Qed.

Lemma x_count : f_count c = n.
Proof using. unfold f_count, c, n, x_class. cbn [mc_fieldnames]. apply map_length. Qed.

Lemma x_checked : x_check x = true.
Proof using Hx. pose proof all_checked as H. rewrite forallb_forall in H. apply H; auto. Qed.

Lemma x_ftype i : i < n -> f_type c i = x_type (x_field x i).
Proof using. intros H. unfold f_type, c, x_class. cbn [mc_fieldtypes]. apply nth_map_lt. exact H. Qed.

Lemma x_facts i : i < n -> f_array c i = xf_array (x_field x i) /\ f_offset c i = x_offset x i /\
  ctype (x_type (x_field x i)) (x_size (x_field x i)) (x_char (x_field x i)).
Proof using Hx.
  intros H. pose proof x_checked as K. unfold x_check in K. apply andb_prop in K. destruct K as [K _].
  apply andb_prop in K. destruct K as [K _]. rewrite forallb_forall in K. specialize (K i).
  rewrite in_seq in K. specialize (K ltac:(fold n; lia)). apply andb_prop in K. destruct K as [K K3].
  apply andb_prop in K. destruct K as [K1 K2]. apply Nat.eqb_eq in K1, K2. split; [exact K1|]. split; [exact K2|].
  apply x_char_ctype; auto.
Qed.

Lemma x_fwidth i : i < n -> f_width c i = x_width (x_field x i).
Proof using Hx. intros H. unfold f_width, x_width, x_size. rewrite x_ftype by auto. rewrite (proj1 (x_facts i H)). reflexivity. Qed.

Lemma x_wsize : wire_size c = x_total x.
Proof using Hx.
  pose proof x_checked as K. unfold x_check in K. apply andb_prop in K. destruct K as [K _].
  apply andb_prop in K. destruct K as [_ K]. apply Nat.eqb_eq in K. exact K.
Qed.

Lemma x_parse : parse_fmt (x_format x) = Ok (map (fun p => x_it (snd p)) (x_wire x)).
Proof using Hx.
  pose proof x_checked as K. unfold x_check in K. apply andb_prop in K. destruct K as [_ K].
  destruct (parse_fmt (x_format x)) as [l|e]; [|discriminate]. apply items_eqb_eq in K. subst. reflexivity.
Qed.

Lemma x_fvalue text pl i : i < n -> f_value text c pl i = x_value text x pl i.
Proof using Hx.
  intros H. destruct (x_facts i H) as (A & O & _). unfold f_value, x_value. rewrite x_ftype, A, O, x_fwidth by auto. reflexivity.
Qed.

Lemma x_wire_in p : In p (x_wire x) -> fst p < n /\ snd p = x_field x (fst p).
Proof using.
  intros H. unfold x_wire in H. apply in_flat_map in H. destruct H as (s & _ & H). apply filter_In in H. destruct H as [H _].
  apply In_nth with (d := (0, no_field)) in H. destruct H as (k & Hk & <-).
  rewrite combine_length, seq_length, Nat.min_id in Hk. rewrite combine_nth by apply seq_length. cbn [fst snd].
  rewrite seq_nth by auto. simpl. split; [exact Hk|reflexivity].
Qed.

Lemma frame_iff b : frame_v1 c b <-> x_is_frame x b.
Proof using Hx.
  unfold frame_v1, frame_of, x_is_frame, is_msg. change (mc_id c) with (xm_id x). change (mc_crc_extra c) with (x_extra x). split.
  - intros ([_ I] & body & lo & hi & sig & E & Ls & L5 & L1 & K). destruct sig; [|discriminate]. rewrite app_nil_r in E.
    destruct body as [|l0 [|q [|s [|cc [|i pl]]]]]; cbn [length] in L5; try lia.
    exists q, s, cc, pl, lo, hi. subst b. simpl in I, L1. subst i.
    replace (N.of_nat (length pl)) with l0 by (rewrite L1; lia). split; [reflexivity|]. rewrite K. reflexivity.
  - intros (q & s & cc & pl & lo & hi & E & K). subst b. split; [split; [apply x_in|reflexivity]|].
    exists ([N.of_nat (length pl); q; s; cc; xm_id x] ++ pl), lo, hi, []. rewrite !app_nil_r.
    split; [reflexivity|]. split; [reflexivity|]. rewrite app_length. cbn [length].
    split; [lia|]. split; [simpl; f_equal; lia|]. rewrite K. rewrite <- app_assoc. reflexivity.
Qed.

Lemma x_fits_class vs : x_fits_all x vs -> fits_all c vs.
Proof using Hx.
  intros H. unfold x_fits_all in H. assert (L : length vs = n) by (symmetry; exact (f2_length _ _ _ H)).
  split; [rewrite x_count; exact L|]. rewrite x_count. intros i Hi.
  assert (F : x_fits (x_field x i) (nth i vs (FText []))).
  { revert i Hi. unfold x_field, n. clear L. induction H; intros [|i] Hi; simpl in Hi; try lia; auto. simpl. apply IHForall2. lia. }
  unfold fits. rewrite x_ftype by auto. rewrite (proj1 (x_facts i Hi)). exact F.
Qed.
End X.

Lemma le_Z_S m z : le_Z (S m) z = Z.to_N (z mod 256) :: le_Z m (z / 256).
Proof.
  unfold le_Z. cbn [seq map]. f_equal; [rewrite Z.pow_0_r, Z.div_1_r; reflexivity|].
  rewrite <- seq_shift, map_map. apply map_ext. intros k. rewrite Nat2Z.inj_succ, Z.pow_succ_r by lia.
  rewrite Z.div_div by lia. reflexivity.
Qed.

Lemma le_bytes_Z m z : le_bytes m (Z.to_N (z mod 256 ^ Z.of_nat m)) = le_Z m z.
Proof.
  revert z. induction m; intros z; [reflexivity|]. rewrite le_Z_S. cbn [le_bytes].
  rewrite Nat2Z.inj_succ, Z.pow_succ_r by lia.
  assert (P : (0 < 256 ^ Z.of_nat m)%Z) by (apply Z.pow_pos_nonneg; lia).
  rewrite Z.rem_mul_r by lia. pose proof (Z.mod_pos_bound z 256 ltac:(lia)) as B.
  pose proof (Z.mod_pos_bound (z / 256) (256 ^ Z.of_nat m) P) as B2. f_equal.
  - change 256%N with (Z.to_N 256). rewrite <- Z2N.inj_mod by lia. f_equal.
    rewrite (Z.mul_comm 256), Z.mod_add by lia. apply Z.mod_small. lia.
  - change 256%N with (Z.to_N 256). rewrite <- Z2N.inj_div by lia.
    rewrite (Z.mul_comm 256), Z.div_add by lia. rewrite (Z.div_small (z mod 256)) by lia. rewrite Z.add_0_l. apply IHm.
Qed.

Lemma pow_bytes m : (2 ^ (8 * Z.of_nat m) = 256 ^ Z.of_nat m)%Z.
Proof. rewrite Z.pow_mul_r by lia. reflexivity. Qed.

Lemma pack_one_x ty sz ch u : ctype ty sz ch -> ty <> "char" -> c_ok ty u -> pack_one ch u = Ok (x_scalar ty u).
Proof.
  intros C NC. destruct (ctype_size _ _ _ C) as [CS HS]. unfold c_ok, pack_one. rewrite HS, CS, pow_bytes. cbv zeta.
  assert (P : (0 < 256 ^ Z.of_nat sz)%Z) by (apply Z.pow_pos_nonneg; lia).
  destruct u as [z|p|]; [| |tauto].
  - intros [NF R]. unfold x_scalar. rewrite CS. clear CS HS.
    destruct C; try tauto; cbn [char_unsigned char_signed]; cbn in R;
      match goal with |- context[if ?x then _ else _] => replace x with true by lia end;
      rewrite <- le_bytes_Z; f_equal; f_equal; rewrite ?(Z.mod_small z) by lia; reflexivity.
  - intros [-> B]. inversion C; subst. unfold x_scalar. change (c_size "float") with 4. rewrite <- le_bytes_Z. rewrite Z.mod_small.
    + rewrite N2Z.id. reflexivity.
    + change (256 ^ Z.of_nat 4)%Z with (Z.of_N (2 ^ 32)). lia.
Qed.

Lemma pack_rep_x ty sz ch l rest : ctype ty sz ch -> ty <> "char" -> Forall (c_ok ty) l ->
  pack_rep (length l) ch (l ++ rest) = Ok (flat_map (x_scalar ty) l, rest).
Proof.
  intros C NC. induction 1 as [|u l K _ IH]; [reflexivity|]. cbn [length pack_rep app flat_map].
  rewrite (pack_one_x _ _ _ _ C NC K). cbn [bind]. rewrite IH. reflexivity.
Qed.

Lemma pack_item_x f v rest : ctype (x_type f) (x_size f) (x_char f) -> x_fits f v ->
  pack_item (x_it f) (args_of v ++ rest) = Ok (x_bytes f v, rest).
Proof.
  intros C Ft. rewrite pack_item_eq. unfold x_it. cbn [fst snd]. rewrite (ctype_char _ _ _ C). unfold x_fits in Ft.
  destruct (String.eqb_spec (x_type f) "char") as [T|T].
  - destruct Ft as (b & -> & _). cbn [args_of app x_bytes]. unfold x_width, x_size. rewrite T. change (c_size "char") with 1.
    rewrite Nat.mul_1_r. reflexivity.
  - destruct (Nat.eqb_spec (xf_array f) 0) as [E|E].
    + destruct Ft as (u & -> & K). rewrite E. change (Nat.max 1 0) with (length [u]). cbn [args_of].
      rewrite (pack_rep_x _ _ _ [u] rest C T) by (constructor; auto). cbn [flat_map x_bytes]. rewrite app_nil_r.
      destruct u; auto. destruct K.
    + destruct Ft as (l & -> & L & K). cbn [args_of x_bytes]. replace (Nat.max 1 (xf_array f)) with (length l) by lia.
      apply (pack_rep_x _ _ _ l rest C T K).
Qed.

Lemma x_fits_nth x vs i : x_fits_all x vs -> i < length (xm_fields x) -> x_fits (x_field x i) (nth i vs (FText [])).
Proof.
  unfold x_fits_all, x_field. intros H. revert i. induction H; intros [|i] Hi; simpl in Hi; try lia; auto. simpl. apply IHForall2. lia.
Qed.

Lemma x_args f v : x_fits f v -> match v with FOne v => Ok [v] | FMany l => Ok l | FText _ => Err StructError end = Ok (args_of v).
Proof.
  unfold x_fits. destruct v; auto. destruct (String.eqb _ _); [intros (? & ? & _); discriminate|].
  destruct (Nat.eqb _ _); intros (? & ? & _); discriminate.
Qed.

Lemma map_res_map {A B C} (f : A -> B) (g : B -> res C) (h : A -> C) l :
  (forall a, In a l -> g (f a) = Ok (h a)) -> map_res g (map f l) = Ok (map h l).
Proof.
  induction l; intros H; [reflexivity|]. cbn [map map_res]. rewrite (H a) by (simpl; auto). cbn [bind].
  rewrite IHl by (intros; apply H; simpl; auto). reflexivity.
Qed.

Lemma payload_x x vs : In x hc_xml -> x_fits_all x vs ->
  (do! args <- pack_args (Msg (x_class x) vs) in struct_pack (mc_pack_fmt (x_class x)) args) = Ok (x_payload x vs).
Proof.
  intros Hx Ft. pose proof (class_facts_in _ (x_in x Hx)) as F. pose proof (f2_length _ _ _ Ft) as L.
  assert (EA : pack_args (Msg (x_class x) vs) = Ok (concat (map (fun p => args_of (nth (fst p) vs (FText []))) (x_wire x)))).
  { unfold pack_args. cbn [m_class m_fields]. change (mc_ordered (x_class x)) with (map (fun p => xf_name (snd p)) (x_wire x)).
    erewrite map_res_map; [reflexivity|]. intros p Hp. cbv beta. destruct (x_wire_in x p Hp) as [Hi ->].
    replace (xf_name (x_field x (fst p))) with (nth (fst p) (mc_fieldnames (x_class x)) "").
    2:{ unfold x_class. cbn [mc_fieldnames]. rewrite nth_map_lt with (d' := no_field) by auto. reflexivity. }
    rewrite str_index_nth.
    - cbn [bind]. rewrite index_ok with (d := FText []) by lia. cbn [bind]. eapply x_args. apply x_fits_nth; eauto.
    - apply (cf_nodup _ F).
    - unfold x_class. cbn [mc_fieldnames]. rewrite map_length. auto. }
  rewrite EA. cbn [bind]. unfold struct_pack. change (mc_pack_fmt (x_class x)) with (x_format x).
  rewrite x_parse by auto. cbn [bind]. unfold x_payload.
  assert (G : forall p, In p (x_wire x) -> forall rest, pack_item (x_it (snd p)) (args_of (nth (fst p) vs (FText [])) ++ rest) =
    Ok (x_bytes (snd p) (nth (fst p) vs (FText [])), rest)).
  { intros p Hp rest. destruct (x_wire_in x p Hp) as [Hi ->]. apply pack_item_x; [apply x_facts; auto|apply x_fits_nth; auto]. }
  clear EA. induction (x_wire x) as [|p w IH]; [reflexivity|]. cbn [map concat flat_map pack_items].
  rewrite G by (simpl; auto). cbn [bind fst snd]. rewrite IH by (intros; apply G; simpl; auto). reflexivity.
Qed.

Lemma frame_x x vs seq sys comp : In x hc_xml -> x_fits_all x vs -> in_byte seq -> in_byte sys -> in_byte comp ->
  message_pack (Msg (x_class x) vs) seq sys comp = Ok (x_frame x vs (Z.to_N seq) (Z.to_N sys) (Z.to_N comp)).
Proof.
  intros Hx Ft S1 S2 S3. pose proof (x_in x Hx) as H. pose proof (x_fits_class x Hx vs Ft) as Fc.
  pose proof (payload_x x vs Hx Ft) as EP.
  destruct (payload_ok (fun b => b) (x_class x) vs H Fc) as (pl & EP' & LP & BP & _).
  rewrite EP in EP'. injection EP' as <-.
  assert (LP' : length (x_payload x vs) = x_total x) by (rewrite LP; apply x_wsize; auto).
  pose proof (class_facts_in _ H) as F. destruct (wire_facts_in _ H) as (items & W).
  pose proof (wf_small _ _ W) as SM. rewrite x_wsize in SM by auto. pose proof (cf_id _ F) as IDB. change (mc_id (x_class x)) with (xm_id x) in IDB.
  pose proof (cf_extra _ F) as EXB. change (mc_crc_extra (x_class x)) with (x_extra x) in EXB.
  unfold message_pack. apply bind_ok in EP. destruct EP as (args & EA & EP). rewrite EA. cbn [bind m_class]. rewrite EP. cbn [bind].
  unfold pack_frame. change (mc_id (x_class x)) with (xm_id x). change (mc_pack_extra (x_class x)) with (x_extra x).
  set (h := [254; N.of_nat (x_total x); Z.to_N seq; Z.to_N sys; Z.to_N comp; xm_id x]%N).
  unfold in_byte in *.
  assert (EH : header_pack (Z.of_nat (length (x_payload x vs))) seq sys comp (Z.of_N (xm_id x)) = Ok h).
  { unfold header_pack, struct_pack. change (parse_fmt "<BBBBBB") with (Ok (repeat (1, "B"%char) 6)). cbn [bind]. rewrite LP'.
    assert (P1 : forall z, (0 <= z <= 255)%Z -> pack_one "B" (VInt z) = Ok [Z.to_N z]).
    { intros z Hz. unfold pack_one. cbn [char_size char_unsigned]. change (2 ^ (8 * Z.of_nat 1))%Z with 256%Z.
      replace ((0 <=? z)%Z && (z <? 256)%Z)%bool with true by lia. cbn [le_bytes]. f_equal. f_equal. apply N.mod_small. lia. }
    cbn [repeat pack_items pack_item fst snd pack_rep].
    do 6 (rewrite P1 by lia; cbn [bind fst snd app]). unfold h. replace (Z.to_N (Z.of_nat (x_total x))) with (N.of_nat (x_total x)) by lia.
    rewrite N2Z.id. reflexivity. }
  rewrite EH. cbn [bind]. cbv zeta.
  set (body := skipn 1 h ++ x_payload x vs).
  assert (Bb : is_bytes body).
  { apply is_bytes_app; split; auto. unfold h. cbn [skipn]. repeat apply Forall_cons; auto; lia. }
  set (crc := crc16 (body ++ [x_extra x])).
  assert (CB : (crc < 65536)%N) by (apply crc_bits_bound; lia).
  assert (EC : x25_accumulate (x25crc (skipn 1 (h ++ x_payload x vs))) [x_extra x] = crc).
  { unfold x25crc. rewrite <- x25_app. change (skipn 1 (h ++ x_payload x vs)) with body.
    apply x25crc_is_crc16. apply is_bytes_app. split; auto. constructor; [exact EXB|constructor]. }
  rewrite EC.
  assert (ET : struct_pack "<H" [VInt (Z.of_N crc)] = Ok (le_bytes 2 crc)).
  { unfold struct_pack. change (parse_fmt "<H") with (Ok [(1, "H"%char)]). cbn [bind pack_items pack_item fst snd pack_rep].
    unfold pack_one. cbn [char_size char_unsigned]. change (2 ^ (8 * Z.of_nat 2))%Z with 65536%Z.
    replace ((0 <=? Z.of_N crc)%Z && (Z.of_N crc <? 65536)%Z)%bool with true by lia. cbn [bind]. cbn [fst snd]. rewrite N2Z.id.
    rewrite !app_nil_r. reflexivity. }
  rewrite ET. cbn [bind]. f_equal. unfold x_frame. change ([N.of_nat (x_total x); Z.to_N seq; Z.to_N sys; Z.to_N comp; xm_id x]%N ++ x_payload x vs) with body.
  fold crc. cbv zeta. cbn [le_bytes]. rewrite (N.mod_small (crc / 256)) by (apply N.div_lt_upper_bound; lia).
  reflexivity.
Qed.

Lemma decode_x text b : is_bytes b -> nth 0 b 0%N = 254%N -> forall d,
  decode text b = Ok d <->
  exists x, In x hc_xml /\ x_is_frame x b /\ d_class d = x_class x /\ d_msgId d = xm_id x /\ d_mlen d = nth 1 b 0%N /\ d_seq d = nth 2 b 0%N /\
    d_sys d = nth 3 b 0%N /\ d_comp d = nth 4 b 0%N /\ d_incompat d = 0%N /\ d_compat d = 0%N /\
    d_crc d = le_number (skipn (length b - 2) b) /\
    d_fields d = map (x_value text x (payload b)) (seq 0 (length (xm_fields x))).
Proof.
  intros B M d. rewrite (decode_v1_iff text b B M d).
  assert (V : forall x, In x hc_xml -> map (f_value text (x_class x) (payload b)) (seq 0 (f_count (x_class x))) =
    map (x_value text x (payload b)) (seq 0 (length (xm_fields x)))).
  { intros x Hx. rewrite x_count. apply map_ext_in. intros i Hi. apply in_seq in Hi. apply x_fvalue; auto. lia. }
  split.
  - intros (c & FR & C & I & R). pose proof FR as [[Hc Hid] _]. rewrite hc_table in Hc. apply in_map_iff in Hc. destruct Hc as (x & <- & Hx).
    exists x. split; auto. split; [apply frame_iff; auto|]. split; auto. split; [rewrite I, <- Hid; reflexivity|].
    rewrite <- V by auto. exact R.
  - intros (x & Hx & FR & C & I & R). exists (x_class x). apply frame_iff in FR; auto. split; auto. split; auto.
    destruct FR as [[_ Hid] _]. split; [rewrite I, <- Hid; reflexivity|]. rewrite V by auto. exact R.
Qed.

Lemma get_class_x x : In x hc_xml -> get_class (xm_id x) = Some (x_class x).
Proof. intros Hx. apply get_class_spec. split; [apply x_in; auto|reflexivity]. Qed.
