(** Statistical models of fields and buffers (C20 - C30). *)
From Coq Require Import String Ascii List NArith ZArith QArith Bool Sorting.Permutation Sorting.Sorted Reals Lra Lia.
From Verif.Model Require Import Py Float Dialect ProtocolMeta Struct Mavlink Segmentation StatModels.
From Verif.Spec Require Import Bytes Bits Header Frame Segment Describe RealOps Stats.
From Verif.Proofs Require Import RealP StatP LayoutP ValuesP BufModelP PredictP MeanP SaveP StatReal StatTop.
From Verif.Props Require Import MavlinkProps SegmentProps.
Import ListNotations.
Local Close Scope R_scope.
Local Close Scope Q_scope.

(** C20.  num2bits of a real number for an integer type: with [z] the number rounded half to even (0 for negative numbers of an
    unsigned type), success means that [z] fits and that the bits are those of the bytes encoding [z]; otherwise struct.error. *)
Theorem c20_num2bits_integers : forall pack ty sz x z, integer_type ty sz -> wire_integer ty x z ->
  (forall bits, num2bits Rops pack (NNum (FO := Rops) x) ty = Ok bits <->
     c_ok ty (VInt z) /\ exists b, is_bytes b /\ length b = sz /\ c_scalar ty b = VInt z /\ length bits = 8 * sz /\
       forall p, p < 8 * sz -> nth p bits false = bit_of b p) /\
  (num2bits Rops pack (NNum (FO := Rops) x) ty = Err StructError <-> ~ c_ok ty (VInt z)).
Proof. exact num2bits_R. Qed.
Print Assumptions c20_num2bits_integers.

Theorem c20_rounding_total : forall ty x, exists z, wire_integer ty x z.
Proof. exact wire_integer_total. Qed.
Print Assumptions c20_rounding_total.

(** Type float: the bits of the binary32 pattern that struct.pack chose. *)
Theorem c20_num2bits_float : forall (FO : fops) pack x p, pack x = Ok p -> (p < 2 ^ 32)%N ->
  exists b, is_bytes b /\ length b = 4 /\ c_scalar "float" b = VF32 p /\ num2bits FO pack (NNum x) "float" = Ok (bytes_bits b).
Proof. exact num2bits_float_bytes. Qed.
Print Assumptions c20_num2bits_float.

(** Type char never works; the integer types reject anything but numbers. *)
Theorem c20_num2bits_char_refuted : forall (FO : fops) pack num,
  num2bits FO pack num "char" = Err TypeError \/ num2bits FO pack num "char" = Err StructError.
Proof. exact num2bits_char. Qed.
Print Assumptions c20_num2bits_char_refuted.

Theorem c20_num2bits_no_number : forall (FO : fops) pack num ty sz, integer_type ty sz -> (forall x, num <> NNum x) ->
  num2bits FO pack num ty = Err TypeError.
Proof. exact num2bits_no_number. Qed.
Print Assumptions c20_num2bits_no_number.

Definition q (x : Q) : numarg Qops := @NNum Qops x.
Definition no_pack (x : Q) : res N := Err StructError.
Example c20_ex :
  num2bits Qops no_pack (q (5 # 2)) "uint8_t" = Ok (bytes_bits [2%N]) /\ num2bits Qops no_pack (q (7 # 2)) "uint8_t" = Ok (bytes_bits [4%N]) /\
  num2bits Qops no_pack (q (-7 # 1)) "uint8_t" = Ok (bytes_bits [0%N]) /\
  num2bits Qops no_pack (q (-300 # 1)) "int16_t" = Ok (bytes_bits [212%N; 254%N]) /\
  num2bits Qops no_pack (q (256 # 1)) "uint8_t" = Err StructError /\ num2bits Qops no_pack (@NChr Qops 65%N) "char" = Err StructError.
Proof. vm_compute. repeat split. Qed.
Example c20_ex_types : integer_type "uint8_t" 1 /\ integer_type "int16_t" 2 /\ wire_integer "int16_t" (-300) (-300).
Proof.
  split; [eexists; split; [constructor|split; discriminate]|]. split; [eexists; split; [constructor|split; discriminate]|].
  right. split; [left; reflexivity|]. left. rewrite Rminus_eq_0, Rabs_R0. lra.
Qed.

(** C21.  The samples of a FieldModel after any sequence of additions and reads, windows None and >= 0. *)
Theorem c21_window : forall (FO : fops) pack erf name ty w m h, fm_init FO name ty w = Ok m -> window_ok w ->
  fm_samples FO (fm_run FO pack erf m h) = windowed w (added h).
Proof. intros FO pack erf name ty w m h I W. exact (proj2 (proj2 (history_spec FO pack erf name ty w m h I W))). Qed.
Print Assumptions c21_window.

(** A FieldModel exists exactly for the C types of the protocol. *)
Theorem c21_types : forall (FO : fops) name ty w, (exists m, fm_init FO name ty w = Ok m) <-> exists sz ch, ctype ty sz ch.
Proof. exact fm_init_total. Qed.
Print Assumptions c21_types.

(** Window 0 does not keep "the last 0 samples" and a negative window loses samples. *)
Theorem c21_zero_window_refuted : exists name ty m h, fm_init Qops name ty (Some 0%Z) = Ok m /\
  fm_samples Qops (fm_run Qops no_pack (fun x => x) m h) <> last_n 0 (added h).
Proof.
  exists "f"%string, "uint8_t"%string. eexists. exists [EAdd (SOne (VInt 1)); EAdd (SOne (VInt 2))].
  split; [reflexivity|]. vm_compute. discriminate.
Qed.
Print Assumptions c21_zero_window_refuted.
Theorem c21_negative_window_refuted : exists name ty m h, fm_init Qops name ty (Some (-1)%Z) = Ok m /\
  fm_samples Qops (fm_run Qops no_pack (fun x => x) m h) = [] /\ length (added h) = 3.
Proof.
  exists "f"%string, "uint8_t"%string. eexists. exists [EAdd (SOne (VInt 1)); EAdd (SOne (VInt 2)); EAdd (SOne (VInt 3))].
  split; [reflexivity|]. vm_compute. split; reflexivity.
Qed.
Print Assumptions c21_negative_window_refuted.

Example c21_ex : exists m, fm_init Qops "f" "uint8_t" (Some 3%Z) = Ok m /\
  fm_samples Qops (fm_run Qops no_pack (fun x => x) m [EAdd (SOne (VInt 1)); EMean; EAdd (SList [VInt 2; VInt 3; VInt 4]); EStd; EAdd (SOne (VInt 5))]) =
  [VInt 3; VInt 4; VInt 5].
Proof. eexists. split; [reflexivity|]. vm_compute. reflexivity. Qed.

(** C22.  Statistics are those of the stored samples, whatever the interleaving of additions and reads. *)
Theorem c22_statistics : forall pack erf name ty w m h xs, fm_init Rops name ty w = Ok m -> window_ok w ->
  windowed w (added h) <> [] -> Forall2 is_number (windowed w (added h)) xs ->
  let m' := fm_run Rops pack erf m h in
  value_of (fm_get_mean Rops m') = Ok (mean_of xs) /\ value_of (fm_get_std Rops m') = Ok (std_of xs) /\
  value_of (fm_bitwise_mean Rops pack m') = num2bits Rops pack (NNum (FO := Rops) (mean_of xs)) ty.
Proof.
  intros pack erf name ty w m h xs I W N H m'. destruct (history_stats pack erf name ty w m h I W) as (A & B & C & _).
  rewrite (stats_R _ _ N H) in A, B, C. auto.
Qed.
Print Assumptions c22_statistics.

(** Without samples both are 0. *)
Theorem c22_no_samples : forall pack erf name ty w m h, fm_init Rops name ty w = Ok m -> window_ok w -> added h = [] ->
  let m' := fm_run Rops pack erf m h in
  value_of (fm_get_mean Rops m') = Ok 0%R /\ value_of (fm_get_std Rops m') = Ok 0%R.
Proof.
  intros pack erf name ty w m h I W N m'. destruct (history_stats pack erf name ty w m h I W) as (A & B & _).
  rewrite N, windowed_nil_eq in A, B. auto.
Qed.
Print Assumptions c22_no_samples.

(** One sample that is not a finite number makes every read raise. *)
Theorem c22_bad_sample : forall pack erf name ty w m h pre v post xs, fm_init Rops name ty w = Ok m -> window_ok w ->
  windowed w (added h) = pre ++ v :: post -> Forall2 is_number pre xs ->
  let m' := fm_run Rops pack erf m h in
  (forall p, v = VF32 p -> f32_finite p = false -> value_of (fm_get_mean Rops m') = Err ValueError /\ value_of (fm_get_std Rops m') = Err ValueError) /\
  (forall b, v = VBytes b -> value_of (fm_get_mean Rops m') = Err TypeError /\ value_of (fm_get_std Rops m') = Err TypeError).
Proof.
  intros pack erf name ty w m h pre v post xs I W E H m'. destruct (history_stats pack erf name ty w m h I W) as (A & B & _).
  rewrite E in A, B. destruct (stats_err pre v post xs H) as [S1 S2].
  split; [intros p E1 F; rewrite (S1 p E1 F) in A, B|intros b E1; rewrite (S2 b E1) in A, B]; auto.
Qed.
Print Assumptions c22_bad_sample.

(** Every list of samples is covered by the three cases. *)
Theorem c22_cases : forall l, (exists xs, Forall2 is_number l xs) \/
  (exists pre xs v t, l = pre ++ v :: t /\ Forall2 is_number pre xs /\ ~ exists x, is_number v x).
Proof. exact numbers_or_first. Qed.
Print Assumptions c22_cases.

(** With a negative window the statistics can be stale: no sample is stored, the mean is that of forgotten samples. *)
Theorem c22_negative_window_refuted : exists name ty w m h, fm_init Qops name ty (Some w) = Ok m /\
  fm_samples Qops (fm_run Qops no_pack (fun x => x) m h) = [] /\
  value_of (fm_get_mean Qops (fm_run Qops no_pack (fun x => x) m h)) = Ok (5 # 1)%Q.
Proof.
  exists "f"%string, "uint8_t"%string, (-2)%Z. eexists. exists [EAdd (SList [VInt 5; VInt 5; VInt 5]); EMean; EAdd (SOne (VInt 7))].
  split; [reflexivity|]. vm_compute. split; reflexivity.
Qed.
Print Assumptions c22_negative_window_refuted.

Example c22_ex : exists m, fm_init Qops "f" "uint8_t" (Some 2%Z) = Ok m /\
  value_of (fm_get_mean Qops (fm_run Qops no_pack (fun x => x) m [EAdd (SOne (VInt 1)); EMean; EAdd (SList [VInt 2; VInt 6])])) = Ok (4 # 1)%Q /\
  value_of (fm_get_std Qops (fm_run Qops no_pack (fun x => x) m [EAdd (SOne (VInt 1)); EMean; EAdd (SList [VInt 2; VInt 6])])) = Ok (2 # 1)%Q.
Proof. eexists. split; [reflexivity|]. vm_compute. split; reflexivity. Qed.
Example c22_ex_numbers : Forall2 is_number (windowed (Some 2%Z) (added [EAdd (SOne (VInt 1)); EMean; EAdd (SList [VInt 2; VInt 6])])) [2; 6]%R.
Proof. cbn. repeat constructor. Qed.

(** C23.  classify_value on a number. *)
Theorem c23_classify : forall pack erf name ty w m h xs, fm_init Rops name ty w = Ok m -> window_ok w -> erf_like erf ->
  windowed w (added h) <> [] -> Forall2 is_number (windowed w (added h)) xs ->
  exists f : R -> R,
    (forall v y, is_number v y -> value_of (fm_classify_value Rops erf (fm_run Rops pack erf m h) v) = Ok (f y, std_of xs)) /\
    (forall y, 0 <= f y <= 1)%R /\ f (mean_of xs) = 1%R /\
    (forall y y', (Rabs (y - mean_of xs) <= Rabs (y' - mean_of xs))%R -> (f y' <= f y)%R) /\
    ((forall x x', In x xs -> In x' xs -> x = x') -> std_of xs = 0%R /\ forall y, f y = if Req_EM_T y (mean_of xs) then 1%R else 0%R) /\
    ((exists x x', In x xs /\ In x' xs /\ x <> x') -> (0 < std_of xs)%R /\ forall y, f y = (1 - erf (Rabs (mean_of xs - y) / std_of xs / sqrt 2))%R).
Proof.
  intros pack erf name ty w m h xs I W E N H.
  destruct (history_stats pack erf name ty w m h I W) as (_ & _ & _ & C).
  destruct (score_facts erf (mean_of xs) (std_of xs) E (std_nonneg xs)) as (F1 & F2 & F3 & F4).
  assert (NX : xs <> []) by (intros ->; inversion H as [K|]; congruence).
  exists (score erf (mean_of xs) (std_of xs)). split; [|split; [exact F1|split; [exact F2|split; [exact F3|]]]].
  - intros v y V. rewrite C, (stats_R _ _ N H). cbn [bind]. apply verdict_R; [exact V|apply std_nonneg].
  - split.
    + intros K. assert (Z : std_of xs = 0%R) by (apply std_zero; auto). split; [exact Z|]. intros y.
      destruct (Req_EM_T y (mean_of xs)) as [->|Q]; [exact F2|apply F4; auto].
    + intros (x & x' & Ix & Ix' & D). assert (P : (0 < std_of xs)%R).
      { pose proof (std_nonneg xs) as P. destruct P as [P|P]; [exact P|]. exfalso. apply D. apply (proj1 (std_zero xs NX)); auto. }
      split; [exact P|]. intros y. unfold score. destruct (Rleb (std_of xs) 0) eqn:L; [apply Rleb_spec in L; lra|reflexivity].
Qed.
Print Assumptions c23_classify.

(** Before any sample the field accepts exactly the value 0. *)
Theorem c23_no_samples : forall pack erf name ty w m h, fm_init Rops name ty w = Ok m -> window_ok w -> added h = [] ->
  forall v y, is_number v y -> value_of (fm_classify_value Rops erf (fm_run Rops pack erf m h) v) = Ok ((if Req_EM_T y 0 then 1 else 0)%R, 0%R).
Proof.
  intros pack erf name ty w m h I W N v y V. destruct (history_stats pack erf name ty w m h I W) as (_ & _ & _ & C).
  rewrite C, N, windowed_nil_eq. etransitivity; [exact (verdict_R erf 0%R 0%R v y V (Rle_refl 0))|]. unfold score.
  destruct (Rleb 0%R 0%R) eqn:L; [|apply Rleb_false in L; lra]. unfold Reqb. destruct (Req_EM_T y 0%R); reflexivity.
Qed.
Print Assumptions c23_no_samples.

(** A function as required of erf exists, and a field with two different samples. *)
Example c23_ex_erf : erf_like (fun x => Rmin x 1).
Proof.
  split; [apply Rmin_left; lra|]. split; [intros x y H; unfold Rmin; destruct (Rle_dec x 1), (Rle_dec y 1); lra|].
  intros x. unfold Rmin. destruct (Rle_dec x 1); lra.
Qed.
Example c23_ex : exists m, fm_init Qops "f" "uint8_t" None = Ok m /\
  let m' := fm_run Qops no_pack (fun x => x) m [EAdd (SList [VInt 2; VInt 6])] in
  value_of (fm_classify_value Qops (fun x => x) m' (VInt 4)) = Ok (1 # 1, 2 # 1)%Q /\
  value_of (fm_classify_value Qops (fun x => x) (fm_run Qops no_pack (fun x => x) m [EAdd (SList [VInt 2; VInt 2])]) (VInt 4)) = Ok (0 # 1, 0 # 1)%Q.
Proof. eexists. split; [reflexivity|]. vm_compute. split; reflexivity. Qed.

(** C24.  A BufferModel after any history of operations: the buffer count and the samples of every field. *)
Theorem c24_history : forall (FO : fops) pack erf w os m, window_ok w -> reachable FO pack erf w os m ->
  bm_size FO m = saturated w (accepted os) /\ NoDup (map fst (bm_models FO m)) /\
  forall nm, match bm_get FO m nm with
             | None => values_under nm (recorded os) = []
             | Some f => values_under nm (recorded os) <> [] /\ fm_samples FO f = windowed w (values_under nm (recorded os)) /\
                         fm_name FO f = nm /\ fm_window FO f = w /\
                         exists v ty t, under nm (recorded os) = (v, ty) :: t /\ fm_type FO f = ty
             end.
Proof. exact model_fields. Qed.
Print Assumptions c24_history.

(** Which additions are accepted; a rejected one leaves the model as it was. *)
Theorem c24_add_buffer : forall (FO : fops) pack erf w os m a s, window_ok w -> reachable FO pack erf w os m ->
  (forall b, holds a b -> Forall (plain_in (length b)) s -> snd (add_buffer FO m a s) = Ok tt) /\
  (forall b, holds a b -> ~ Forall (plain_in (length b)) s ->
     ((forall k i, In (k, i) s -> exists c, is_msg i c) -> add_buffer FO m a s = (m, Err StructError)) /\
     (~ (forall k i, In (k, i) s -> exists c, is_msg i c) -> add_buffer FO m a s = (m, Err KeyError))) /\
  (a = BOther -> add_buffer FO m a s = (m, Err ValueError)).
Proof. exact add_spec. Qed.
Print Assumptions c24_add_buffer.

(** Buffers with one structure: a field whose name occurs once holds one sample for each of the last buffers. *)
Theorem c24_one_structure : forall (FO : fops) pack erf w s sl nm x bs, window_ok w -> layout s sl ->
  filter (fun y => String.eqb (s_name y) nm) sl = [x] -> bs <> [] -> Forall (fun b => is_bytes b /\ Forall (plain_in (length b)) s) bs ->
  let m := bm_run FO pack erf (bm_init FO [] w) (map (fun b => VAdd (BBytes b) s) bs) in
  bm_size FO m = saturated w (length bs) /\
  exists f, bm_get FO m nm = Some f /\ fm_samples FO f = windowed w (map (fun b => slot_value b x) bs).
Proof. exact same_structure. Qed.
Print Assumptions c24_one_structure.

(** Shared names (magic, seq, srcSystem) get a sample per message: with window 2 both samples of seq are from the last buffer. *)
Definition two (q1 q2 : N) : bytes := (set_nth hb 2 q1 ++ set_nth hb 2 q2)%list.
Theorem c24_shared_names_refuted : exists w s b1 b2,
  let m := bm_run Qops no_pack (fun x => x) (bm_init Qops [] w) [VAdd (BBytes b1) s; VAdd (BBytes b2) s] in
  bm_size Qops m = 2%Z /\ option_map (fm_samples Qops) (bm_get Qops m "seq") = Some [VInt 3; VInt 4] /\
  nth 2 b1 0%N = 1%N /\ nth 2 b2 0%N = 3%N /\ nth 19 b2 0%N = 4%N.
Proof. exists (Some 2%Z), [(0, 0%N); (17, 0%N)], (two 1 2), (two 3 4). vm_compute. repeat split. Qed.
Print Assumptions c24_shared_names_refuted.

Example c24_ex : let s := [(0, 0%N); (17, 0%N)] in
  let m := bm_run Qops no_pack (fun x => x) (bm_init Qops [] (Some 3%Z))
             [VAdd (BBytes (two 1 2)) s; VAdd (BBits (bytes_bits (two 3 4))) s; VSave; VAdd (BBytes hb) s; VAdd BOther s; VAdd (BBytes (two 5 6)) s] in
  bm_size Qops m = 3%Z /\ option_map (fm_samples Qops) (bm_get Qops m "seq") = Some [VInt 4; VInt 5; VInt 6] /\
  option_map (fm_samples Qops) (bm_get Qops m "GPS_RAW_INT_lat") = None /\
  snd (add_buffer Qops m (BBytes hb) s) = Err StructError /\ snd (add_buffer Qops m (BBytes hb) [(0, 5000%N)]) = Err KeyError.
Proof. vm_compute. repeat split. Qed.

(** C25.  The bit map of a structure: it exists exactly for structures of array-free messages within the buffer, every bit is
    mapped to the last field covering it (-1 if none), and names and types are those of the fields. *)
Theorem c25_unpack_structure : forall n s r, unpack_structure true n s = Ok r <->
  Forall (plain_in n) s /\ exists sl, layout s sl /\
    (length (fst (fst r)) = 8 * n /\ forall p, p < 8 * n -> owner sl p (nth p (fst (fst r)) 0%Z)) /\
    snd (fst r) = map s_name sl /\ snd r = map s_type sl.
Proof. exact structure_iff. Qed.
Print Assumptions c25_unpack_structure.

(** Messages that do not overlap: the owner of a bit is the only field covering it. *)
Theorem c25_owner_disjoint : forall s sl j x p, layout s sl -> disjoint_structure s -> nth_error sl j = Some x ->
  (owner sl p (Z.of_nat j) <-> bit_in x p).
Proof. intros s sl j x p L D. apply owner_disjoint. exact (disjoint_slots s sl L D). Qed.
Print Assumptions c25_owner_disjoint.

(** The first message that is unknown, too long or has arrays decides the exception. *)
Theorem c25_unpack_structure_errors : forall n s1 k i s2, Forall (plain_in n) s1 -> ~ plain_in n (k, i) ->
  (~ (exists c, is_msg i c) -> unpack_structure true n (s1 ++ (k, i) :: s2) = Err KeyError) /\
  (forall c, is_msg i c -> no_arrays c -> unpack_structure true n (s1 ++ (k, i) :: s2) = Err ValueError) /\
  (forall c, is_msg i c -> ~ no_arrays c -> k + 6 + wire_size c <= n -> unpack_structure true n (s1 ++ (k, i) :: s2) = Err TypeError) /\
  (exists e, unpack_structure true n (s1 ++ (k, i) :: s2) = Err e).
Proof. exact structure_first_err. Qed.
Print Assumptions c25_unpack_structure_errors.

Theorem c25_names_only : forall n s, (forall sl, layout s sl -> unpack_structure false n s = Ok ([], map s_name sl, map s_type sl)) /\
  (~ (exists sl, layout s sl) -> unpack_structure false n s = Err KeyError).
Proof. intros n s. split; [intros sl; apply names_ok|apply names_err]. Qed.
Print Assumptions c25_names_only.

Example c25_ex : match unpack_structure true 20 [(3, 0%N)] with
  | Ok (bits, names, types) =>
      nth 23 bits 0%Z = (-1)%Z /\ nth 24 bits 0%Z = 0%Z /\ nth 73 bits 0%Z = 6%Z /\ nth 103 bits 0%Z = 6%Z /\ nth 104 bits 0%Z = 7%Z /\
      nth 144 bits 0%Z = (-1)%Z /\ nth 6 names ""%string = "HEARTBEAT_custom_mode"%string /\ nth 6 types ""%string = "uint32_t"%string
  | Err _ => False
  end /\ unpack_structure true 17 [(3, 0%N)] = Err ValueError.
Proof. vm_compute. repeat split. Qed.

(** C26.  unpack_values: the wire values of the fields, in the order of unpack_structure. *)
Theorem c26_unpack_values : forall b s r, is_bytes b ->
  (unpack_values (BBytes b) s = Ok r <-> Forall (plain_in (length b)) s /\ exists sl, layout s sl /\ r = map (slot_value b) sl).
Proof. exact values_iff. Qed.
Print Assumptions c26_unpack_values.

Theorem c26_bits_agree : forall l b s, holds (BBits l) b -> unpack_values (BBits l) s = unpack_values (BBytes b) s.
Proof. intros l b s H. apply (holds_facts _ _ H). Qed.
Print Assumptions c26_bits_agree.

Theorem c26_unpack_values_errors : forall b s1 k i s2, is_bytes b -> Forall (plain_in (length b)) s1 -> ~ plain_in (length b) (k, i) ->
  unpack_values (BBytes b) (s1 ++ (k, i) :: s2) =
  Err (if (Nat.leb (k + 6) (length b)) then if get_class i then StructError else KeyError else StructError).
Proof. exact values_first_err. Qed.
Print Assumptions c26_unpack_values_errors.

Example c26_ex : unpack_values (BBytes (9 :: hb)%N) [(1, 0%N)] = Ok (map VInt [254; 9; 17; 1; 1; 0; 5; 2; 3; 81; 4; 3]%Z) /\
  unpack_values (BBits (bytes_bits (9 :: hb)%N)) [(1, 0%N)] = Ok (map VInt [254; 9; 17; 1; 1; 0; 5; 2; 3; 81; 4; 3]%Z) /\
  unpack_values (BBytes (firstn 14 hb)) [(0, 0%N)] = Err StructError /\ unpack_values BOther [] = Err ValueError.
Proof. vm_compute. repeat split. Qed.

(** C27.  predict on a reachable model. *)
Theorem c27_predict : forall (FO : fops) pack erf w os m a b s sl, window_ok w -> reachable FO pack erf w os m -> holds a b ->
  Forall (plain_in (length b)) s -> layout s sl ->
  match map_res (fun x => field_entry FO erf m (s_name x, slot_value b x)) sl with
  | Err e => predict FO erf m a s = Err e
  | Ok es => exists m' vf vb sd, predict FO erf m a s = Ok (m', vf, vb, sd) /\
      length es = length sl /\ length vb = 8 * length b /\ length sd = 8 * length b /\
      vf = map (fun xe => match snd xe with Some r => Some (s_name (fst xe), fst r, snd r) | None => None end) (combine sl es) /\
      (forall p q, p < 8 * length b -> owner sl p q ->
         nth p vb None = (if (q <? 0)%Z then None else option_map fst (nth (Z.to_nat q) es None)) /\
         nth p sd None = (if (q <? 0)%Z then None else option_map snd (nth (Z.to_nat q) es None)))
  end.
Proof. exact predict_reach. Qed.
Print Assumptions c27_predict.

Theorem c27_predict_rejects : forall (FO : fops) erf m a b s, holds a b -> ~ Forall (plain_in (length b)) s -> exists e, predict FO erf m a s = Err e.
Proof. exact predict_rejects. Qed.
Print Assumptions c27_predict_rejects.

Example c27_ex : let s := [(0, 0%N)] in
  let m := bm_run Qops no_pack (fun x => x) (bm_init Qops [] None) [VAdd (BBytes (hb ++ [0%N])) s] in
  match predict Qops (fun x => x) m (BBytes (set_nth (hb ++ [0%N]) 6 77%N)) s with
  | Ok (m', vf, vb, sd) =>
    nth 5 vf None = Some ("HEARTBEAT_msgId"%string, (1 # 1)%Q, (0 # 1)%Q) /\ nth 6 vf None = Some ("HEARTBEAT_custom_mode"%string, (0 # 1)%Q, (0 # 1)%Q) /\
    nth 40 vb None = Some (1 # 1)%Q /\ nth 50 vb None = Some (0 # 1)%Q /\ nth 120 vb None = None /\ length vb = 144
  | Err _ => False
  end.
Proof. vm_compute. repeat split. Qed.

(** C28.  find_damaged_fields: errors sorted by position, each contributing the field that owns the bit. *)
Theorem c28_find_damaged_fields : forall errors s n sl, Forall (plain_in n) s -> layout s sl ->
  (Forall (fun e => (- (8 * Z.of_nat n) <= e)%Z) errors ->
     exists es ls, Permutation es errors /\ Sorted Z.le es /\ Forall2 (damage n sl) es ls /\
       find_damaged_fields errors s n = Ok (Some (concat ls))) /\
  (Exists (fun e => (e < - (8 * Z.of_nat n))%Z) errors -> find_damaged_fields errors s n = Ok None).
Proof. exact find_spec. Qed.
Print Assumptions c28_find_damaged_fields.

Example c28_ex : find_damaged_fields [130; 55; 48; 2; 500; -1; 2]%Z [(0, 0%N)] 17 =
  Ok (Some [("magic"%string, 0); ("magic"%string, 0); ("HEARTBEAT_custom_mode"%string, 6); ("HEARTBEAT_custom_mode"%string, 6)]) /\
  find_damaged_fields [-200]%Z [(0, 0%N)] 17 = Ok None.
Proof. vm_compute. split; reflexivity. Qed.

(** C29.  bitwise_model_mean: an [n] byte picture whose field bits are those of the field means, 0 outside all fields; the
    requested positions are read from it. *)
Theorem c29_mean : forall (FO : fops) pack erf w os m idx n s sl, window_ok w -> reachable FO pack erf w os m -> Forall (plain_in n) s ->
  disjoint_structure s -> layout s sl ->
  match map_res (field_mean_bits FO pack m) sl with
  | Err e => bitwise_model_mean FO pack m idx n s = Err e
  | Ok bs => length bs = length sl /\ exists picture, length picture = 8 * n /\
      value_of (bitwise_model_mean FO pack m idx n s) = map_res (index_z picture) idx /\
      forall p, p < 8 * n ->
        (forall j x, nth_error sl j = Some x -> bit_in x p -> nth p picture false = nth (p - 8 * s_first x) (nth j bs []) false) /\
        ((forall x, In x sl -> ~ bit_in x p) -> nth p picture false = false)
  end.
Proof. exact mean_reach. Qed.
Print Assumptions c29_mean.

(** When all stored samples of an integer field equal the value the field has in a buffer [b], its bits are those of [b]. *)
Theorem c29_equal_samples : forall pack erf w os m idx n s sl j x b p z bit, window_ok w -> reachable Rops pack erf w os m ->
  Forall (plain_in n) s -> disjoint_structure s -> layout s sl -> nth_error sl j = Some x -> bit_in x p ->
  is_bytes b -> length b = n -> integer_type (s_type x) (s_width x) -> slot_value b x = VInt z ->
  values_under (s_name x) (recorded os) <> [] -> Forall (fun v => v = VInt z) (windowed w (values_under (s_name x) (recorded os))) ->
  nth_error idx bit = Some (Z.of_nat p) ->
  forall r, value_of (bitwise_model_mean Rops pack m idx n s) = Ok r -> nth_error r bit = Some (bit_of b p).
Proof. exact equal_samples_bit. Qed.
Print Assumptions c29_equal_samples.

Example c29_ex : let s := [(1, 0%N)] in
  let m := bm_run Qops no_pack (fun x => x) (bm_init Qops [] None) [VAdd (BBytes (255%N :: hb)) s; VAdd (BBytes (255%N :: set_nth hb 2 19%N)) s] in
  value_of (bitwise_model_mean Qops no_pack m (map Z.of_nat (seq 0 144)) 18 s) =
  Ok (bytes_bits ([0; 254; 9; 18; 1; 1; 0; 5; 0; 0; 0; 2; 3; 81; 4; 3; 0; 0]%N)).
Proof. vm_compute. reflexivity. Qed.

(** C30.  save, then load. *)
Theorem c30_save_load : forall (FO : fops) pack erf w h os m1 doc, window_ok w -> Forall2 outcome h os -> Forall written_event h ->
  let m := bm_run FO pack erf (bm_init FO [] w) h in
  save FO m = Ok (m1, doc) ->
  exists m2, load FO doc = Ok m2 /\ bm_window FO m2 = bm_window FO m /\ bm_size FO m2 = bm_size FO m /\
    bm_descr FO m2 = bm_descr FO m /\ bm_ordered FO m2 = bm_ordered FO m /\
    Permutation (bm_models FO m2) (bm_models FO m1) /\ Sorted (fun x y => String.leb (fst x) (fst y) = true) (bm_models FO m2) /\
    (forall nm, match bm_get FO m nm, bm_get FO m2 nm with
                | None, None => True
                | Some f, Some f' => fm_name FO f' = fm_name FO f /\ fm_type FO f' = fm_type FO f /\ fm_window FO f' = fm_window FO f /\
                                     fm_samples FO f' = fm_samples FO f
                | _, _ => False
                end) /\
    forall a s, results_of (predict FO erf m2 a s) = results_of (predict FO erf m a s).
Proof. exact save_load_reach. Qed.
Print Assumptions c30_save_load.

(** save fails exactly when some field has a sample that is no finite number. *)
Theorem c30_save_works : forall (FO : fops) pack erf w os m, window_ok w -> reachable FO pack erf w os m ->
  ((exists r, save FO m = Ok r) <-> forall nm, exists st, stats_of FO (windowed w (values_under nm (recorded os))) = Ok st).
Proof. exact save_works. Qed.
Print Assumptions c30_save_works.

(** A description holding another string does not survive: "00" comes back as a header, "x" cannot be loaded. *)
Definition saved_and_loaded (m : buffer_model Qops) : res (buffer_model Qops) := do! r <- save Qops m in load Qops (snd r).
Theorem c30_foreign_description_refuted :
  (do! m <- saved_and_loaded (bm_set_description Qops (bm_init Qops [] None) [BStr "00"]) in Ok (bm_descr Qops m)) = Ok (Some [BHeader [0%N]]) /\
  (do! m <- saved_and_loaded (bm_set_description Qops (bm_init Qops [] None) [BStr "x"]) in Ok (bm_descr Qops m)) = Err ValueError.
Proof. vm_compute. split; reflexivity. Qed.
Print Assumptions c30_foreign_description_refuted.

Example c30_ex :
  let m := bm_run Qops no_pack (fun x => x) (bm_init Qops [] (Some 4%Z))
    [VAdd (BBytes hb) [(0, 0%N)]; VDescribe [BHeader (firstn 6 hb); BField "HEARTBEAT_type" "uint8_t"; BStr "crc"]] in
  match saved_and_loaded m with
  | Ok m2 => bm_size Qops m2 = 1%Z /\ bm_window Qops m2 = Some 4%Z /\
      bm_descr Qops m2 = Some [BHeader (firstn 6 hb); BField "HEARTBEAT_type" "uint8_t"; BStr "crc"] /\
      map fst (bm_models Qops m) <> map fst (bm_models Qops m2) /\
      option_map (fm_samples Qops) (bm_get Qops m2 "HEARTBEAT_custom_mode") = Some [VInt 5]
  | Err _ => False
  end.
Proof. vm_compute. repeat split. discriminate. Qed.
