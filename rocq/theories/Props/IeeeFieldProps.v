(** Models of fields in double precision (C108). *)
From Coq Require Import String Ascii List NArith ZArith Reals Bool Lia Lra.
From Flocq Require Import Core IEEE754.BinarySingleNaN.
From Verif.Model Require Import Py Float Dialect ProtocolMeta Struct Mavlink Segmentation StatModels.
From Verif.Spec Require Import Bytes Bits Header Frame Segment Describe RealOps Stats IeeeOps IeeeStatSpec IeeeFieldSpec.
From Verif.Proofs Require Import StatP IeeeP IeeeFitP IeeeFieldP IeeeFieldQ.
Import ListNotations.
Open Scope R_scope.

(** C108.  classify_value after any history: a plausibility in [0, 1] that does not grow with the distance from the mean, 1 at the mean; with
    deviation 0 it is 0 elsewhere, otherwise it is made from the error function with one rounding per operation. *)
Theorem c108_classify : forall (l : libm) pack erf name ty w m h, fm_init (Bops l) name ty w = Ok m -> window_ok w -> erf64_like erf ->
  windowed w (added h) <> [] -> Forall held (windowed w (added h)) -> (Z.of_nat (length (windowed w (added h))) <= 2 ^ 40)%Z ->
  let m' := fm_run (Bops l) pack erf m h in
  exists mu sd : b64, value_of (fm_get_mean (Bops l) m') = Ok mu /\ value_of (fm_get_std (Bops l) m') = Ok sd /\ fin mu /\ fin sd /\ 0 <= val sd /\
    exists plausibility : pyval -> b64,
      (forall v, held v -> exists s : b64, value_of (fm_classify_value (Bops l) erf m' v) = Ok (plausibility v, s) /\ fin s /\ val s = val sd /\
        fin (plausibility v) /\ 0 <= val (plausibility v) <= 1 /\ (number v = val mu -> val (plausibility v) = 1) /\
        (val sd = 0 -> number v <> val mu -> val (plausibility v) = 0) /\
        (0 < val sd -> exists q : b64, fin q /\ val q = distance64 (val mu) (val sd) (number v) /\ val (plausibility v) = rnd (1 - val (erf q)))) /\
      (forall v v', held v -> held v' -> Rabs (val mu - number v) <= Rabs (val mu - number v') -> val (plausibility v') <= val (plausibility v)).
Proof. exact classify64. Qed.
Print Assumptions c108_classify.

(** The bits of the mean of an integer field are those of the exact mean rounded to a whole number, as long as the number of samples times the
    largest size is below 2^52. *)
Theorem c108_bits : forall (l : libm) pack erf name ty sz w m h zs top, fm_init (Bops l) name ty w = Ok m -> window_ok w -> integer_type ty sz ->
  windowed w (added h) = map VInt zs -> zs <> [] -> Forall (fun z => c_ok ty (VInt z)) zs -> Forall (fun z => Z.abs z <= top)%Z zs ->
  (Z.of_nat (length zs) * top < 2 ^ 52)%Z -> (Z.of_nat (length zs) <= 2 ^ 53)%Z ->
  exists z bits, rounds_to (exact_mean zs) z /\ value_of (fm_bitwise_mean (Bops l) pack (fm_run (Bops l) pack erf m h)) = Ok bits /\ bits_of_value ty (VInt z) bits.
Proof. exact mean_bits_exact. Qed.
Print Assumptions c108_bits.

(** Larger numbers: the whole number that is encoded lies between any two multiples of a power of 2 that enclose the samples and whose multiples by
    the number of samples are doubles; in particular struct.pack accepts it. *)
Theorem c108_between : forall (l : libm) pack erf name ty sz w m h zs a b e, fm_init (Bops l) name ty w = Ok m -> window_ok w -> integer_type ty sz ->
  windowed w (added h) = map VInt zs -> zs <> [] -> (0 <= e <= 900)%Z -> Forall (fun z => a * 2 ^ e <= z <= b * 2 ^ e)%Z zs ->
  c_ok ty (VInt (a * 2 ^ e)) -> c_ok ty (VInt (b * 2 ^ e)) ->
  (Z.of_nat (length zs) <= 2 ^ 53)%Z -> (Z.of_nat (length zs) * Z.abs a <= 2 ^ 53)%Z -> (Z.of_nat (length zs) * Z.abs b <= 2 ^ 53)%Z ->
  exists z bits, (a * 2 ^ e <= z <= b * 2 ^ e)%Z /\ value_of (fm_bitwise_mean (Bops l) pack (fm_run (Bops l) pack erf m h)) = Ok bits /\ bits_of_value ty (VInt z) bits.
Proof. exact mean_bits_between. Qed.
Print Assumptions c108_between.

(** The largest values of the 64 bit types have no such multiples: a field that held one has no bits, struct.pack raises. *)
Theorem c108_largest_refuted : forall (l : libm) pack erf,
  (exists m, fm_init (Bops l) "f" "uint64_t" None = Ok m /\ c_ok "uint64_t" (VInt (2 ^ 64 - 1)) /\
    value_of (fm_bitwise_mean (Bops l) pack (fm_run (Bops l) pack erf m [EAdd (SOne (VInt (2 ^ 64 - 1)))])) = Err StructError) /\
  (exists m, fm_init (Bops l) "f" "int64_t" None = Ok m /\ c_ok "int64_t" (VInt (2 ^ 63 - 1)) /\
    value_of (fm_bitwise_mean (Bops l) pack (fm_run (Bops l) pack erf m [EAdd (SOne (VInt (2 ^ 63 - 1)))])) = Err StructError).
Proof.
  intros l pack erf. split; eexists; (split; [reflexivity|]); (split; [cbv; split; [discriminate|split; [discriminate|reflexivity]]|]); vm_compute; reflexivity.
Qed.
Print Assumptions c108_largest_refuted.

(** A constant field, whole numbers or singles, whose sum needs no rounding: its bits are those of the value, whose plausibility is 1; every
    other value has plausibility 0. *)
Theorem c108_constant : forall (l : libm) pack erf name ty w m h v, fm_init (Bops l) name ty w = Ok m -> window_ok w -> packs_singles pack -> field_number ty v -> held v ->
  windowed w (added h) <> [] -> Forall (fun x => x = v) (windowed w (added h)) -> summable v (length (windowed w (added h))) -> (Z.of_nat (length (windowed w (added h))) <= 2 ^ 53)%Z ->
  let m' := fm_run (Bops l) pack erf m h in
  (exists bits, value_of (fm_bitwise_mean (Bops l) pack m') = Ok bits /\ bits_of_value ty v bits) /\
  forall v', held v' -> exists p s : b64, value_of (fm_classify_value (Bops l) erf m' v') = Ok (p, s) /\ fin p /\ fin s /\ val s = 0 /\
    (number v' = number v -> val p = 1) /\ (number v' <> number v -> val p = 0).
Proof. exact constant64. Qed.
Print Assumptions c108_constant.

(** Otherwise the only value that a constant field ever had can be implausible: seven equal timestamps in microseconds. *)
Theorem c108_constant_refuted : exists z, (0 < z < 2 ^ 53)%Z /\ forall (l : libm) pack erf, erf64_like erf -> (forall x, fin x -> / 2 <= val x -> / 2 <= val (erf x)) ->
  exists (m : field_model (Bops l)) (p s : b64), fm_init (Bops l) "time_usec" "uint64_t" None = Ok m /\
    value_of (fm_classify_value (Bops l) erf (fm_run (Bops l) pack erf m [EAdd (SList (repeat (VInt z) 7))]) (VInt z)) = Ok (p, s) /\ 0 < val s /\ val p <= / 2.
Proof.
  exists 1670000000000001%Z. split; [lia|]. intros l pack erf EL Half.
  set (vs := repeat (VInt 1670000000000001) 7).
  assert (Cm : match norm_fit (Bops l) vs with
               | Ok (mu, sd) => is_finite mu && is_finite sd && Bltb (b64_z 0) sd &&
                   Bleb (b64_div (b64_z 1) (b64_z 2)) (b64_div (b64_div (Babs (b64_sub mu (b64_z 1670000000000001))) sd) (b64_sqrt (b64_z 2)))
               | Err _ => false end = true) by (vm_compute; reflexivity).
  assert (I : exists m, fm_init (Bops l) "time_usec" "uint64_t" None = Ok m) by (eexists; reflexivity). destruct I as [m I].
  assert (Wd : windowed None (added [EAdd (SList vs)]) = vs) by reflexivity.
  assert (Hh : Forall held vs) by (unfold vs; cbn [repeat]; repeat (apply Forall_cons; [cbn [held]; lia|]); apply Forall_nil).
  destruct (history_reads (Bops l) pack erf "time_usec" "uint64_t" None m [EAdd (SList vs)] I Logic.I) as (_ & _ & _ & C).
  assert (Nv : vs <> []) by discriminate. rewrite Wd in C.
  destruct (fit_parts l vs Hh Nv ltac:(cbn; lia)) as (mu & sd & Fit & Fm & Fs & Bm & Ps).
  rewrite Fit in Cm. apply andb_prop in Cm as [Cm C4]. apply andb_prop in Cm as [Cm C3].
  destruct (z_spec 0 ltac:(lia)) as [F0 V0]. apply (ltb_spec _ sd F0 Fs) in C3. rewrite V0 in C3.
  destruct Ps as [Z|Ps]; [lra|]. assert (Hv : held (VInt 1670000000000001)) by (cbn [held]; lia).
  destruct (verdict_pos l erf mu sd (VInt 1670000000000001) EL Fm Fs Bm Ps Hv) as (p & q & E & Fp & Fq & Pq & Vq & Vp & Rp).
  exists m, p, sd. split; [exact I|]. split; [rewrite C, (stats_cons (Bops l) vs Nv), Fit; exact E|]. split; [exact C3|].
  destruct (z_spec 1670000000000001 ltac:(lia)) as [Fz Vz].
  destruct (distance_spec mu sd (b64_z 1670000000000001) Fm Fs Fz Bm) as (Fq' & Vq' & _); [|exact Ps|].
  { rewrite Vz. destruct (held_value l (VInt 1670000000000001) Hv) as (_ & _ & _ & _ & Bx). exact Bx. }
  cbv zeta in Fq', Vq'. rewrite Vz in Vq'. cbn [number] in Vq.
  destruct (z_spec 1 ltac:(lia)) as [F1 V1]. destruct (z_spec 2 ltac:(lia)) as [F2 V2].
  assert (Hf : fin (b64_div (b64_z 1) (b64_z 2)) /\ val (b64_div (b64_z 1) (b64_z 2)) = / 2).
  { destruct (div_spec (b64_z 1) (b64_z 2) F1) as [A B]; [rewrite V2; lra|rewrite V1, V2, Rabs_pos_eq by lra; pose proof big_1; lra|]. split; [exact A|]. rewrite B, V1, V2.
    replace (1 / 2) with (IZR 1 * bpow radix2 (-1)) by (cbn; lra). rewrite rnd_id by (apply fmt_F2R; lia). cbn. lra. }
  destruct Hf as [Fh Vh]. apply (leb_spec _ _ Fh Fq') in C4. rewrite Vh, Vq', <- Vq in C4.
  pose proof (Half q Fq C4) as He. rewrite Vp. apply rnd_le'; [|lra]. replace (/ 2) with (IZR 1 * bpow radix2 (-1)) by (cbn; lra). apply fmt_F2R; lia.
Qed.
Print Assumptions c108_constant_refuted.

(** And its bits can be those of another value: five times 2^53 - 1. *)
Theorem c108_bits_refuted : exists z z', (0 < z < 2 ^ 53)%Z /\ z' <> z /\ forall (l : libm) pack erf, exists m bits, fm_init (Bops l) "f" "uint64_t" None = Ok m /\
  value_of (fm_bitwise_mean (Bops l) pack (fm_run (Bops l) pack erf m [EAdd (SList (repeat (VInt z) 5))])) = Ok bits /\ bits_of_value "uint64_t" (VInt z') bits.
Proof.
  exists 9007199254740991%Z, 9007199254740990%Z. split; [lia|]. split; [lia|]. intros l pack erf. eexists. exists (bytes_bits [254; 255; 255; 255; 255; 255; 31; 0]%N).
  split; [reflexivity|]. split; [vm_compute; reflexivity|]. exists [254; 255; 255; 255; 255; 255; 31; 0]%N. split; [repeat constructor|]. split; [reflexivity|]. split; [reflexivity|]. split; [reflexivity|].
  intros p Hp. change (8 * length [254; 255; 255; 255; 255; 255; 31; 0]%N)%nat with 64%nat in Hp. do 64 (destruct p as [|p]; [reflexivity|]). lia.
Qed.
Print Assumptions c108_bits_refuted.

(** The same for a buffer: in the prediction of bitwise_model_mean a constant field, whole numbers or singles, has the bits that it has in the
    buffers. *)
Theorem c108_equal_samples : forall (l : libm) pack erf w os m idx n s sl j x b p v bit, window_ok w -> reachable (Bops l) pack erf w os m -> packs_singles pack ->
  Forall (plain_in n) s -> disjoint_structure s -> layout s sl -> nth_error sl j = Some x -> bit_in x p ->
  is_bytes b -> length b = n -> s_width x = c_size (s_type x) -> slot_value b x = v -> field_number (s_type x) v -> held v ->
  values_under (s_name x) (recorded os) <> [] ->
  let vs := windowed w (values_under (s_name x) (recorded os)) in
  Forall (fun y => y = v) vs -> summable v (length vs) -> (Z.of_nat (length vs) <= 2 ^ 53)%Z ->
  nth_error idx bit = Some (Z.of_nat p) ->
  forall r, value_of (bitwise_model_mean (Bops l) pack m idx n s) = Ok r -> nth_error r bit = Some (bit_of b p).
Proof. exact equal_samples64. Qed.
Print Assumptions c108_equal_samples.

(** Functions as required of erf and struct.pack exist; samples that meet the hypotheses. *)
Example c108_ex_erf : erf64_like (fun x => if Bleb x (b64_z 1) then x else b64_z 1).
Proof.
  destruct (z_spec 1 ltac:(lia)) as [F1 V1]. split.
  - intros x Fx Px. destruct (Bleb x (b64_z 1)) eqn:L.
    + apply (leb_spec x _ Fx F1) in L. rewrite V1 in L. split; [exact Fx|]. split; [lra|auto].
    + split; [exact F1|]. rewrite V1. split; [lra|]. intro Z. rewrite (proj2 (leb_spec x _ Fx F1)) in L by (rewrite V1; lra). discriminate.
  - intros x y Fx Fy H. destruct (Bleb x (b64_z 1)) eqn:L, (Bleb y (b64_z 1)) eqn:L'.
    + apply H.
    + apply (leb_spec x _ Fx F1) in L. exact L.
    + apply (leb_spec y _ Fy F1) in L'. rewrite (proj2 (leb_spec x _ Fx F1)) in L by lra. discriminate.
    + lra.
Qed.
Example c108_ex_bits : forall l : libm, exists m bits, fm_init (Bops l) "lat" "int32_t" (Some 3%Z) = Ok m /\
  let h := [EAdd (SList [VInt 7; VInt 327951234; VInt 327951236; VInt 327951236])] in
  windowed (Some 3%Z) (added h) = map VInt [327951234; 327951236; 327951236]%Z /\
  value_of (fm_bitwise_mean (Bops l) (fun _ => Err StructError) (fm_run (Bops l) (fun _ => Err StructError) (fun x => x) m h)) = Ok bits /\
  bits = bytes_bits [131; 35; 140; 19]%N /\ rounds_to (exact_mean [327951234; 327951236; 327951236]%Z) 327951235.
Proof.
  intro l. eexists. eexists. split; [reflexivity|]. cbv zeta. split; [reflexivity|]. split; [vm_compute; reflexivity|]. split; [reflexivity|].
  left. unfold exact_mean. change (total [327951234; 327951236; 327951236]%Z) with 983853706%Z. change (Z.of_nat (length [327951234; 327951236; 327951236]%Z)) with 3%Z. apply Rabs_def1; lra.
Qed.
Example c108_ex_constant : field_number "uint32_t" (VInt 1530000000) /\ field_number "float" (VF32 1065353216) /\ summable (VF32 1065353216) 500 /\ held (VF32 1065353216).
Proof.
  split; [split; [exists 4%nat; eexists; split; [constructor|split; discriminate]|cbv; split; [discriminate|split; [discriminate|reflexivity]]]|].
  split; [|split; [cbn [summable]; lia|reflexivity]]. split; [reflexivity|]. split; [reflexivity|]. split; [reflexivity|].
  change (f32_real 1065353216) with (number (VF32 1065353216)). rewrite number_f32.
  change (f32_sign 1065353216 * f32_mant 1065353216)%Z with 8388608%Z. change (f32_scale 1065353216) with (-23)%Z. change (bpow radix2 (-23)) with (/ 8388608). lra.
Qed.
Example c108_ex_between : Forall (fun z => 3261718 * 2 ^ 29 <= z <= 3261719 * 2 ^ 29)%Z [1751121600000000; 1751121700000123]%Z.
Proof. repeat (apply Forall_cons; [lia|]). apply Forall_nil. Qed.
Example c108_ex_pack : exists pack, packs_singles pack.
Proof. exact packs_exist. Qed.
