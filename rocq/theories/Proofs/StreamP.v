(** The stream parser of class MAVLink. *)
From Coq Require Import List NArith Arith Bool Lia.
From Verif.Model Require Import Py Parser.
From Verif.Spec Require Import Bytes StreamSpec.
From Verif.Proofs Require Import FieldsP.
Import ListNotations.

Lemma v1_eqb b : is_v1 b = true <-> b = 254%N.
Proof. unfold is_v1. apply N.eqb_eq. Qed.
Lemma v2_eqb b : is_v2 b = true <-> b = 253%N.
Proof. unfold is_v2. apply N.eqb_eq. Qed.
Lemma marker_spec b : (negb (is_v1 b) && negb (is_v2 b))%bool = false <-> marker b.
Proof.
  unfold marker. rewrite <- v1_eqb, <- v2_eqb. destruct (is_v1 b), (is_v2 b); cbn; split; intros; auto; try discriminate.
  destruct H; discriminate.
Qed.
Lemma marker_spec' b : (negb (is_v1 b) && negb (is_v2 b))%bool = true <-> ~ marker b.
Proof. rewrite <- marker_spec. destruct (_ && _)%bool; split; congruence. Qed.

Lemma land1_odd n : N.eqb (N.land n 1) 0 = negb (N.odd n).
Proof. destruct n as [|[p|p|]]; reflexivity. Qed.

Lemma announced_size magic len flags :
  marker magic -> announced (if is_v2 magic then 10 else 6) magic len flags = frame_size magic len flags.
Proof.
  intros [->| ->]; unfold announced, frame_size, is_v2; rewrite land1_odd.
  - replace (254 =? 253)%N with false by reflexivity. replace (254 =? 254)%N with true by reflexivity.
    cbn [andb]. cbn [Nat.add]. rewrite !Nat.add_0_r. lia.
  - replace (253 =? 253)%N with true by reflexivity. replace (253 =? 254)%N with false by reflexivity.
    cbn [andb]. rewrite negb_involutive. destruct (N.odd flags); lia.
Qed.

Lemma frame_size_min magic len flags : 8 <= frame_size magic len flags.
Proof. unfold frame_size. destruct (_ =? _)%N, (N.odd flags); lia. Qed.

Lemma land254 n : (n < 256)%N -> negb (N.eqb (N.land n 254) 0) = N.ltb 1 n.
Proof.
  intros H.
  assert (E : forallb (fun i => Bool.eqb (negb (N.eqb (N.land (N.of_nat i) 254) 0)) (N.ltb 1 (N.of_nat i))) (seq 0 256) = true) by (vm_compute; reflexivity).
  rewrite forallb_forall in E. specialize (E (N.to_nat n)). rewrite N2Nat.id in E.
  apply Bool.eqb_prop, E, in_seq. lia.
Qed.

Section Streams.
Context {D M : Type}.
Variable decode : D -> bytes -> D * res M.

(** The attributes are consistent. *)
Definition sound (p : parser D) : Prop := p_index p <= length (p_buf p) /\ 8 <= p_expected p.

Lemma pending_length (p : parser D) : length (pending p) = buf_len p.
Proof. unfold pending, buf_len. apply skipn_length. Qed.

Lemma new_sound robust d : sound (parser_new robust d).
Proof. split; cbn; lia. Qed.

(** The bytes are appended. *)
Definition received (p : parser D) (c : bytes) : parser D :=
  Parser (p_buf p ++ c) (p_index p) (p_expected p) (p_prefix_error p) (p_robust p) (p_packets p) (p_bytes p + length c) (p_errors p) (p_decoder p).
Lemma received_pending p c : sound p -> pending (received p c) = pending p ++ c.
Proof.
  intros [H _]. unfold pending, received. cbn [p_buf p_index]. rewrite skipn_app.
  replace (p_index p - length (p_buf p)) with 0 by lia. reflexivity.
Qed.
Lemma received_sound p c : sound p -> sound (received p c).
Proof. intros [H H']. split; cbn; rewrite ?app_length; lia. Qed.

(** What one round leaves behind: the pending bytes, the flag, the counters. *)
Lemma legacy_noise p b t :
  sound p -> pending p = b :: t -> ~ marker b ->
  exists p', parse_legacy decode p = (p', if p_robust p then Ok (Some (BadData [b])) else if p_prefix_error p then Ok None else Err MAVError)
    /\ sound p' /\ pending p' = t /\ p_robust p' = p_robust p /\ p_decoder p' = p_decoder p /\ p_packets p' = p_packets p /\ p_bytes p' = p_bytes p
    /\ p_errors p' = (if (p_robust p || negb (p_prefix_error p))%bool then S (p_errors p) else p_errors p)
    /\ p_prefix_error p' = (if p_robust p then p_prefix_error p else true)
    /\ p_expected p' = (if p_robust p then 8 else p_expected p) /\ p_buf p' = p_buf p.
Proof.
  intros [Hi He] Hp Hm. unfold parse_legacy. rewrite Hp. rewrite (proj2 (marker_spec' b) Hm).
  assert (Hv : is_v2 b = false). { destruct (is_v2 b) eqn:E; [|reflexivity]. apply v2_eqb in E. exfalso. apply Hm. right. exact E. }
  assert (Ht : t = skipn (S (p_index p)) (p_buf p)).
  { unfold pending in Hp. replace (S (p_index p)) with (1 + p_index p) by reflexivity.
    rewrite <- skipn_skipn, Hp. reflexivity. }
  assert (Hl : S (p_index p) <= length (p_buf p)).
  { pose proof (f_equal (@length N) Hp) as L. rewrite pending_length in L. unfold buf_len in L. cbn in L. lia. }
  rewrite Hv.
  destruct (p_robust p) eqn:Er.
  - eexists. split; [reflexivity|]. unfold sound, pending. cbn [p_buf p_index p_expected p_robust p_decoder p_packets p_bytes p_errors p_prefix_error].
    rewrite <- Ht. cbn. repeat split; auto; lia.
  - destruct (p_prefix_error p) eqn:Ef.
    + eexists. split; [reflexivity|]. unfold sound, pending. cbn [p_buf p_index p_expected p_robust p_decoder p_packets p_bytes p_errors p_prefix_error].
      rewrite <- Ht. cbn. repeat split; auto; lia.
    + eexists. split; [reflexivity|]. unfold sound, pending. cbn [p_buf p_index p_expected p_robust p_decoder p_packets p_bytes p_errors p_prefix_error].
      rewrite <- Ht. cbn. repeat split; auto; lia.
Qed.

Lemma legacy_unfinished p :
  sound p -> unfinished (pending p) ->
  exists p', parse_legacy decode p = (p', Ok None)
    /\ sound p' /\ pending p' = pending p /\ p_robust p' = p_robust p /\ p_decoder p' = p_decoder p /\ p_packets p' = p_packets p /\ p_bytes p' = p_bytes p
    /\ p_errors p' = p_errors p /\ p_prefix_error p' = false /\ p_buf p' = p_buf p /\ p_index p' = p_index p
    /\ (forall magic len flags t, pending p = magic :: len :: flags :: t -> p_expected p' = frame_size magic len flags)
    /\ (length (pending p) < 3 -> p_expected p' = p_expected p).
Proof.
  intros [Hi He] H. unfold parse_legacy. destruct (pending p) as [|magic t] eqn:Hp.
  - eexists. split; [reflexivity|]. unfold sound, pending in *. cbn [p_buf p_index p_expected p_robust p_decoder p_packets p_bytes p_errors p_prefix_error].
    rewrite Hp. repeat split; auto. intros; discriminate.
  - destruct H as [H|(magic' & t' & E & Hm & Hlen)]; [discriminate|]. injection E as <- <-.
    rewrite (proj2 (marker_spec magic) Hm).
    pose proof (f_equal (@length N) Hp) as L. rewrite pending_length in L. unfold buf_len in L.
    destruct t as [|len [|flags t]].
    + unfold buf_len. cbn [p_buf p_index p_expected]. cbn in L.
      replace (Nat.leb (p_expected p) (length (p_buf p) - p_index p)) with false by (symmetry; apply Nat.leb_gt; lia).
      rewrite andb_false_r. eexists. split; [reflexivity|].
      unfold sound, pending in *. cbn [p_buf p_index p_expected p_robust p_decoder p_packets p_bytes p_errors p_prefix_error]. rewrite Hp.
      repeat split; auto. intros; discriminate.
    + unfold buf_len. cbn [p_buf p_index p_expected]. cbn in L.
      replace (Nat.leb (p_expected p) (length (p_buf p) - p_index p)) with false by (symmetry; apply Nat.leb_gt; lia).
      rewrite andb_false_r. eexists. split; [reflexivity|].
      unfold sound, pending in *. cbn [p_buf p_index p_expected p_robust p_decoder p_packets p_bytes p_errors p_prefix_error]. rewrite Hp.
      repeat split; auto. intros; discriminate.
    + cbv zeta. rewrite announced_size by exact Hm. specialize (Hlen len flags t eq_refl).
      unfold buf_len. cbn [p_buf p_index p_expected]. rewrite L.
      replace (Nat.leb (frame_size magic len flags) (length (magic :: len :: flags :: t))) with false by (symmetry; apply Nat.leb_gt; exact Hlen).
      rewrite andb_false_r. eexists. split; [reflexivity|].
      unfold sound, pending in *. cbn [p_buf p_index p_expected p_robust p_decoder p_packets p_bytes p_errors p_prefix_error]. rewrite Hp.
      pose proof (frame_size_min magic len flags).
      repeat split; auto; try lia. { intros ? ? ? ? [= <- <- <- _]. reflexivity. } cbn. lia.
Qed.

Definition report (robust : bool) (f : bytes) (r : res M) : res (option (item M)) :=
  match r with
  | Ok m => Ok (Some (Message m))
  | Err MAVError => if robust then Ok (Some (BadData f)) else Err MAVError
  | Err e => Err e
  end.

Lemma legacy_frame p f t :
  sound p -> Forall (fun b => (b < 256)%N) f -> pending p = f ++ t -> whole f ->
  exists p', parse_legacy decode p = (p', report (p_robust p) f (snd (outcome decode (p_decoder p) f)))
    /\ sound p' /\ pending p' = t /\ p_robust p' = p_robust p /\ p_decoder p' = fst (outcome decode (p_decoder p) f)
    /\ p_packets p' = p_packets p /\ p_bytes p' = p_bytes p
    /\ p_errors p' = (match snd (outcome decode (p_decoder p) f) with Err MAVError => if p_robust p then S (p_errors p) else p_errors p | _ => p_errors p end)
    /\ p_prefix_error p' = false /\ p_buf p' = p_buf p
    /\ p_expected p' = (if N.eqb (nth 0 f 0%N) 253 then 12 else 8).
Proof.
  intros [Hi He] Hb Hp (magic & len & flags & u & -> & Hm & Hsize).
  unfold parse_legacy. rewrite Hp. cbn [app]. rewrite (proj2 (marker_spec magic) Hm). cbv zeta.
  rewrite announced_size by exact Hm. unfold buf_len. cbn [p_buf p_index p_expected].
  pose proof (f_equal (@length N) Hp) as L. rewrite pending_length, app_length, Hsize in L. unfold buf_len in L.
  replace (Nat.leb (frame_size magic len flags) (length (p_buf p) - p_index p)) with true by (symmetry; apply Nat.leb_le; lia).
  replace (Nat.leb ((if is_v2 magic then 10 else 6) + 2) (frame_size magic len flags)) with true.
  2:{ symmetry. apply Nat.leb_le. unfold frame_size. destruct Hm as [-> | ->]; cbn; lia. }
  cbn [andb]. unfold parse_frame. cbn [p_buf p_index p_expected p_prefix_error p_robust p_packets p_bytes p_errors p_decoder].
  assert (Hs : slice (p_buf p) (p_index p) (p_index p + frame_size magic len flags) = magic :: len :: flags :: u).
  { unfold slice. replace (p_index p + frame_size magic len flags - p_index p) with (frame_size magic len flags) by lia.
    fold (pending p). rewrite Hp, <- Hsize, firstn_app, Nat.sub_diag, firstn_O, app_nil_r. apply firstn_all. }
  rewrite Hs.
  assert (Ho : (if bad_flags magic flags then (p_decoder p, Err MAVError) else decode (p_decoder p) (magic :: len :: flags :: u))
               = outcome decode (p_decoder p) (magic :: len :: flags :: u)).
  { unfold outcome, bad_flags, is_v2. cbn [nth]. rewrite land254; [reflexivity|].
    inversion Hb as [|? ? _ Hb1]. inversion Hb1 as [|? ? _ Hb2]. inversion Hb2. assumption. }
  rewrite Ho. destruct (outcome decode (p_decoder p) (magic :: len :: flags :: u)) as [d r]. cbn [fst snd].
  assert (Ht : skipn (p_index p + frame_size magic len flags) (p_buf p) = t).
  { rewrite Nat.add_comm, <- skipn_skipn. fold (pending p). rewrite Hp, <- Hsize, skipn_app, Nat.sub_diag, skipn_O.
    rewrite skipn_all. reflexivity. }
  assert (Hx : (if is_v2 magic then 10 else 6) + 2 = (if (nth 0 (magic :: len :: flags :: u) 0 =? 253)%N then 12 else 8)).
  { cbn [nth]. fold (is_v2 magic). destruct (is_v2 magic); reflexivity. }
  assert (Hy : 8 <= (if is_v2 magic then 10 else 6) + 2) by (destruct (is_v2 magic); lia).
  unfold report.
  destruct r as [m|e]; [|destruct (p_robust p) eqn:Er; destruct e];
    (eexists; split; [reflexivity|]; unfold sound, pending;
     cbn [p_buf p_index p_expected p_prefix_error p_robust p_packets p_bytes p_errors p_decoder];
     rewrite Ht; repeat split; auto; lia).
Qed.

(** What can be seen of a parser. *)
Definition looks (p : parser D) (s : bytes) (robust : bool) (d : D) (packets n errors : nat) : Prop :=
  sound p /\ pending p = s /\ p_robust p = robust /\ p_decoder p = d /\ p_packets p = packets /\ p_bytes p = n /\ p_errors p = errors.

Lemma looks_received p s robust d k n e c :
  looks p s robust d k n e -> looks (received p c) (s ++ c) robust d k (n + length c) e.
Proof.
  intros (H & <- & H2 & H3 & H4 & <- & H6). split; [apply received_sound, H|]. split; [apply received_pending, H|].
  cbn. auto.
Qed.

Lemma char_legacy p c :
  parse_char decode p c =
  (let '(p, r) := parse_legacy decode (received p c) in
   match r with
   | Err e => (p, Err e)
   | Ok (Some m) =>
      (Parser (p_buf p) (p_index p) (p_expected p) (p_prefix_error p) (p_robust p) (S (p_packets p)) (p_bytes p) (p_errors p) (p_decoder p), Ok (Some m))
   | Ok None =>
      (if (Nat.eqb (buf_len p) 0 && negb (Nat.eqb (p_index p) 0))%bool
       then Parser [] 0 (p_expected p) (p_prefix_error p) (p_robust p) (p_packets p) (p_bytes p) (p_errors p) (p_decoder p) else p, Ok None)
   end).
Proof. reflexivity. Qed.

Lemma reset_looks p s robust d k n e :
  looks p s robust d k n e ->
  looks (if (Nat.eqb (buf_len p) 0 && negb (Nat.eqb (p_index p) 0))%bool
         then Parser [] 0 (p_expected p) (p_prefix_error p) (p_robust p) (p_packets p) (p_bytes p) (p_errors p) (p_decoder p) else p) s robust d k n e.
Proof.
  intros H. destruct (_ && _)%bool eqn:E; [|exact H]. apply andb_prop in E. destruct E as [E _]. apply Nat.eqb_eq in E.
  destruct H as ([H H'] & H1 & H2). rewrite <- pending_length in E. rewrite H1 in E. apply length_zero_iff_nil in E. subst s.
  split; [split; cbn; [lia|exact H']|]. split; [rewrite E; reflexivity|]. exact H2.
Qed.
Lemma reset_flag (p : parser D) : p_prefix_error (if (Nat.eqb (buf_len p) 0 && negb (Nat.eqb (p_index p) 0))%bool
         then Parser [] 0 (p_expected p) (p_prefix_error p) (p_robust p) (p_packets p) (p_bytes p) (p_errors p) (p_decoder p) else p) = p_prefix_error p.
Proof. destruct (_ && _)%bool; reflexivity. Qed.
Lemma reset_expected (p : parser D) : p_expected (if (Nat.eqb (buf_len p) 0 && negb (Nat.eqb (p_index p) 0))%bool
         then Parser [] 0 (p_expected p) (p_prefix_error p) (p_robust p) (p_packets p) (p_bytes p) (p_errors p) (p_decoder p) else p) = p_expected p.
Proof. destruct (_ && _)%bool; reflexivity. Qed.

(** One call of parse_char, by the first piece of what is pending. *)
Lemma char_noise p c s robust d k n e b t :
  looks p s robust d k n e -> s ++ c = b :: t -> ~ marker b ->
  exists p', parse_char decode p c = (p', if robust then Ok (Some (BadData [b])) else if p_prefix_error p then Ok None else Err MAVError)
    /\ looks p' t robust d (if robust then S k else k) (n + length c) (if (robust || negb (p_prefix_error p))%bool then S e else e)
    /\ p_prefix_error p' = (if robust then p_prefix_error p else true)
    /\ p_expected p' = (if robust then 8 else p_expected p).
Proof.
  intros L E Hm. pose proof (looks_received _ _ _ _ _ _ _ c L) as (S0 & Hp & H2 & H3 & H4 & H5 & H6). rewrite E in Hp.
  destruct (legacy_noise _ b t S0 Hp Hm) as (p' & Eq & S' & P' & R' & D' & K' & N' & E' & F' & X' & _).
  rewrite char_legacy, Eq. rewrite H2 in *. cbn [received p_prefix_error p_expected] in *.
  assert (L' : looks p' t robust d k (n + length c) (if (robust || negb (p_prefix_error p))%bool then S e else e)).
  { repeat split; try apply S'; try congruence. rewrite E', H6. reflexivity. }
  destruct robust.
  - eexists. split; [reflexivity|]. split; [|split; [exact F'|exact X']].
    destruct L' as ([L1 L1'] & L2 & L3 & L4 & L5 & L6 & L7). repeat split; cbn; auto; try congruence.
  - destruct (p_prefix_error p) eqn:Ef.
    + eexists. split; [reflexivity|]. split; [apply reset_looks, L'|]. rewrite reset_flag, reset_expected. auto.
    + eexists. split; [reflexivity|]. split; [exact L'|]. auto.
Qed.

Lemma char_unfinished p c s robust d k n e :
  looks p s robust d k n e -> unfinished (s ++ c) ->
  exists p', parse_char decode p c = (p', Ok None) /\ looks p' (s ++ c) robust d k (n + length c) e /\ p_prefix_error p' = false
    /\ (forall magic len flags t, s ++ c = magic :: len :: flags :: t -> p_expected p' = frame_size magic len flags)
    /\ (length (s ++ c) < 3 -> p_expected p' = p_expected p).
Proof.
  intros L U. pose proof (looks_received _ _ _ _ _ _ _ c L) as (S0 & Hp & H2 & H3 & H4 & H5 & H6). rewrite <- Hp in U.
  destruct (legacy_unfinished _ S0 U) as (p' & Eq & S' & P' & R' & D' & K' & N' & E' & F' & _ & _ & X' & Y').
  rewrite char_legacy, Eq. rewrite Hp in *.
  eexists. split; [reflexivity|]. split; [apply reset_looks; repeat split; try apply S'; congruence|].
  rewrite reset_flag, reset_expected. auto.
Qed.

Lemma char_frame p c s robust d k n e f t :
  looks p s robust d k n e -> s ++ c = f ++ t -> whole f -> Forall (fun b => (b < 256)%N) f ->
  exists p', parse_char decode p c = (p', report robust f (snd (outcome decode d f)))
    /\ looks p' t robust (fst (outcome decode d f)) (match report robust f (snd (outcome decode d f)) with Ok _ => S k | Err _ => k end) (n + length c)
         (match snd (outcome decode d f) with Err MAVError => if robust then S e else e | _ => e end)
    /\ p_prefix_error p' = false /\ p_expected p' = (if N.eqb (nth 0 f 0%N) 253 then 12 else 8).
Proof.
  intros L E Hw Hb. pose proof (looks_received _ _ _ _ _ _ _ c L) as (S0 & Hp & H2 & H3 & H4 & H5 & H6). rewrite E in Hp.
  destruct (legacy_frame _ f t S0 Hb Hp Hw) as (p' & Eq & S' & P' & R' & D' & K' & N' & E' & F' & _ & X').
  rewrite char_legacy, Eq. rewrite H2, H3 in *. rewrite H6 in E'.
  destruct (snd (outcome decode d f)) as [m|err] eqn:Er.
  - cbn [report]. eexists. split; [reflexivity|]. split; [|auto]. destruct S' as [S1 S2]. repeat split; cbn; auto; congruence.
  - cbn [report]. destruct err, robust; (eexists; split; [reflexivity|]; split; [|auto]; destruct S' as [S1 S2]; repeat split; cbn; auto; congruence).
Qed.

Section Tolerant.
Hypothesis mav : only_mav_errors decode.

Lemma outcome_mav d f e : Forall (fun b => (b < 256)%N) f -> whole f -> snd (outcome decode d f) = Err e -> e = MAVError.
Proof.
  intros B (? & ? & ? & ? & -> & _). unfold outcome. destruct (_ && _)%bool.
  - intros [= <-]. reflexivity.
  - apply mav; [exact B|discriminate].
Qed.

(** The pieces are used up one by one. *)
Lemma more_tolerant s pieces rest :
  cut s pieces rest -> forall p d k n e fuel ret,
  looks p s true d k n e -> Forall (fun b => (b < 256)%N) s -> length s < fuel ->
  exists p', parse_more decode fuel p ret = (p', Ok (Some (ret ++ snd (tolerant decode d pieces))))
    /\ looks p' rest true (fst (tolerant decode d pieces)) (k + length pieces) n (e + length (filter is_bad (snd (tolerant decode d pieces)))).
Proof.
  induction 1 as [s U|b s l r Hm C IH|f s l r Hw C IH]; intros p d k n e fuel ret L B Hf.
  - destruct fuel as [|fuel]; [lia|]. cbn [parse_more]. rewrite <- (app_nil_r s) in U.
    destruct (char_unfinished p [] s true d k n e L U) as (p' & -> & L' & _). rewrite app_nil_r in L'.
    exists p'. cbn [tolerant fst snd length filter]. rewrite app_nil_r, !Nat.add_0_r. split; [reflexivity|]. cbn in L'. rewrite Nat.add_0_r in L'. exact L'.
  - destruct fuel as [|fuel]; [cbn in Hf; lia|]. cbn [parse_more].
    destruct (char_noise p [] (b :: s) true d k n e b s L) as (p' & -> & L' & _); [apply app_nil_r|exact Hm|].
    cbn [length orb] in L'. rewrite Nat.add_0_r in L'. inversion B as [|? ? B1 B2]; subst. cbn [length] in Hf.
    destruct (IH p' d (S k) n (S e) fuel (ret ++ [BadData [b]]) L' B2) as (p2 & -> & L2); [lia|].
    exists p2. cbn [tolerant]. destruct (tolerant decode d l) as [d' rs]. cbn [fst snd] in *.
    rewrite <- app_assoc. split; [reflexivity|]. cbn [length filter is_bad].
    replace (k + S (length l)) with (S k + length l) by lia.
    replace (e + S (length (filter is_bad rs))) with (S e + length (filter is_bad rs)) by lia. exact L2.
  - destruct fuel as [|fuel]; [lia|]. cbn [parse_more].
    apply Forall_app in B. destruct B as [B1 B2].
    destruct (char_frame p [] (f ++ s) true d k n e f s L) as (p' & -> & L' & _); [apply app_nil_r|exact Hw|exact B1|].
    cbn [length] in L'. rewrite Nat.add_0_r in L'.
    assert (Hl : length s < fuel).
    { destruct Hw as (? & ? & ? & ? & -> & _). rewrite app_length in Hf. cbn in Hf. lia. }
    cbn [tolerant]. pose proof (fun e0 => outcome_mav d f e0 B1 Hw) as Hmav. destruct (outcome decode d f) as [d1 ro]. cbn [fst snd] in *.
    destruct ro as [m|err].
    + cbn [report] in *. destruct (IH p' d1 (S k) n e fuel (ret ++ [Message m]) L' B2 Hl) as (p2 & -> & L2).
      exists p2. destruct (tolerant decode d1 l) as [d' rs]. cbn [fst snd] in *.
      rewrite <- app_assoc. split; [reflexivity|]. cbn [length filter is_bad].
      replace (k + S (length l)) with (S k + length l) by lia. exact L2.
    + rewrite (Hmav err eq_refl) in *. cbn [report] in *.
      destruct (IH p' d1 (S k) n (S e) fuel (ret ++ [BadData f]) L' B2 Hl) as (p2 & -> & L2).
      exists p2. destruct (tolerant decode d1 l) as [d' rs]. cbn [fst snd] in *.
      rewrite <- app_assoc. split; [reflexivity|]. cbn [length filter is_bad].
      replace (k + S (length l)) with (S k + length l) by lia.
      replace (e + S (length (filter is_bad rs))) with (S e + length (filter is_bad rs)) by lia. exact L2.
Qed.

Lemma buffer_tolerant p c s d k n e pieces rest :
  looks p s true d k n e -> Forall (fun b => (b < 256)%N) (s ++ c) -> cut (s ++ c) pieces rest ->
  exists p', parse_buffer decode p c = (p', Ok (match pieces with [] => None | _ => Some (snd (tolerant decode d pieces)) end))
    /\ looks p' rest true (fst (tolerant decode d pieces)) (k + length pieces) (n + length c) (e + length (filter is_bad (snd (tolerant decode d pieces)))).
Proof.
  intros L B C. unfold parse_buffer. remember (s ++ c) as u eqn:Eu. destruct C as [u U|b u l r Hm C|f u l r Hw C].
  - rewrite Eu in U. destruct (char_unfinished p c s true d k n e L U) as (p' & -> & L' & _). rewrite <- Eu in L'.
    exists p'. cbn. rewrite !Nat.add_0_r. split; [reflexivity|exact L'].
  - destruct (char_noise p c s true d k n e b u L (eq_sym Eu) Hm) as (p' & -> & L' & _). cbn [orb] in L'.
    inversion B as [|? ? B1 B2]; subst.
    destruct (more_tolerant u l r C p' d (S k) (n + length c) (S e) (S (length (p_buf p'))) [BadData [b]] L' B2) as (p2 & -> & L2).
    { destruct L' as (_ & <- & _). rewrite pending_length. unfold buf_len. lia. }
    exists p2. cbn [tolerant]. destruct (tolerant decode d l) as [d' rs]. cbn [fst snd] in *.
    split; [reflexivity|]. cbn [length filter is_bad].
    replace (k + S (length l)) with (S k + length l) by lia.
    replace (e + S (length (filter is_bad rs))) with (S e + length (filter is_bad rs)) by lia. exact L2.
  - apply Forall_app in B. destruct B as [B1 B2].
    destruct (char_frame p c s true d k n e f u L (eq_sym Eu) Hw B1) as (p' & -> & L' & _).
    assert (Hl : length u < S (length (p_buf p'))).
    { destruct L' as (_ & <- & _). rewrite pending_length. unfold buf_len. lia. }
    cbn [tolerant]. pose proof (fun e0 => outcome_mav d f e0 B1 Hw) as Hmav. destruct (outcome decode d f) as [d1 ro]. cbn [fst snd] in *.
    destruct ro as [m|err].
    + cbn [report] in *. destruct (more_tolerant u l r C p' d1 (S k) (n + length c) e _ [Message m] L' B2 Hl) as (p2 & -> & L2).
      exists p2. destruct (tolerant decode d1 l) as [d' rs]. cbn [fst snd] in *.
      split; [reflexivity|]. cbn [length filter is_bad].
      replace (k + S (length l)) with (S k + length l) by lia. exact L2.
    + rewrite (Hmav err eq_refl) in *. cbn [report] in *.
      destruct (more_tolerant u l r C p' d1 (S k) (n + length c) (S e) _ [BadData f] L' B2 Hl) as (p2 & -> & L2).
      exists p2. destruct (tolerant decode d1 l) as [d' rs]. cbn [fst snd] in *.
      split; [reflexivity|]. cbn [length filter is_bad].
      replace (k + S (length l)) with (S k + length l) by lia.
      replace (e + S (length (filter is_bad rs))) with (S e + length (filter is_bad rs)) by lia. exact L2.
Qed.
End Tolerant.

(** Strict parsing of frames that are all accepted. *)
Lemma more_accepted s pieces rest :
  cut s pieces rest -> forall p d k n e fuel ret ms,
  looks p s false d k n e -> Forall (fun b => (b < 256)%N) s -> length s < fuel -> accepted decode d pieces ms ->
  exists p', parse_more decode fuel p ret = (p', Ok (Some (ret ++ map Message ms)))
    /\ looks p' rest false (fst (tolerant decode d pieces)) (k + length ms) n e.
Proof.
  induction 1 as [s U|b s l r Hm C IH|f s l r Hw C IH]; intros p d k n e fuel ret ms L B Hf A.
  - destruct fuel as [|fuel]; [lia|]. cbn [parse_more]. rewrite <- (app_nil_r s) in U.
    destruct (char_unfinished p [] s false d k n e L U) as (p' & -> & L' & _). rewrite app_nil_r in L'.
    destruct ms; [|destruct A]. exists p'. cbn [tolerant fst snd length map]. rewrite app_nil_r, !Nat.add_0_r. split; [reflexivity|].
    cbn in L'. rewrite Nat.add_0_r in L'. exact L'.
  - destruct A.
  - destruct fuel as [|fuel]; [lia|]. cbn [parse_more].
    apply Forall_app in B. destruct B as [B1 B2].
    destruct (char_frame p [] (f ++ s) false d k n e f s L) as (p' & -> & L' & _); [apply app_nil_r|exact Hw|exact B1|].
    cbn [length] in L'. rewrite Nat.add_0_r in L'.
    assert (Hl : length s < fuel).
    { destruct Hw as (? & ? & ? & ? & -> & _). rewrite app_length in Hf. cbn in Hf. lia. }
    destruct ms as [|m ms]; [destruct A|]. destruct A as [Am A]. cbn [tolerant]. destruct (outcome decode d f) as [d1 ro]. cbn [fst snd] in *. subst ro.
    cbn [report] in *. destruct (IH p' d1 (S k) n e fuel (ret ++ [Message m]) ms L' B2 Hl A) as (p2 & -> & L2).
    exists p2. destruct (tolerant decode d1 l) as [d' rs]. cbn [fst snd] in *.
    rewrite <- app_assoc. split; [reflexivity|]. cbn [length].
    replace (k + S (length ms)) with (S k + length ms) by lia. exact L2.
Qed.

Lemma buffer_accepted p c s d k n e pieces rest ms :
  looks p s false d k n e -> Forall (fun b => (b < 256)%N) (s ++ c) -> cut (s ++ c) pieces rest -> accepted decode d pieces ms ->
  exists p', parse_buffer decode p c = (p', Ok (match ms with [] => None | _ => Some (map Message ms) end))
    /\ looks p' rest false (fst (tolerant decode d pieces)) (k + length ms) (n + length c) e.
Proof.
  intros L B C A. unfold parse_buffer. remember (s ++ c) as u eqn:Eu. destruct C as [u U|b u l r Hm C|f u l r Hw C].
  - rewrite Eu in U. destruct (char_unfinished p c s false d k n e L U) as (p' & -> & L' & _). rewrite <- Eu in L'.
    destruct ms; [|destruct A]. exists p'. cbn. rewrite !Nat.add_0_r. split; [reflexivity|exact L'].
  - destruct A.
  - apply Forall_app in B. destruct B as [B1 B2].
    destruct (char_frame p c s false d k n e f u L (eq_sym Eu) Hw B1) as (p' & -> & L' & _).
    assert (Hl : length u < S (length (p_buf p'))).
    { destruct L' as (_ & <- & _). rewrite pending_length. unfold buf_len. lia. }
    destruct ms as [|m ms]; [destruct A|]. destruct A as [Am A]. cbn [tolerant]. destruct (outcome decode d f) as [d1 ro]. cbn [fst snd] in *. subst ro.
    cbn [report] in *. destruct (more_accepted u l r C p' d1 (S k) (n + length c) e _ [Message m] ms L' B2 Hl A) as (p2 & -> & L2).
    exists p2. destruct (tolerant decode d1 l) as [d' rs]. cbn [fst snd] in *.
    split; [reflexivity|]. cbn [length].
    replace (k + S (length ms)) with (S k + length ms) by lia. exact L2.
Qed.
End Streams.

(** How streams are cut. *)
Lemma marker_dec b : {marker b} + {~ marker b}.
Proof. unfold marker. destruct (N.eq_dec b 254), (N.eq_dec b 253); [left|left|left|right]; auto. intros [H|H]; contradiction. Qed.

Lemma whole_nonempty f : whole f -> 3 <= length f.
Proof. intros (? & ? & ? & ? & -> & _). cbn. lia. Qed.

Lemma unfinished_or_frame s :
  (exists b t, s = b :: t /\ ~ marker b) \/ unfinished s \/ (exists f t, s = f ++ t /\ whole f).
Proof.
  destruct s as [|b s]; [right; left; left; reflexivity|].
  destruct (marker_dec b) as [Hm|Hm]; [|left; eauto]. right.
  destruct s as [|len [|flags t]].
  - left. right. exists b, []. repeat split; auto. intros; discriminate.
  - left. right. exists b, [len]. repeat split; auto. intros; discriminate.
  - destruct (le_lt_dec (frame_size b len flags) (length (b :: len :: flags :: t))) as [H|H].
    + right. pose proof (frame_size_min b len flags). exists (firstn (frame_size b len flags) (b :: len :: flags :: t)), (skipn (frame_size b len flags) (b :: len :: flags :: t)).
      split; [symmetry; apply firstn_skipn|]. destruct (frame_size b len flags) as [|[|[|n]]] eqn:E; try lia.
      exists b, len, flags, (firstn n t). rewrite E. split; [reflexivity|]. split; [exact Hm|]. rewrite firstn_length_le by lia. reflexivity.
    + left. right. exists b, (len :: flags :: t). repeat split; auto. intros ? ? ? [= <- <- <-]. exact H.
Qed.

Lemma cut_total s : exists pieces rest, cut s pieces rest.
Proof.
  remember (length s) as n eqn:E. revert s E. induction n as [n IH] using lt_wf_ind. intros s ->.
  destruct (unfinished_or_frame s) as [(b & t & -> & Hm)|[U|(f & t & -> & Hw)]].
  - destruct (IH (length t)) with (s := t) as (l & r & C); [cbn; lia|reflexivity|]. exists (Noise b :: l), r. constructor; assumption.
  - exists [], s. constructor. exact U.
  - destruct (IH (length t)) with (s := t) as (l & r & C); [|reflexivity|].
    { apply whole_nonempty in Hw. rewrite app_length. lia. }
    exists (Frame f :: l), r. constructor; assumption.
Qed.

Lemma whole_prefix f f' t t' : whole f -> whole f' -> f ++ t = f' ++ t' -> f = f' /\ t = t'.
Proof.
  intros (m & l & g & u & -> & _ & L) (m' & l' & g' & u' & -> & _ & L') E.
  injection E as <- <- <- E. cbn [length] in *. assert (Hu : length u = length u') by lia.
  assert (Hx : u = u' /\ t = t').
  { clear -E Hu. revert u' Hu E. induction u as [|x u IH]; intros [|y u'] Hu E; try discriminate; [auto|].
    injection E as <- E. injection Hu as Hu. destruct (IH u' Hu E) as [-> ->]. auto. }
  destruct Hx as [-> ->]. auto.
Qed.

Lemma unfinished_not_whole f t : whole f -> unfinished (f ++ t) -> False.
Proof.
  intros (m & l & g & u & -> & Hm & L) [E|(m' & t' & E & _ & H)]; [discriminate|]. injection E as <- <-.
  specialize (H l g (u ++ t) eq_refl). cbn [length app] in *. rewrite app_length in H. lia.
Qed.

Lemma cut_unique s l r : cut s l r -> forall l' r', cut s l' r' -> l = l' /\ r = r'.
Proof.
  induction 1 as [s U|b s l r Hm C IH|f s l r Hw C IH]; intros l' r' C'.
  - inversion C' as [? U' E1 E2 E3|b t l2 r2 Hm C2 E1 E2 E3|f t l2 r2 Hw C2 E1 E2 E3]; subst; auto.
    + destruct U as [U|(m & t' & E & Hm' & _)]; [discriminate|]. injection E as <- <-. contradiction.
    + exfalso. eapply unfinished_not_whole; eauto.
  - inversion C' as [? U' E1 E2 E3|b' t l2 r2 Hm' C2 E1 E2 E3|f t l2 r2 Hw C2 E1 E2 E3]; subst.
    + destruct U' as [U|(m & t' & E & Hm' & _)]; [discriminate|]. injection E as <- <-. contradiction.
    + destruct (IH _ _ C2) as [-> ->]. auto.
    + destruct Hw as (m & ? & ? & ? & -> & Hm' & _). injection E1 as <- _. contradiction.
  - inversion C' as [? U' E1 E2 E3|b' t l2 r2 Hm' C2 E1 E2 E3|f' t l2 r2 Hw' C2 E1 E2 E3]; subst.
    + exfalso. eapply unfinished_not_whole; eauto.
    + destruct Hw as (m & ? & ? & ? & -> & Hm & _). injection E1 as <- _. contradiction.
    + destruct (whole_prefix _ _ _ _ Hw Hw' (eq_sym E1)) as [-> ->]. destruct (IH _ _ C2) as [-> ->]. auto.
Qed.

Lemma cut_bytes s l r : cut s l r -> concat (map piece_bytes l) ++ r = s.
Proof.
  induction 1 as [s U|b s l r Hm C IH|f s l r Hw C IH]; [reflexivity| |]; cbn; [f_equal; exact IH|].
  rewrite <- app_assoc, IH. reflexivity.
Qed.

Lemma cut_rest_unfinished s l r : cut s l r -> unfinished r.
Proof. induction 1; assumption. Qed.

Lemma cut_app s l r : cut s l r -> forall t l' r', cut (r ++ t) l' r' -> cut (s ++ t) (l ++ l') r'.
Proof.
  induction 1 as [s U|b s l r Hm C IH|f s l r Hw C IH]; intros t l' r' C'; [exact C'| |].
  - cbn. constructor; auto.
  - rewrite <- app_assoc. cbn. constructor; auto.
Qed.

Lemma unfinished_cut s l r : unfinished s -> cut s l r -> l = [] /\ r = s.
Proof. intros U C. destruct (cut_unique _ _ _ C [] s (cut_rest s U)) as [-> ->]. auto. Qed.

Lemma cut_split a b l r : cut (a ++ b) l r -> exists l1 r1 l2, cut a l1 r1 /\ cut (r1 ++ b) l2 r /\ l = l1 ++ l2.
Proof.
  intros C. destruct (cut_total a) as (l1 & r1 & C1). destruct (cut_total (r1 ++ b)) as (l2 & r2 & C2).
  destruct (cut_unique _ _ _ (cut_app _ _ _ C1 _ _ _ C2) _ _ C) as [<- <-]. eauto 6.
Qed.

Lemma cut_sub P s l r : cut s l r -> Forall P s -> Forall P r.
Proof. intros C H. rewrite <- (cut_bytes _ _ _ C) in H. apply Forall_app in H. apply H. Qed.

Section Blocks.
Context {D M : Type}.
Variable decode : D -> bytes -> D * res M.

Lemma tolerant_app d a b :
  tolerant decode d (a ++ b) =
  (fst (tolerant decode (fst (tolerant decode d a)) b), snd (tolerant decode d a) ++ snd (tolerant decode (fst (tolerant decode d a)) b)).
Proof.
  revert d. induction a as [|[x|f] a IH]; intros d; cbn [tolerant app fst snd].
  - apply surjective_pairing.
  - rewrite IH. destruct (tolerant decode d a) as [d1 r1]. reflexivity.
  - destruct (outcome decode d f) as [d0 ro]. rewrite IH. destruct (tolerant decode d0 a) as [d1 r1]. reflexivity.
Qed.

Lemma accepted_app d a b ms : accepted decode d (a ++ b) ms ->
  exists m1 m2, ms = m1 ++ m2 /\ accepted decode d a m1 /\ accepted decode (fst (tolerant decode d a)) b m2.
Proof.
  revert d ms. induction a as [|[x|f] a IH]; intros d ms H; cbn [tolerant app fst snd] in *.
  - exists [], ms. cbn. auto.
  - destruct H.
  - destruct ms as [|m ms]; [destruct H|]. cbn [accepted] in H. destruct H as [H1 H2]. destruct (IH _ _ H2) as (m1 & m2 & -> & A1 & A2).
    exists (m :: m1), m2. cbn [accepted app]. destruct (outcome decode d f) as [d0 ro]. cbn [fst snd] in *.
    destruct (tolerant decode d0 a) as [d1 r1]. auto.
Qed.

Lemma accepted_length d l ms : accepted decode d l ms -> length ms = length l.
Proof.
  revert d ms. induction l as [|[x|f] l IH]; intros d [|m ms] H; try destruct H; cbn; auto. f_equal. eapply IH. eassumption.
Qed.

Lemma blocks_tolerant (mav : only_mav_errors decode) blocks :
  forall p s d k n e pieces rest,
  looks p s true d k n e -> unfinished s -> Forall (fun b => (b < 256)%N) (s ++ concat blocks) -> cut (s ++ concat blocks) pieces rest ->
  exists p', feed_blocks decode p blocks = (p', Ok (snd (tolerant decode d pieces)))
    /\ looks p' rest true (fst (tolerant decode d pieces)) (k + length pieces) (n + length (concat blocks))
         (e + length (filter is_bad (snd (tolerant decode d pieces)))).
Proof.
  induction blocks as [|b t IH]; intros p s d k n e pieces rest L U B C.
  - cbn [concat] in C. rewrite app_nil_r in C. destruct (unfinished_cut _ _ _ U C) as [-> ->].
    exists p. cbn. rewrite !Nat.add_0_r. auto.
  - cbn [concat feed_blocks] in *. rewrite app_assoc in C, B. destruct (cut_split _ _ _ _ C) as (l1 & r1 & l2 & C1 & C2 & ->).
    apply Forall_app in B. destruct B as [B1 B2].
    destruct (buffer_tolerant decode mav p b s d k n e l1 r1 L B1 C1) as (p1 & -> & L1).
    assert (B3 : Forall (fun b0 => (b0 < 256)%N) (r1 ++ concat t)) by (apply Forall_app; split; [eapply cut_sub; eauto|exact B2]).
    destruct (IH p1 r1 _ _ _ _ l2 rest L1 (cut_rest_unfinished _ _ _ C1) B3 C2) as (p2 & -> & L2).
    exists p2. rewrite tolerant_app. cbn [fst snd]. split.
    + cbn [bind]. do 2 f_equal. destruct l1; reflexivity.
    + rewrite app_length, filter_app, !app_length, !Nat.add_assoc. rewrite <- !Nat.add_assoc in L2 |- *. exact L2.
Qed.

Lemma blocks_accepted blocks :
  forall p s d k n e pieces rest ms,
  looks p s false d k n e -> unfinished s -> Forall (fun b => (b < 256)%N) (s ++ concat blocks) -> cut (s ++ concat blocks) pieces rest ->
  accepted decode d pieces ms ->
  exists p', feed_blocks decode p blocks = (p', Ok (map Message ms))
    /\ looks p' rest false (fst (tolerant decode d pieces)) (k + length ms) (n + length (concat blocks)) e.
Proof.
  induction blocks as [|b t IH]; intros p s d k n e pieces rest ms L U B C A.
  - cbn [concat] in C. rewrite app_nil_r in C. destruct (unfinished_cut _ _ _ U C) as [-> ->]. destruct ms; [|destruct A].
    exists p. cbn. rewrite !Nat.add_0_r. auto.
  - cbn [concat feed_blocks] in *. rewrite app_assoc in C, B. destruct (cut_split _ _ _ _ C) as (l1 & r1 & l2 & C1 & C2 & ->).
    apply Forall_app in B. destruct B as [B1 B2]. destruct (accepted_app _ _ _ _ A) as (m1 & m2 & -> & A1 & A2).
    destruct (buffer_accepted decode p b s d k n e l1 r1 m1 L B1 C1 A1) as (p1 & -> & L1).
    assert (B3 : Forall (fun b0 => (b0 < 256)%N) (r1 ++ concat t)) by (apply Forall_app; split; [eapply cut_sub; eauto|exact B2]).
    destruct (IH p1 r1 _ _ _ _ l2 rest m2 L1 (cut_rest_unfinished _ _ _ C1) B3 C2 A2) as (p2 & -> & L2).
    exists p2. rewrite tolerant_app. cbn [fst snd]. split.
    + cbn [bind]. do 2 f_equal. rewrite map_app. destruct m1; reflexivity.
    + rewrite !app_length, !Nat.add_assoc. rewrite <- !Nat.add_assoc in L2 |- *. exact L2.
Qed.

(** Byte by byte. *)
Ltac fit L :=
  match type of L with looks _ _ _ _ ?a ?b ?c => match goal with |- looks _ _ _ _ ?a' ?b' ?c' =>
    replace a' with a by lia; replace b' with b by lia; replace c' with c by lia; exact L end end.
Lemma byte_cases s b : unfinished s ->
  (s = [] /\ ~ marker b) \/ unfinished (s ++ [b]) \/ whole (s ++ [b]).
Proof.
  intros U. destruct (unfinished_or_frame (s ++ [b])) as [(x & t & E & Hm)|[U'|(f & t & E & Hw)]]; auto.
  - destruct U as [->|(m & t' & -> & Hm' & _)]; [|injection E as <- _; contradiction]. injection E as <- _. auto.
  - destruct t as [|y t] using rev_ind; [rewrite app_nil_r in E; rewrite E; auto|]. clear IHt.
    exfalso. rewrite app_assoc in E. apply app_inj_tail in E. destruct E as [-> _]. eapply unfinished_not_whole; eauto.
Qed.

Lemma strict_flag d fl s l r : unfinished s -> s <> [] -> forall t, cut (s ++ t) l r ->
  strict decode d fl l = strict decode d false l /\ noise_runs fl l = noise_runs false l.
Proof.
  intros [->|(m & t' & -> & Hm & _)] H t C; [contradiction|]. destruct l as [|[x|f] l]; auto.
  inversion C; subst. contradiction.
Qed.

Definition is_ok_ {A} (r : res A) : bool := match r with Ok _ => true | Err _ => false end.

Lemma bytes_strict t : forall p s d k n e pieces rest,
  looks p s false d k n e -> unfinished s -> Forall (fun b => (b < 256)%N) (s ++ t) -> cut (s ++ t) pieces rest ->
  exists p', feed_bytes decode p t = (p', snd (strict decode d (p_prefix_error p) pieces))
    /\ looks p' rest false (fst (strict decode d (p_prefix_error p) pieces))
         (k + length (filter is_ok_ (snd (strict decode d (p_prefix_error p) pieces)))) (n + length t) (e + noise_runs (p_prefix_error p) pieces).
Proof.
  induction t as [|b t IH]; intros p s d k n e pieces rest L U B C.
  - rewrite app_nil_r in C. destruct (unfinished_cut _ _ _ U C) as [-> ->].
    exists p. cbn. rewrite !Nat.add_0_r. auto.
  - cbn [feed_bytes]. change (b :: t) with ([b] ++ t) in C, B. rewrite app_assoc in C, B.
    destruct (byte_cases s b U) as [[-> Hm]|[U'|Hw]].
    + destruct (char_noise decode p [b] [] false d k n e b [] L eq_refl Hm) as (p1 & -> & L1 & F1 & _). cbn [orb negb] in *.
      inversion C as [? U'|? ? l r ? C'|f ? l r Hw C' E]; subst.
      { destruct U' as [U'|(m & t' & E & Hm' & _)]; [discriminate|]. injection E as <- _. contradiction. }
      2:{ destruct Hw as (m & ? & ? & ? & -> & Hm' & _). injection E as <- _. contradiction. }
      assert (B' : Forall (fun b0 => (b0 < 256)%N) ([] ++ t)) by (inversion B; assumption).
      destruct (IH p1 [] d _ _ _ l rest L1 (or_introl eq_refl) B' C') as (p2 & -> & L2). rewrite F1 in L2 |- *.
      exists p2. cbn [strict noise_runs]. destruct (strict decode d true l) as [d' rs]. cbn [fst snd] in *.
      destruct (p_prefix_error p); (split; [reflexivity|]); cbn [length filter is_ok_ negb] in *.
      * fit L2.
      * fit L2.
    + destruct (char_unfinished decode p [b] s false d k n e L U') as (p1 & -> & L1 & F1 & _).
      destruct (IH p1 _ d _ _ _ pieces rest L1 U' B C) as (p2 & -> & L2).
      destruct (strict_flag d (p_prefix_error p) _ _ _ U' ltac:(destruct s; discriminate) _ C) as [E1 E2]. rewrite E1, E2.
      rewrite F1 in L2 |- *. exists p2. destruct (strict decode d false pieces) as [d' rs]. cbn [fst snd length] in *. split; [reflexivity|].
      fit L2.
    + apply Forall_app in B. destruct B as [B1 B2].
      destruct (char_frame decode p [b] s false d k n e (s ++ [b]) [] L) as (p1 & -> & L1 & F1 & _); [symmetry; apply app_nil_r|exact Hw|exact B1|].
      inversion C as [? U'|x ? l r Hm C' E|f u l r Hw' C' E]; subst.
      { exfalso. eapply unfinished_not_whole; eauto. }
      { destruct Hw as (m & ? & ? & ? & Ew & Hm' & _). rewrite Ew in E. injection E as -> _. contradiction. }
      destruct (whole_prefix _ _ _ _ Hw Hw' (eq_sym E)) as [<- <-].
      destruct (IH p1 [] _ _ _ _ l rest L1 (or_introl eq_refl) B2 C') as (p2 & -> & L2). rewrite F1 in L2 |- *.
      exists p2. cbn [strict noise_runs]. destruct (outcome decode d (s ++ [b])) as [d0 ro]. cbn [fst snd] in *.
      destruct (strict decode d0 false l) as [d' rs]. cbn [fst snd length] in *.
      destruct ro as [m|er]; cbn [report filter is_ok_ length] in *.
      * split; [reflexivity|]. fit L2.
      * destruct er; (split; [reflexivity|]; fit L2).
Qed.

Lemma bytes_tolerant (mav : only_mav_errors decode) t : forall p s d k n e pieces rest,
  looks p s true d k n e -> unfinished s -> Forall (fun b => (b < 256)%N) (s ++ t) -> cut (s ++ t) pieces rest ->
  exists p', feed_bytes decode p t = (p', map Ok (snd (tolerant decode d pieces)))
    /\ looks p' rest true (fst (tolerant decode d pieces)) (k + length pieces) (n + length t) (e + length (filter is_bad (snd (tolerant decode d pieces)))).
Proof.
  induction t as [|b t IH]; intros p s d k n e pieces rest L U B C.
  - rewrite app_nil_r in C. destruct (unfinished_cut _ _ _ U C) as [-> ->].
    exists p. cbn. rewrite !Nat.add_0_r. auto.
  - cbn [feed_bytes]. change (b :: t) with ([b] ++ t) in C, B. rewrite app_assoc in C, B.
    destruct (byte_cases s b U) as [[-> Hm]|[U'|Hw]].
    + destruct (char_noise decode p [b] [] true d k n e b [] L eq_refl Hm) as (p1 & -> & L1 & _). cbn [orb negb] in *.
      inversion C as [? U'|? ? l r ? C'|f ? l r Hw C' E]; subst.
      { destruct U' as [U'|(m & t' & E & Hm' & _)]; [discriminate|]. injection E as <- _. contradiction. }
      2:{ destruct Hw as (m & ? & ? & ? & -> & Hm' & _). injection E as <- _. contradiction. }
      assert (B' : Forall (fun b0 => (b0 < 256)%N) ([] ++ t)) by (inversion B; assumption).
      destruct (IH p1 [] d _ _ _ l rest L1 (or_introl eq_refl) B' C') as (p2 & -> & L2).
      exists p2. cbn [tolerant]. destruct (tolerant decode d l) as [d' rs]. cbn [fst snd map] in *.
      split; [reflexivity|]. cbn [length filter is_bad] in *.
      fit L2.
    + destruct (char_unfinished decode p [b] s true d k n e L U') as (p1 & -> & L1 & _).
      destruct (IH p1 _ d _ _ _ pieces rest L1 U' B C) as (p2 & -> & L2).
      exists p2. cbn [length] in *. split; [reflexivity|].
      fit L2.
    + apply Forall_app in B. destruct B as [B1 B2].
      destruct (char_frame decode p [b] s true d k n e (s ++ [b]) [] L) as (p1 & -> & L1 & _); [symmetry; apply app_nil_r|exact Hw|exact B1|].
      inversion C as [? U'|x ? l r Hm C' E|f u l r Hw' C' E]; subst.
      { exfalso. eapply unfinished_not_whole; eauto. }
      { destruct Hw as (m & ? & ? & ? & Ew & Hm' & _). rewrite Ew in E. injection E as -> _. contradiction. }
      destruct (whole_prefix _ _ _ _ Hw Hw' (eq_sym E)) as [<- <-].
      pose proof (fun e0 => outcome_mav decode mav d _ e0 B1 Hw) as Hmav.
      destruct (IH p1 [] _ _ _ _ l rest L1 (or_introl eq_refl) B2 C') as (p2 & -> & L2).
      exists p2. cbn [tolerant]. destruct (outcome decode d (s ++ [b])) as [d0 ro]. cbn [fst snd] in *.
      destruct (tolerant decode d0 l) as [d' rs]. cbn [fst snd length map] in *.
      destruct ro as [m|er]; [|rewrite (Hmav er eq_refl) in *]; cbn [report filter is_bad length] in *;
        (split; [reflexivity|]); fit L2.
Qed.
End Blocks.
