(** Lemmas on the oldest simulations. *)
From Coq Require Import List Arith NArith ZArith Bool Lia ZifyBool ZifyNat.
From Verif.Model Require Import Py Float InfoTheory Clustering BitOps Segmentation DecoderBase EntropyDecoder Simulation SimVariants Workers Legacy.
From Verif.Spec Require Import SimulationSpec LegacySpec.
From Verif.Proofs Require Import Base BitOpsP SimulationP.
Import ListNotations.

Lemma toggle_received n : forall row w m, word n w -> draw n m row -> exists r, toggle w row = Ok r /\ received w row r.
Proof.
  induction row as [|i row IH]; intros w m Hw (Nd & L & B).
  - exists w. split; [reflexivity|]. split; [split; [reflexivity|apply Hw]|]. intros p Hp. cbn. split; [intros H; exfalso; apply H; reflexivity|tauto].
  - inversion Nd as [|? ? Ni Nd']; subst. assert (Hi : i < length w) by (rewrite (proj1 Hw); apply B; left; reflexivity).
    unfold toggle. cbn [fold_res]. unfold index. rewrite (nth_error_nth' w 0%Z) by exact Hi. cbn [bind].
    set (v := if (nth i w 0 =? 0)%Z then 1%Z else 0%Z). assert (Bi : bit (nth i w 0%Z)) by (destruct Hw as [_ Bw]; rewrite Forall_forall in Bw; apply Bw, nth_In; exact Hi).
    assert (Ev : bit v /\ v <> nth i w 0%Z) by (unfold v; destruct Bi as [-> | -> ]; cbn; (split; [(left + right); reflexivity|discriminate])).
    assert (W' : word n (set_nth w i v)).
    { destruct Hw as [Lw Bw]. split; [rewrite set_nth_length; exact Lw|]. apply Forall_forall. intros x Hx. apply (In_nth _ _ 0%Z) in Hx as (p & Hp & <-). rewrite set_nth_length in Hp.
      rewrite nth_set_nth by exact Hi. destruct (Nat.eqb p i); [apply Ev|]. rewrite Forall_forall in Bw. apply Bw, nth_In. exact Hp. }
    destruct (IH (set_nth w i v) (length row) W') as (r & E & R).
    { split; [exact Nd'|]. split; [reflexivity|]. intros p Hp. apply B. right. exact Hp. }
    exists r. split; [exact E|]. destruct R as [R1 R2]. rewrite set_nth_length in R1, R2. split; [exact R1|]. intros p Hp. specialize (R2 p Hp). rewrite nth_set_nth in R2 by exact Hi.
    cbn [In]. destruct (Nat.eqb_spec p i) as [Hpi|Hne].
    + split; [intros _; left; symmetry; exact Hpi|]. intros _ Heq. apply Ni. rewrite <- Hpi. apply R2. rewrite Heq, Hpi. apply not_eq_sym, Ev.
    + rewrite R2. split; [right; assumption|]. intros [H|H]; [congruence|exact H].
Qed.

Lemma received_unique w row r r' : Forall bit w -> received w row r -> received w row r' -> r = r'.
Proof.
  intros Bw [[L1 B1] R1] [[L2 B2] R2]. apply (nth_ext _ _ 0%Z 0%Z); [congruence|]. intros p Hp. rewrite L1 in Hp. specialize (R1 p Hp). specialize (R2 p Hp).
  assert (X1 : bit (nth p r 0%Z)) by (rewrite Forall_forall in B1; apply B1, nth_In; lia). assert (X2 : bit (nth p r' 0%Z)) by (rewrite Forall_forall in B2; apply B2, nth_In; lia).
  assert (X3 : bit (nth p w 0%Z)) by (rewrite Forall_forall in Bw; apply Bw, nth_In; exact Hp). unfold bit in *.
  destruct (in_dec Nat.eq_dec p row) as [I|I]; [apply R1 in I as I1; apply R2 in I; lia|].
  destruct (Z.eq_dec (nth p r 0%Z) (nth p w 0%Z)) as [E1|E1]; [|tauto]. destruct (Z.eq_dec (nth p r' 0%Z) (nth p w 0%Z)) as [E2|E2]; [congruence|tauto].
Qed.

Section P.
Variable FO : fops.
Notation F := (Float.F FO).
Context {D : Type}.
Variable parser : bytes -> res D.

(** If the six item unpacking worked for a word, the pure decoder's row of that word carries the array at index five. *)
Lemma decode_unpacked c (predict : entropy_model FO -> list F -> res (list F)) (lib : list F -> res (tuple FO)) m w m' a :
  ed_decode FO parser c predict (fun w => do! t <- lib w in unpack_six FO t) m w = (m', Ok a) -> exists t, lib w = Ok t /\ length (t_more FO t) = 2.
Proof.
  unfold ed_decode. destruct (lib w) as [t|e]; cbn [bind]; [|discriminate]. unfold unpack_six at 1. destruct (Nat.eqb_spec (length (t_more FO t)) 2) as [E|E]; [|discriminate].
  intros _. exists t. split; [reflexivity|exact E].
Qed.

Lemma five_fails tl : with_arrays (tl_soft FO tl) -> forall errors encoded me mf t, encoded <> [] -> legacy_loop FO parser tl errors encoded me mf = Ok t ->
  recovered FO (item_five FO) (map (fun x => snd (fst (fst x))) t) = Err TypeError.
Proof.
  intros Ha errors encoded me mf t Hn H. destruct encoded as [|w ws]; [contradiction|]. destruct errors as [|e es]; [discriminate|]. cbn [legacy_loop] in H.
  destruct (toggle w e) as [c|]; [|discriminate]. cbn [bind] in H. cbv zeta in H. destruct (tl_soft FO tl (tl_llr FO tl c)) as [d|] eqn:Ed; [|discriminate]. cbn [bind] in H.
  destruct (plain_row FO parser tl d w) as [rl|] eqn:Er; [|discriminate]. cbn [bind] in H. destruct (soft_decode FO parser tl me (tl_llr FO tl c)) as [me' [a|]] eqn:Es; [|discriminate].
  unfold soft_decode in Es. apply decode_unpacked in Es as (t0 & E0 & L0). rewrite Ed in E0. injection E0 as <-. destruct (Ha _ _ Ed L0) as (l & Hl & Ll).
  cbn [bind] in H. destruct (aided_row FO a w) as [re|]; [|discriminate]. cbn [bind] in H. destruct (hard_decode FO parser tl mf c) as [mf' [b|]]; [|discriminate]. cbn [bind] in H.
  destruct (aided_row FO b w) as [rf|]; [|discriminate]. cbn [bind] in H. destruct (legacy_loop FO parser tl es ws me' mf') as [rest|]; [|discriminate]. cbn [bind] in H. injection H as <-.
  unfold recovered. cbn [map map_res fst snd]. unfold item_five at 1. unfold plain_row in Er.
  destruct (segment_buffer parser (tl_info FO tl (t_estimate FO d))) as [[[parts v] s]|]; [|discriminate]. cbn [bind] in Er.
  destruct (wrong_bits (t_estimate FO d) w) as [h|]; [|discriminate]. cbn [bind] in Er. injection Er as <-. cbn [r_more]. unfold index.
  rewrite nth_error_app1 by lia. rewrite Hl. cbn [bind]. destruct l as [|z [|z' l]]; [reflexivity|cbn in Ll; lia|reflexivity].
Qed.

Lemma learning_fails se buffers encoded ml p errors : with_arrays (se_soft FO se) -> encoded <> [] -> exists e, learning_step FO parser se buffers encoded ml p errors = Err e.
Proof.
  intros Ha Hn. unfold learning_step. cbn [ed_init]. unfold legacy_step.
  match goal with |- context [legacy_loop FO parser ?tl ?er ?en ?a ?b] => set (tl0 := tl); destruct (legacy_loop FO parser tl0 er en a b) as [t|e] eqn:E end; [|eexists; reflexivity].
  cbn [bind]. cbv zeta. rewrite (five_fails tl0 Ha errors encoded _ _ t Hn E). eexists. reflexivity.
Qed.

Lemma wrong_bits_words n a b : word n a -> word n b -> wrong_bits a b = Ok (Z.of_nat (length (differences a b))).
Proof. intros Ha Hb. unfold wrong_bits. rewrite (hamming_words n) by assumption. reflexivity. Qed.

Lemma encode_padded_iff encode random k : forall buffers i ws, encode_padded encode random k i buffers = Ok ws <->
  Forall (fun b => length b < k) buffers /\ length ws = length buffers /\
  forall j, j < length buffers -> encode (nth j buffers [] ++ random (i + j) (k - length (nth j buffers []))) = Ok (nth j ws []).
Proof.
  induction buffers as [|b bs IH]; intros i ws; cbn [encode_padded].
  - split; [intros [= <-]; repeat split; [constructor|intros j Hj; cbn in Hj; lia]|]. intros (_ & L & _). destruct ws; [reflexivity|discriminate].
  - destruct (Nat.ltb_spec k (length b)) as [H|H]; [split; [discriminate|intros (Fa & _); inversion Fa; subst; lia]|].
    destruct (Nat.eqb_spec k (length b)) as [H0|H0]; [split; [discriminate|intros (Fa & _); inversion Fa; subst; lia]|]. split.
    + destruct (encode (b ++ random i (k - length b))) as [w|] eqn:Ew; [|discriminate]. cbn [bind]. destruct (encode_padded encode random k (S i) bs) as [ws'|] eqn:Es; [|discriminate].
      cbn [bind]. intros [= <-]. apply IH in Es as (F1 & F2 & F3). split; [constructor; [lia|exact F1]|]. split; [cbn; lia|]. intros [|j] Hj; cbn [nth].
      * rewrite Nat.add_0_r. exact Ew.
      * replace (i + S j) with (S i + j) by lia. apply F3. cbn in Hj. lia.
    + intros (F1 & F2 & F3). inversion F1 as [|? ? F4 F5]; subst. destruct ws as [|w ws]; [discriminate|]. pose proof (F3 0 ltac:(cbn; lia)) as E0. cbn [nth] in E0. rewrite Nat.add_0_r in E0. rewrite E0. cbn [bind].
      rewrite (proj2 (IH (S i) ws)); [reflexivity|]. split; [exact F5|]. split; [cbn in F2; lia|]. intros j Hj. specialize (F3 (S j) ltac:(cbn; lia)). cbn [nth] in F3. replace (S i + j) with (i + S j) by lia. exact F3.
Qed.

(** The aided decoders give estimates of the library. *)
Lemma decode_word {W} c (predict : entropy_model FO -> list W -> res (list W)) (lib : list W -> res (tuple FO)) n m w m' a : gives_words n lib ->
  ed_decode FO parser c predict (fun w => do! t <- lib w in unpack_six FO t) m w = (m', Ok a) -> word n (estimate_of a).
Proof.
  intros Hg. assert (Fin : forall m r m' a w, (do! t <- lib w in unpack_six FO t) = Ok r -> ed_finish FO parser c m r = (m', Ok a) -> word n (estimate_of a)).
  { intros m0 r m0' a0 w0 Hr. destruct (lib w0) as [t|] eqn:Et; [|discriminate]. cbn [bind] in Hr. unfold unpack_six in Hr. destruct (Nat.eqb (length (t_more FO t)) 2); [|discriminate]. injection Hr as <-.
    unfold ed_finish. match goal with |- context [match ?x with Ok _ => _ | Err _ => _ end] => destruct x as [[bits [[parts v] s]]|e] end; [|discriminate].
    destruct (if negb (existsb is_unknown parts) then ed_update FO c m0 bits else (m0, Ok tt)) as [m1 [u|]]; cbn [bind]; [|discriminate]. intros [= _ <-]. exact (Hg _ _ Et). }
  unfold ed_decode. destruct (do! t <- lib w in unpack_six FO t) as [r|] eqn:E1; [|discriminate]. destruct r as [[[es x] s] it] eqn:Er. destruct s.
  - apply (Fin _ _ _ _ w E1).
  - destruct (predict m w) as [w'|]; cbn [bind]; [|discriminate]. destruct (do! t <- lib w' in unpack_six FO t) as [r'|] eqn:E2; [|discriminate]. apply (Fin _ _ _ _ w' E2).
Qed.

Definition plain_of (tl : tools FO) w d n : row FO := Row FO (t_estimate FO d) (t_llr FO d) (t_success FO d) (t_iterations FO d) (t_more FO d ++ [INum (Z.of_nat n); INum (Z.of_nat (length (differences (t_estimate FO d) w)))]).
Definition aided_of w (a : list Z * list F * bool * Z * nat) : row FO :=
  match a with (e, x, s, i, k) => Row FO e x s i [INum (Z.of_nat k); INum (Z.of_nat (length (differences e w)))] end.

Lemma aided_row_word n w a : word n w -> word n (estimate_of a) -> aided_row FO a w = Ok (aided_of w a).
Proof. intros Hw Ha. destruct a as [[[[e x] s] i] k]. cbn in Ha. unfold aided_row. rewrite (wrong_bits_words n) by assumption. reflexivity. Qed.

Notation segments tl := (fun (d : tuple FO) (k : nat) => exists parts v s, segment_buffer parser (tl_info FO tl (t_estimate FO d)) = Ok (parts, v, s) /\ length s = k).

Definition assemble (tl : tools FO) (encoded rx : list (list Z)) dl ns de df : list (list Z * row FO * row FO * row FO) :=
  map (fun z => match z with (w, r, (d, k), a, b) => (r, plain_of tl w d k, aided_of w a, aided_of w b) end)
      (combine (combine (combine (combine encoded rx) (combine dl ns)) de) df).

Lemma loop_iff tl nn m : gives_words nn (tl_soft FO tl) -> gives_words nn (tl_hard FO tl) -> forall encoded errors me mf, Forall (word nn) encoded -> length errors = length encoded -> Forall (draw nn m) errors ->
  forall t, legacy_loop FO parser tl errors encoded me mf = Ok t <->
   exists rx dl ns de df, length rx = length encoded /\ (forall i, i < length encoded -> received (nth i encoded []) (nth i errors []) (nth i rx [])) /\
     Forall2 (fun r d => tl_soft FO tl (tl_llr FO tl r) = Ok d) rx dl /\ Forall2 (segments tl) dl ns /\
     feeds (decoder_of (soft_decode FO parser tl)) me (map (tl_llr FO tl) rx) de /\ feeds (decoder_of (hard_decode FO parser tl)) mf rx df /\
     t = assemble tl encoded rx dl ns de df.
Proof.
  intros Gs Gh. induction encoded as [|w ws IH]; intros errors me mf W Le Dr t.
  - destruct errors; [|discriminate]. cbn [legacy_loop]. split.
    + intros [= <-]. exists [], [], [], [], []. split; [reflexivity|]. split; [intros j Hj; cbn in Hj; lia|]. repeat (split; [constructor|]). reflexivity.
    + intros (rx & dl & ns & de & df & L & _ & _ & _ & _ & _ & ->). reflexivity.
  - destruct errors as [|e es]; [discriminate|]. inversion W as [|? ? W1 W2]; subst. inversion Dr as [|? ? D1 D2]; subst. cbn [legacy_loop].
    destruct (toggle_received nn e w m W1 D1) as (c & Ec & Rc). rewrite Ec. cbn [bind]. cbv zeta. split.
    + destruct (tl_soft FO tl (tl_llr FO tl c)) as [d|] eqn:Ed; [|discriminate]. cbn [bind]. destruct (plain_row FO parser tl d w) as [rl|] eqn:Er; [|discriminate]. cbn [bind].
      destruct (soft_decode FO parser tl me (tl_llr FO tl c)) as [me' [a|]] eqn:Es; cbn [bind]; [|discriminate]. pose proof (decode_word _ _ _ nn _ _ _ _ Gs Es) as Wa. rewrite (aided_row_word nn) by assumption. cbn [bind].
      destruct (hard_decode FO parser tl mf c) as [mf' [b|]] eqn:Eh; cbn [bind]; [|discriminate]. pose proof (decode_word _ _ _ nn _ _ _ _ Gh Eh) as Wb. rewrite (aided_row_word nn) by assumption. cbn [bind].
      destruct (legacy_loop FO parser tl es ws me' mf') as [rest|] eqn:Erest; cbn [bind]; [|discriminate]. intros [= <-].
      apply IH in Erest; [|exact W2|cbn in Le; lia|exact D2]. destruct Erest as (rx & dl & ns & de & df & L & R & F1 & F2 & F3 & F4 & ->).
      unfold plain_row in Er. destruct (segment_buffer parser (tl_info FO tl (t_estimate FO d))) as [[[parts v] s]|] eqn:Eseg; [|discriminate]. cbn [bind] in Er.
      rewrite (wrong_bits_words nn) in Er by (auto; apply (Gs _ _ Ed)). cbn [bind] in Er. injection Er as <-.
      exists (c :: rx), (d :: dl), (length s :: ns), (a :: de), (b :: df). split; [cbn; lia|]. split; [intros [|i] Hi; cbn [nth]; [exact Rc|apply R; cbn in Hi; lia]|].
      split; [constructor; assumption|]. split; [constructor; [exists parts, v, s; auto|assumption]|]. split; [cbn [map]; apply feeds_cons with (s' := me'); [unfold decoder_of; rewrite Es; reflexivity|exact F3]|].
      split; [apply feeds_cons with (s' := mf'); [unfold decoder_of; rewrite Eh; reflexivity|exact F4]|]. reflexivity.
    + intros (rx & dl & ns & de & df & L & R & F1 & F2 & F3 & F4 & ->). destruct rx as [|r rx]; [discriminate|]. pose proof (R 0 ltac:(cbn; lia)) as R0. cbn [nth] in R0.
      assert (r = c) by (apply (received_unique w e); [apply W1|assumption|assumption]). subst r. inversion F1 as [|? d ? dl' Ed F1']; subst. inversion F2 as [|? k ? ns' Sk F2']; subst.
      cbn [map] in F3. inversion F3 as [|? ? a me' ? de' Ea F3']; subst. inversion F4 as [|? ? b mf' ? df' Eb F4']; subst. rewrite Ed. cbn [bind].
      unfold decoder_of in Ea, Eb. destruct (soft_decode FO parser tl me (tl_llr FO tl c)) as [m1 [a1|]] eqn:Es; [|discriminate]. injection Ea as -> ->.
      destruct (hard_decode FO parser tl mf c) as [m2 [b1|]] eqn:Eh; [|discriminate]. injection Eb as -> ->. destruct Sk as (parts & v & s & Eseg & <-). unfold plain_row. rewrite Eseg. cbn [bind].
      rewrite (wrong_bits_words nn) by (auto; apply (Gs _ _ Ed)). cbn [bind]. rewrite (aided_row_word nn) by (auto; apply (decode_word _ _ _ nn _ _ _ _ Gs Es)). cbn [bind].
      rewrite (aided_row_word nn) by (auto; apply (decode_word _ _ _ nn _ _ _ _ Gh Eh)). cbn [bind].
      rewrite (proj2 (IH es me' mf' W2 ltac:(cbn in Le; lia) D2 (assemble tl ws rx dl' ns' de' df'))); [reflexivity|].
      exists rx, dl', ns', de', df'. split; [cbn in L; lia|]. split; [intros i Hi; apply (R (S i)); cbn; lia|]. repeat split; assumption.
Qed.

Definition triples (answers : list (list Z * list F * bool * Z)) (more : list (list item)) (hs : list nat) : list (row FO) :=
  map (fun x => match x with (e, l, s, i, m, h) => Row FO e l s i (m ++ [INum (Z.of_nat h)]) end) (combine (combine answers more) hs).

Lemma triples_recovered : forall answers more hs, length answers = length hs -> length more = length hs ->
  recovered FO (item_last FO) (triples answers more hs) = Ok (Z.of_nat (zeros hs)).
Proof.
  unfold recovered. induction answers as [|[[[e x] s] i] answers IH]; intros [|m more] [|h hs] L1 L2; try discriminate; [reflexivity|]. unfold triples. cbn [combine map map_res]. unfold item_last at 1. cbn [r_more].
  rewrite rev_app_distr. cbn [rev app bind zero_flag]. fold (triples answers more hs). specialize (IH more hs ltac:(cbn in L1; lia) ltac:(cbn in L2; lia)). unfold triples in *.
  destruct (map_res _ _) as [fl|]; cbn [bind] in *; [|discriminate]. injection IH as IH. f_equal. cbn [sum_z fold_right]. change (fold_right Z.add 0%Z fl) with (sum_z fl). rewrite IH. unfold zeros. cbn [filter]. destruct (Nat.eqb_spec 0 h).
  - subst h. cbn [length Z.of_nat Z.eqb]. lia.
  - destruct (Z.eqb_spec (Z.of_nat h) 0); lia.
Qed.

Lemma errors_in_length sent ests : length ests = length sent -> length (errors_in sent ests) = length sent.
Proof. intros H. unfold errors_in. rewrite map_length, combine_length. lia. Qed.

Lemma triples_wrong n : forall sent answers more, length answers = length sent -> length more = length sent -> Forall (word n) sent -> Forall (fun a : list Z * list F * bool * Z => word n (fst (fst (fst a)))) answers ->
  map_res (fun er => wrong_bits (r_estimate FO (snd er)) (fst er)) (combine sent (triples answers more (errors_in sent (map (fun a => fst (fst (fst a))) answers)))) =
  Ok (map Z.of_nat (errors_in sent (map (fun a => fst (fst (fst a))) answers))).
Proof.
  induction sent as [|w sent IH]; intros [|[[[e x] s] i] answers] [|m more] L1 L2 W1 W2; try discriminate; [reflexivity|]. inversion W1; subst. inversion W2; subst. cbn [map]. unfold errors_in, triples. cbn [combine map map_res fst snd r_estimate].
  cbn [fst] in *. rewrite (wrong_bits_words n) by assumption. cbn [bind]. specialize (IH answers more ltac:(cbn in L1; lia) ltac:(cbn in L2; lia) ltac:(assumption) ltac:(assumption)). unfold errors_in, triples in IH. rewrite IH. reflexivity.
Qed.

Lemma sum_z_nat l : sum_z (map Z.of_nat l) = Z.of_nat (total l).
Proof. induction l as [|x l IH]; [reflexivity|]. cbn [map sum_z fold_right]. change (fold_right Z.add 0%Z (map Z.of_nat l)) with (sum_z (map Z.of_nat l)). rewrite IH. unfold total. cbn [fold_right]. lia. Qed.

Lemma table_iff n sent answers more t : 0 < n -> sent <> [] -> length answers = length sent -> length more = length sent -> Forall (word n) sent -> Forall (fun a : list Z * list F * bool * Z => word n (fst (fst (fst a)))) answers ->
  legacy_table_of FO (item_last FO) sent (triples answers more (errors_in sent (map (fun a => fst (fst (fst a))) answers))) = Ok t <-> tabulated FO n sent answers more t.
Proof.
  intros Hn Hs L1 L2 W1 W2. unfold legacy_table_of. rewrite triples_recovered by (rewrite errors_in_length; rewrite ?map_length, ?combine_length; lia). cbn [bind]. destruct (Nat.eqb_spec (length sent) 0) as [E|E]; [destruct sent; [contradiction|discriminate]|].
  assert (E0 : exists w, index sent 0 = Ok w /\ length w = n) by (destruct sent as [|w l]; [contradiction|]; exists w; split; [reflexivity|]; inversion W1 as [|? ? [? ?] ?]; assumption). destruct E0 as (w & -> & Lw). cbn [bind].
  rewrite (triples_wrong n) by assumption. cbn [bind]. rewrite Lw. destruct (Nat.eqb_spec (length sent * n) 0) as [E1|E1]; [lia|]. rewrite sum_z_nat. unfold tabulated. cbv zeta. fold (triples answers more (errors_in sent (map (fun a => fst (fst (fst a))) answers))). split.
  - intros [= <-]. repeat split.
  - destruct t as [a b c]. cbn [lt_rows lt_rate lt_ber]. intros (-> & -> & ->). reflexivity.
Qed.

Lemma feeds_length {M W A} (dec : M -> W -> res (A * M)) : forall m xs l, feeds dec m xs l -> length l = length xs.
Proof. intros m xs l H. induction H; cbn; congruence. Qed.
Lemma Forall2_len {A B} (R : A -> B -> Prop) l m : Forall2 R l m -> length l = length m.
Proof. intros H. induction H; cbn; congruence. Qed.

Lemma assemble_views tl : forall encoded rx dl ns de df, length rx = length encoded -> length dl = length encoded -> length ns = length encoded -> length de = length encoded -> length df = length encoded ->
  let t := assemble tl encoded rx dl ns de df in
  map (fun x => fst (fst (fst x))) t = rx /\
  map (fun x => snd (fst (fst x))) t = triples (map (fun d => (t_estimate FO d, t_llr FO d, t_success FO d, t_iterations FO d)) dl) (map (fun dk => t_more FO (fst dk) ++ [INum (Z.of_nat (snd dk))]) (combine dl ns))
     (errors_in encoded (map (fun a => fst (fst (fst a))) (map (fun d => (t_estimate FO d, t_llr FO d, t_success FO d, t_iterations FO d)) dl))) /\
  map (fun x => snd (fst x)) t = triples (map fst de) (map (fun a => [INum (Z.of_nat (snd a))]) de) (errors_in encoded (map (fun a => fst (fst (fst a))) (map fst de))) /\
  map snd t = triples (map fst df) (map (fun a => [INum (Z.of_nat (snd a))]) df) (errors_in encoded (map (fun a => fst (fst (fst a))) (map fst df))).
Proof.
  cbv zeta. induction encoded as [|w ws IH]; intros [|r rx] [|d dl] [|n ns] [|a de] [|b df] L1 L2 L3 L4 L5; try discriminate; [repeat split|].
  destruct (IH rx dl ns de df ltac:(cbn in L1; lia) ltac:(cbn in L2; lia) ltac:(cbn in L3; lia) ltac:(cbn in L4; lia) ltac:(cbn in L5; lia)) as (I1 & I2 & I3 & I4).
  destruct a as [[[[e x] s] i] k], b as [[[[e' x'] s'] i'] k']. split; [|split; [|split]]; cbn [assemble combine map fst snd].
  - f_equal. exact I1.
  - unfold triples, errors_in. cbn [combine map fst snd]. f_equal; [unfold plain_of; rewrite <- app_assoc; reflexivity|exact I2].
  - unfold triples, errors_in. cbn [combine map fst snd]. f_equal. exact I3.
  - unfold triples, errors_in. cbn [combine map fst snd]. f_equal. exact I4.
Qed.

Lemma feeds_words {W} c (predict : entropy_model FO -> list W -> res (list W)) (lib : list W -> res (tuple FO)) n : gives_words n lib -> forall xs m l,
  feeds (decoder_of (ed_decode FO parser c predict (fun w => do! t <- lib w in unpack_six FO t))) m xs l -> Forall (fun a => word n (fst (fst (fst a)))) (map fst l).
Proof.
  intros G xs m l H. induction H as [|m x a m' xs l E H IH]; [constructor|]. cbn [map]. constructor; [|exact IH]. unfold decoder_of in E.
  destruct (ed_decode FO parser c predict (fun w => do! t <- lib w in unpack_six FO t) m x) as [m1 [a1|]] eqn:E1; [|discriminate]. injection E as -> ->. apply (decode_word _ _ _ n _ _ _ _ G) in E1. exact E1.
Qed.

Lemma step_iff tl nn m : 0 < nn -> gives_words nn (tl_soft FO tl) -> gives_words nn (tl_hard FO tl) -> forall data encoded errors me mf, encoded <> [] -> Forall (word nn) encoded -> length errors = length encoded -> Forall (draw nn m) errors ->
  forall no_errors r, legacy_step FO parser (item_last FO) tl me mf data nn no_errors encoded errors = Ok r <-> reported FO parser tl me mf data nn no_errors encoded errors r.
Proof.
  intros Hnn Gs Gh data encoded errors me mf Hn W Le Dr no_errors r. unfold legacy_step.
  assert (E0 : exists w, index encoded 0 = Ok w /\ length w = nn) by (destruct encoded as [|w l]; [contradiction|]; exists w; split; [reflexivity|]; inversion W as [|? ? [? ?] ?]; assumption). destruct E0 as (w0 & E0 & L0).
  assert (Rest : forall rx dl ns de df, length rx = length encoded -> Forall2 (fun x d => tl_soft FO tl (tl_llr FO tl x) = Ok d) rx dl -> Forall2 (segments tl) dl ns ->
     feeds (decoder_of (soft_decode FO parser tl)) me (map (tl_llr FO tl) rx) de -> feeds (decoder_of (hard_decode FO parser tl)) mf rx df ->
     length dl = length encoded /\ length ns = length encoded /\ length de = length encoded /\ length df = length encoded /\
     Forall (fun a => word nn (fst (fst (fst a)))) (map (fun d => (t_estimate FO d, t_llr FO d, t_success FO d, t_iterations FO d)) dl) /\
     Forall (fun a => word nn (fst (fst (fst a)))) (map fst de) /\ Forall (fun a => word nn (fst (fst (fst a)))) (map fst df)).
  { intros rx dl ns de df L F1 F2 F3 F4. pose proof (Forall2_len _ _ _ F1). pose proof (Forall2_len _ _ _ F2). apply feeds_length in F3 as L3. apply feeds_length in F4 as L4. rewrite map_length in L3.
    repeat (split; [lia|]). split; [|split].
    - clear -F1 Gs. induction F1 as [|x d l l' E F1 IH]; [constructor|]. cbn [map]. constructor; [exact (Gs _ _ E)|exact IH].
    - apply (feeds_words _ _ _ nn Gs _ _ _ F3).
    - apply (feeds_words _ _ _ nn Gh _ _ _ F4). }
  split.
  - destruct (legacy_loop FO parser tl errors encoded me mf) as [t|] eqn:E; [|discriminate]. cbn [bind]. cbv zeta. apply (loop_iff tl nn m Gs Gh encoded errors me mf W Le Dr) in E. destruct E as (rx & dl & ns & de & df & L & R & F1 & F2 & F3 & F4 & ->).
    destruct (Rest rx dl ns de df L F1 F2 F3 F4) as (Ll & Ln & Lee & Lf & Wl & We & Wf). destruct (assemble_views tl encoded rx dl ns de df L Ll Ln Lee Lf) as (-> & -> & -> & ->).
    assert (M1 : length (map (fun dk => t_more FO (fst dk) ++ [INum (Z.of_nat (snd dk))]) (combine dl ns)) = length encoded) by (rewrite map_length, combine_length; lia).
    rewrite !triples_recovered by (rewrite errors_in_length; rewrite ?map_length, ?combine_length; lia). cbn [bind].
    destruct (legacy_table_of FO (item_last FO) encoded (triples (map _ dl) _ _)) as [tl1|] eqn:T1; [|discriminate]. cbn [bind].
    destruct (legacy_table_of FO (item_last FO) encoded (triples (map fst de) _ _)) as [te|] eqn:T2; [|discriminate]. cbn [bind].
    destruct (legacy_table_of FO (item_last FO) encoded (triples (map fst df) _ _)) as [tf|] eqn:T3; [|discriminate]. cbn [bind]. rewrite E0. cbn [bind]. intros [= <-].
    apply (table_iff nn) in T1; try assumption; try (rewrite ?map_length, ?combine_length; lia). apply (table_iff nn) in T2; try assumption; try (rewrite ?map_length, ?combine_length; lia). apply (table_iff nn) in T3; try assumption; try (rewrite ?map_length, ?combine_length; lia).
    exists dl, ns, de, df. cbn [lr_rx lr_data lr_encoded lr_n lr_len lr_raw_ber lr_ldpc lr_entropy lr_flipping]. repeat split; try assumption; try reflexivity; try apply R; try assumption; try apply T1; try apply T2; try apply T3.
  - intros (dl & ns & de & df & L & R & F1 & F2 & F3 & F4 & H1 & H2 & H3 & H4 & H5 & T1 & T2 & T3). destruct r as [rd re rr raw rlen rl rent rfl rn]. cbn [lr_rx lr_data lr_encoded lr_n lr_len lr_raw_ber lr_ldpc lr_entropy lr_flipping] in *. subst.
    destruct (Rest rr dl ns de df L F1 F2 F3 F4) as (Ll & Ln & Lee & Lf & Wl & We & Wf).
    rewrite (proj2 (loop_iff tl (length w0) m Gs Gh encoded errors me mf W Le Dr (assemble tl encoded rr dl ns de df))) by (exists rr, dl, ns, de, df; repeat split; try assumption; try apply R; assumption). cbn [bind]. cbv zeta.
    destruct (assemble_views tl encoded rr dl ns de df L Ll Ln Lee Lf) as (-> & -> & -> & ->).
    assert (M1 : length (map (fun dk => t_more FO (fst dk) ++ [INum (Z.of_nat (snd dk))]) (combine dl ns)) = length encoded) by (rewrite map_length, combine_length; lia).
    rewrite !triples_recovered by (rewrite errors_in_length; rewrite ?map_length, ?combine_length; lia). cbn [bind].
    apply table_iff in T1; try assumption; try (rewrite ?map_length, ?combine_length; lia). apply table_iff in T2; try assumption; try (rewrite ?map_length, ?combine_length; lia). apply table_iff in T3; try assumption; try (rewrite ?map_length, ?combine_length; lia).
    rewrite T1. cbn [bind]. rewrite T2. cbn [bind]. rewrite T3. cbn [bind]. rewrite E0. reflexivity.
Qed.
End P.
