(** Lemmas about the reader of the ship's logs. *)
From Coq Require Import String Ascii List Arith ZArith NArith Bool Lia.
From Verif.Model Require Import Py ShipLog.
From Verif.Spec Require Import ShipLogSpec.
Import ListNotations.

Lemma starts_spec p : forall s, starts p s = true <-> exists v, s = p ++ v.
Proof.
  induction p as [|a p IH]; intros s; cbn [starts].
  - split; [intros _; exists s; reflexivity|reflexivity].
  - destruct s as [|b s]; [split; [discriminate|intros [v K]; discriminate]|]. rewrite andb_true_iff, N.eqb_eq, IH. split.
    + intros [-> [v ->]]. exists v. reflexivity.
    + intros [v K]. injection K as -> ->. split; [reflexivity|]. exists v. reflexivity.
Qed.
Lemma occurs_0 p s : occurs p s 0 <-> exists v, s = p ++ v.
Proof. split; [intros ([|? ?] & v & E & L); [exists v; exact E|discriminate]|intros [v ->]; exists [], v; split; reflexivity]. Qed.
Lemma occurs_S p c s k : occurs p (c :: s) (S k) <-> occurs p s k.
Proof.
  split.
  - intros ([|d u] & v & E & L); [discriminate|]. cbn in E. injection E as -> ->. exists u, v. split; [reflexivity|]. cbn in L. lia.
  - intros (u & v & -> & <-). exists (c :: u), v. split; reflexivity.
Qed.
Lemma occurs_len p s k : occurs p s k -> k + length p <= length s.
Proof. intros (u & v & -> & <-). rewrite !app_length. lia. Qed.

Lemma find_cases p s : match find_bytes p s with Some k => first_at p s k | None => absent p s end.
Proof.
  induction s as [|c s IH]; cbn [find_bytes].
  - destruct (starts p []) eqn:E.
    + apply starts_spec in E. apply occurs_0 in E. split; [exact E|]. intros; lia.
    + intros k O. pose proof (occurs_len _ _ _ O) as L. cbn in L. assert (k = 0) as -> by lia. apply occurs_0, starts_spec in O. congruence.
  - destruct (starts p (c :: s)) eqn:E.
    + apply starts_spec, occurs_0 in E. split; [exact E|]. intros; lia.
    + assert (N0 : ~ occurs p (c :: s) 0) by (intro O; apply occurs_0, starts_spec in O; congruence).
      destruct (find_bytes p s) as [k|]; cbn [option_map].
      * destruct IH as [O M]. split; [apply occurs_S; exact O|]. intros [|j] Oj; [contradiction|]. apply (proj1 (occurs_S _ _ _ _)) in Oj. apply M in Oj. lia.
      * intros [|j] Oj; [contradiction|]. exact (IH j (proj1 (occurs_S _ _ _ _) Oj)).
Qed.
Lemma first_unique p s j k : first_at p s j -> first_at p s k -> j = k.
Proof. intros [A B] [C D]. specialize (B _ C). specialize (D _ A). lia. Qed.
Lemma find_some p s k : find_bytes p s = Some k <-> first_at p s k.
Proof.
  pose proof (find_cases p s) as C. split; intros H; [rewrite H in C; exact C|].
  destruct (find_bytes p s); [f_equal; eapply first_unique; eassumption|]. destruct H as [O _]. destruct (C _ O).
Qed.
Lemma find_none p s : find_bytes p s = None <-> absent p s.
Proof.
  pose proof (find_cases p s) as C. split; intros H; [rewrite H in C; exact C|].
  destruct (find_bytes p s); [|reflexivity]. destruct C as [O _]. destruct (H _ O).
Qed.
Lemma find_z_at p s k : first_at p s k -> find_z p s = Z.of_nat k.
Proof. intros H. unfold find_z. apply find_some in H. rewrite H. reflexivity. Qed.

(** Split. *)
Lemma first_cut p s k : first_at p s k -> s = firstn k s ++ p ++ skipn (k + length p) s.
Proof.
  intros [(u & v & -> & <-) _]. rewrite firstn_app, firstn_all, Nat.sub_diag, firstn_O, app_nil_r.
  rewrite skipn_app, skipn_all2 by lia. replace (length u + length p - length u) with (length p) by lia. rewrite skipn_app, skipn_all, Nat.sub_diag. reflexivity.
Qed.
Lemma first_absent p s k : p <> [] -> first_at p s k -> absent p (firstn k s).
Proof.
  intros Hp Hf j O. pose proof (first_cut _ _ _ Hf) as E. pose proof (occurs_len _ _ _ O) as L. rewrite firstn_length in L. destruct p as [|a p]; [contradiction|]. cbn [length] in L.
  destruct Hf as [_ M]. specialize (M j). destruct M; [|lia..]. rewrite E. destruct O as (u & v & Eu & <-). rewrite Eu. exists u, (v ++ (a :: p) ++ skipn (k + length (a :: p)) s). split; [|reflexivity]. rewrite <- !app_assoc. reflexivity.
Qed.
Lemma split_pieces p : p <> [] -> forall fuel s, length s <= fuel -> Forall (absent p) (split_fuel fuel p s) /\ exists h t, split_fuel fuel p s = h :: t /\ s = h ++ concat (map (app p) t).
Proof.
  intros Hp. induction fuel as [|fuel IH]; intros s L; cbn [split_fuel].
  - destruct s; [|cbn in L; lia]. split; [|exists [], []; split; reflexivity]. constructor; [|constructor]. intros k O. apply occurs_len in O. destruct p; [contradiction|]. cbn in O. lia.
  - destruct (find_bytes p s) as [k|] eqn:E.
    + apply find_some in E. pose proof (first_cut _ _ _ E) as C. assert (Lp : 0 < length p) by (destruct p; [contradiction|cbn; lia]).
      destruct (IH (skipn (k + length p) s)) as (A & h & t & Et & Es).
      { rewrite skipn_length. destruct E as [O _]. apply occurs_len in O. lia. }
      split; [constructor; [apply first_absent; assumption|exact A]|]. exists (firstn k s), (split_fuel fuel p (skipn (k + length p) s)). split; [reflexivity|]. rewrite Et. cbn [map concat]. rewrite C at 1. rewrite Es at 1. rewrite !app_assoc. reflexivity.
    + apply find_none in E. split; [constructor; [exact E|constructor]|]. exists s, []. split; [reflexivity|]. cbn. rewrite app_nil_r. reflexivity.
Qed.
Lemma split_more p s : p <> [] -> forall fuel fuel', length s <= fuel -> length s <= fuel' -> split_fuel fuel p s = split_fuel fuel' p s.
Proof.
  intros Hp fuel. revert s. induction fuel as [|fuel IH]; intros s fuel' L L'.
  - destruct s; [|cbn in L; lia]. destruct fuel'; [reflexivity|]. cbn [split_fuel]. destruct (find_bytes p []) eqn:E; [|reflexivity]. apply find_some in E. destruct E as [O _]. apply occurs_len in O. destruct p; [contradiction|]. cbn in O. lia.
  - cbn [split_fuel]. destruct (find_bytes p s) as [k|] eqn:E.
    + pose proof E as E'. apply find_some in E'. destruct E' as [O _]. apply occurs_len in O. assert (Lp : 0 < length p) by (destruct p; [contradiction|cbn; lia]).
      destruct fuel' as [|fuel']; [lia|]. cbn [split_fuel]. rewrite E. f_equal. apply IH; rewrite skipn_length; lia.
    + destruct fuel'; cbn [split_fuel]; rewrite ?E; reflexivity.
Qed.
Lemma split_first p u v : p <> [] -> first_at p (u ++ p ++ v) (length u) -> split_bytes p (u ++ p ++ v) = u :: split_bytes p v.
Proof.
  intros Hp Hf. unfold split_bytes. assert (Lp : 0 < length p) by (destruct p; [contradiction|cbn; lia]).
  destruct (length (u ++ p ++ v)) as [|n] eqn:L; [rewrite !app_length in L; lia|]. cbn [split_fuel]. apply find_some in Hf. rewrite Hf. f_equal.
  - rewrite firstn_app, firstn_all, Nat.sub_diag, firstn_O, app_nil_r. reflexivity.
  - rewrite skipn_app, skipn_all2 by lia. replace (length u + length p - length u) with (length p) by lia. rewrite skipn_app, skipn_all, Nat.sub_diag. cbn [app skipn]. apply split_more; auto. rewrite !app_length in L. lia.
Qed.
Lemma split_absent p s : absent p s -> split_bytes p s = [s].
Proof. intros H. apply find_none in H. unfold split_bytes. destruct (length s); cbn [split_fuel]; rewrite ?H; reflexivity. Qed.

(** A pattern whose first byte occurs only once cannot overlap itself. *)
Lemma first_after a p u v : ~ In a p -> absent (a :: p) u -> first_at (a :: p) (u ++ (a :: p) ++ v) (length u).
Proof.
  intros Hn Ha. split; [exists u, v; split; reflexivity|]. intros j (x & y & E & <-). destruct (le_lt_dec (length u) (length x)) as [|Hl]; [assumption|exfalso].
  destruct (le_lt_dec (length x + length (a :: p)) (length u)) as [Hs|Hs].
  - apply (Ha (length x)). exists x, (firstn (length u - length x - length (a :: p)) y). split; [|reflexivity].
    apply (f_equal (firstn (length u))) in E. rewrite firstn_app, firstn_all, Nat.sub_diag, firstn_O, app_nil_r in E. rewrite E at 1.
    rewrite firstn_app, firstn_all2 by lia. f_equal. rewrite firstn_app, firstn_all2 by lia. reflexivity.
  - assert (N1 : nth_error (u ++ (a :: p) ++ v) (length u) = Some a) by (rewrite nth_error_app2, Nat.sub_diag by lia; reflexivity).
    rewrite E in N1. rewrite nth_error_app2 in N1 by lia. rewrite nth_error_app1 in N1 by lia. destruct (length u - length x) as [|d] eqn:D; [lia|]. cbn [nth_error] in N1. apply nth_error_In in N1. contradiction.
Qed.

(** int. *)
Lemma is_blank_spec c : is_blank c = true <-> blank c.
Proof. unfold is_blank, blank. rewrite orb_true_iff, !andb_true_iff, !N.leb_le. tauto. Qed.
Lemma is_digit_spec c : is_digit c = true <-> (48 <= c <= 57)%N.
Proof. unfold is_digit. rewrite andb_true_iff, !N.leb_le. tauto. Qed.
Lemma strip_left_blanks w s : Forall blank w -> strip_left (w ++ s) = strip_left s.
Proof. induction w as [|c w IH]; intros H; [reflexivity|]. inversion H; subst. cbn [app strip_left]. apply is_blank_spec in H2. rewrite H2. apply IH. assumption. Qed.
Lemma strip_left_stays c s : ~ blank c -> strip_left (c :: s) = c :: s.
Proof. intros H. cbn [strip_left]. destruct (is_blank c) eqn:E; [|reflexivity]. apply is_blank_spec in E. contradiction. Qed.
Lemma strip_padded w m w' x y r : Forall blank w -> Forall blank w' -> m = x :: r -> ~ blank x -> ~ blank y -> (exists u, m = u ++ [y]) -> strip (w ++ m ++ w') = m.
Proof.
  intros Hw Hw' -> Hx Hy (u & Eu). unfold strip. rewrite strip_left_blanks by assumption. cbn [app]. rewrite strip_left_stays by assumption.
  change (x :: r ++ w') with ((x :: r) ++ w'). rewrite rev_app_distr, strip_left_blanks by (apply Forall_rev; assumption). rewrite Eu, rev_app_distr. cbn [rev app].
  rewrite strip_left_stays by assumption. cbn [rev]. rewrite rev_involutive. reflexivity.
Qed.
Lemma strip_left_split s : exists w, s = w ++ strip_left s /\ Forall blank w.
Proof.
  induction s as [|c s (w & E & F)]; [exists []; auto|]. cbn [strip_left]. destruct (is_blank c) eqn:Eb; [|exists []; auto].
  exists (c :: w). split; [cbn [app]; f_equal; exact E|constructor; [apply is_blank_spec; exact Eb|exact F]].
Qed.
Lemma strip_split s : exists w w', s = w ++ strip s ++ w' /\ Forall blank w /\ Forall blank w'.
Proof.
  destruct (strip_left_split s) as (w & E & F). destruct (strip_left_split (rev (strip_left s))) as (w' & E' & F'). exists w, (rev w'). split; [|split; [exact F|apply Forall_rev; exact F']].
  rewrite E at 1. f_equal. apply (f_equal (@rev N)) in E'. rewrite rev_involutive, rev_app_distr in E'. exact E'.
Qed.
Definition value_from (acc : Z) (ds : list N) : Z := fold_left (fun a c => (10 * a + (Z.of_N c - 48))%Z) ds acc.
Lemma digits_both : forall s acc v,
  (digits false acc s = Ok v <-> exists ds, numeral s ds /\ v = value_from acc ds) /\
  (digits true acc s = Ok v <-> s = [] /\ v = acc \/ (exists ds, numeral s ds /\ v = value_from acc ds) \/ exists t ds, s = 95%N :: t /\ numeral t ds /\ v = value_from acc ds).
Proof.
  induction s as [|c s IH]; intros acc v.
  - cbn [digits]. split; split.
    + discriminate.
    + intros (ds & H & _). inversion H.
    + intros E. injection E as ->. auto.
    + intros [[_ ->] | [(ds & H & _) | (t & ds & H & _)]]; [reflexivity|inversion H|discriminate].
  - cbn [digits]. destruct (is_digit c) eqn:D.
    + apply is_digit_spec in D. destruct (IH (10 * acc + (Z.of_N c - 48))%Z v) as [_ I2].
      assert (G : digits true (10 * acc + (Z.of_N c - 48)) s = Ok v <-> exists ds, numeral (c :: s) ds /\ v = value_from acc ds).
      { rewrite I2. split.
        - intros [[-> ->] | [(ds & H & ->) | (t & ds & -> & H & ->)]].
          + exists [c]. split; [constructor; exact D|reflexivity].
          + exists (c :: ds). split; [apply nu_digit; assumption|reflexivity].
          + exists (c :: ds). split; [apply nu_underscore; assumption|reflexivity].
        - intros (ds & H & ->). inversion H; subst.
          + left. split; reflexivity.
          + right. left. eexists. split; [eassumption|reflexivity].
          + right. right. do 2 eexists. split; [reflexivity|]. split; [eassumption|reflexivity]. }
      split; [exact G|]. rewrite G. split; [auto|]. intros [[Q _] | [H | (t & ds & Q & _)]]; [discriminate|exact H|]. injection Q as -> _. lia.
    + assert (ND : ~ a_digit c) by (intro K; apply is_digit_spec in K; congruence). assert (Nn : forall ds, ~ numeral (c :: s) ds) by (intros ds K; inversion K; subst; contradiction).
      rewrite andb_false_r, andb_true_r. split; [split; [discriminate|]; intros (ds & H & _); exfalso; eapply Nn; exact H|].
      destruct (N.eqb_spec c 95) as [->|N95].
      * destruct (IH acc v) as [I1 _]. rewrite I1. split; [intros (ds & H); right; right; exists s, ds; tauto|]. intros [[Q _] | [(ds & H & _) | (t & ds & Q & H)]]; [discriminate|exfalso; eapply Nn; exact H|]. injection Q as <-. exists ds. exact H.
      * split; [discriminate|]. intros [[Q _] | [(ds & H & _) | (t & ds & Q & _)]]; [discriminate|exfalso; eapply Nn; exact H|]. injection Q as -> _. contradiction.
Qed.
Lemma digits_spec s v : digits false 0 s = Ok v <-> exists ds, numeral s ds /\ v = digit_value ds.
Proof. apply (digits_both s 0%Z v). Qed.
Lemma digits_err : forall s b acc e, digits b acc s = Err e -> e = ValueError.
Proof. induction s as [|c s IH]; intros b acc e; cbn [digits]; [destruct b; congruence|]. destruct (is_digit c); [apply IH|]. destruct (_ && _)%bool; [apply IH|congruence]. Qed.
Lemma numeral_ends s ds : numeral s ds -> (exists x r, s = x :: r /\ a_digit x) /\ exists u y, s = u ++ [y] /\ a_digit y.
Proof.
  induction 1 as [d D|d t ds D H [_ (u & y & -> & Y)]|d t ds D H [_ (u & y & -> & Y)]]; (split; [eexists _, _; split; [reflexivity|exact D]|]).
  - exists [], d. auto.
  - exists (d :: u), y. auto.
  - exists (d :: 95%N :: u), y. auto.
Qed.
Lemma int_writes txt v : py_int txt = Ok v <-> writes txt v.
Proof.
  split.
  - intro E. destruct (strip_split txt) as (w & w' & Et & Hw & Hw'). unfold py_int in E. destruct (strip txt) as [|c t]; [discriminate|].
    destruct (N.eqb_spec c 45) as [->|N1]; [|destruct (N.eqb_spec c 43) as [->|N2]].
    + destruct (digits false 0 t) as [u|] eqn:Ed; [|discriminate]. cbn [bind] in E. injection E as <-. apply digits_spec in Ed as (ds & Hn & ->). exists w, (ascii "-"), t, w', ds. auto 7.
    + apply digits_spec in E as (ds & Hn & ->). exists w, (ascii "+"), t, w', ds. auto 8.
    + apply digits_spec in E as (ds & Hn & ->). exists w, [], (c :: t), w', ds. auto 8.
  - intros (w & sign & num & w' & ds & -> & Hw & Hw' & Hn & Hv). destruct (numeral_ends num ds Hn) as [(x & r & Ex & Dx) (u & y & Ey & Dy)].
    assert (NB : forall c, a_digit c -> ~ blank c) by (unfold a_digit, blank; intros; lia).
    assert (ES : strip (w ++ sign ++ num ++ w') = sign ++ num).
    { rewrite (app_assoc sign). destruct Hv as [[-> _] | [[-> | -> ] _]].
      - eapply strip_padded; [assumption|assumption|reflexivity| |apply (NB y Dy)|exists (ascii "-" ++ u); rewrite Ey, app_assoc; reflexivity]. unfold blank. cbn. lia.
      - eapply strip_padded; [assumption|assumption|reflexivity| |apply (NB y Dy)|exists (ascii "+" ++ u); rewrite Ey, app_assoc; reflexivity]. unfold blank. cbn. lia.
      - cbn [app]. eapply strip_padded; [assumption|assumption|exact Ex|apply (NB x Dx)|apply (NB y Dy)|exists u; exact Ey]. }
    unfold py_int. rewrite ES. pose proof (proj2 (digits_spec num (digit_value ds)) (ex_intro _ ds (conj Hn eq_refl))) as Ed. destruct Hv as [[-> ->] | [[-> | -> ] ->]].
    + change (ascii "-" ++ num) with (45%N :: num). cbn [N.eqb Pos.eqb]. rewrite Ed. reflexivity.
    + change (ascii "+" ++ num) with (43%N :: num). cbn [N.eqb Pos.eqb]. exact Ed.
    + cbn [app]. rewrite Ex in *. unfold a_digit in Dx. destruct (N.eqb_spec x 45) as [K|_]; [lia|]. destruct (N.eqb_spec x 43) as [K|_]; [lia|]. exact Ed.
Qed.
Lemma int_err txt e : py_int txt = Err e -> e = ValueError.
Proof.
  unfold py_int. destruct (strip txt) as [|c t]; [congruence|]. destruct (c =? 45)%N; [|destruct (c =? 43)%N; apply digits_err].
  destruct (digits false 0 t) as [v|e'] eqn:E; cbn [bind]; [discriminate|]. intro Q. injection Q as <-. eapply digits_err. exact E.
Qed.
Lemma int_digit c : (48 <= c <= 57)%N -> py_int [c] = Ok (Z.of_N c - 48)%Z.
Proof. intros H. apply int_writes. exists [], [], [c], [], [c]. split; [reflexivity|]. split; [constructor|]. split; [constructor|]. split; [constructor; exact H|]. right. split; [auto|]. unfold digit_value. cbn [fold_left]. lia. Qed.

(** Slices. *)
Lemma slice_mid (u m v : list N) (i j : Z) : i = Z.of_nat (length u) -> j = Z.of_nat (length u + length m) -> slice_z (u ++ m ++ v) i j = m.
Proof.
  intros -> ->. unfold slice_z, norm_bound. rewrite !app_length. destruct (Z.ltb_spec (Z.of_nat (length u)) 0); [lia|]. destruct (Z.ltb_spec (Z.of_nat (length u + length m)) 0); [lia|].
  rewrite !Nat2Z.id. rewrite !Nat.min_r by lia. replace (length u + length m - length u) with (length m) by lia. rewrite skipn_app, skipn_all, Nat.sub_diag. cbn [app skipn]. rewrite firstn_app, firstn_all, Nat.sub_diag, firstn_O, app_nil_r. reflexivity.
Qed.

Lemma split_log : forall is before, absent (ascii "Aquisition ") before -> Forall (fun i => absent (ascii "Aquisition ") (item_text i)) is ->
  split_bytes (ascii "Aquisition ") (log_text before is) = before :: map item_text is.
Proof.
  induction is as [|i is IH]; intros before Hb Hi; unfold log_text; cbn [map concat].
  - rewrite app_nil_r. apply split_absent. exact Hb.
  - inversion Hi; subst. rewrite <- app_assoc. rewrite split_first; [|discriminate|].
    + f_equal. apply IH; assumption.
    + apply first_after; [|exact Hb]. cbn. intuition discriminate.
Qed.

Lemma find_z_absent p s : absent p s -> (0 <=? find_z p s)%Z = false.
Proof. intros H. apply find_none in H. unfold find_z. rewrite H. reflexivity. Qed.
Lemma find_z_first p s k : first_at p s k -> (0 <=? find_z p s)%Z = true.
Proof. intros H. rewrite (find_z_at _ _ _ H). apply Z.leb_le. lia. Qed.

Section Entry.
Variable T : Type.
Variable strptime : list N -> res T.

Lemma read_entry_text e : readable e ->
  read_entry T strptime (entry_text e) = (do! t <- strptime (ascii " " ++ n_time e) in do! v <- py_int (n_size e) in Ok (Acquisition t v (Z.of_N (n_success e) - 48) (firstn 123 (n_payload e)))).
Proof.
  intros (Ht & Hc & Hs & Hd & Ha & _ & Le & Hg). unfold read_entry. cbv zeta.
  assert (Fs : first_at (ascii "data success: ") (entry_text e) (length (head_text e))).
  { split; [exists (head_text e), ([n_success e] ++ n_eol e ++ n_payload e); split; reflexivity|]. intros j (x & y & E & <-). apply Hd. exists x, (ascii ": " ++ y). split; [|reflexivity]. rewrite E. reflexivity. }
  assert (Sp : split_bytes (ascii "data success: ") (entry_text e) = [head_text e; [n_success e] ++ n_eol e ++ n_payload e]).
  { unfold entry_text in *. rewrite split_first by (try exact Fs; discriminate). rewrite split_absent by exact Ha. reflexivity. }
  rewrite Sp. cbn [index nth_error bind].
  rewrite (find_z_at _ _ _ Ht), (find_z_at _ _ _ Hc), (find_z_at _ _ _ Hs), (find_z_at _ _ _ Hd).
  assert (E1 : slice_z (entry_text e) (Z.of_nat (length (n_before e)) + 5) (Z.of_nat (length (n_before e ++ ascii "time: " ++ n_time e))) = ascii " " ++ n_time e).
  { replace (entry_text e) with ((n_before e ++ ascii "time:") ++ (ascii " " ++ n_time e) ++ (crlf ++ n_between e ++ ascii "data size: " ++ n_size e ++ ascii "data success: " ++ [n_success e] ++ n_eol e ++ n_payload e)).
    - apply slice_mid; rewrite !app_length; cbn [length ascii]; lia.
    - unfold entry_text, head_text. change (ascii "time: ") with (ascii "time:" ++ ascii " "). rewrite <- !app_assoc. reflexivity. }
  rewrite E1. destruct (strptime (ascii " " ++ n_time e)) as [t|er]; [|reflexivity]. cbn [bind].
  assert (E2 : slice_z (entry_text e) (Z.of_nat (length (n_before e ++ ascii "time: " ++ n_time e ++ crlf ++ n_between e)) + 11) (Z.of_nat (length (head_text e))) = n_size e).
  { replace (entry_text e) with ((n_before e ++ ascii "time: " ++ n_time e ++ crlf ++ n_between e ++ ascii "data size: ") ++ n_size e ++ (ascii "data success: " ++ [n_success e] ++ n_eol e ++ n_payload e)).
    - apply slice_mid; unfold head_text; rewrite !app_length; cbn [length ascii]; lia.
    - unfold entry_text, head_text. rewrite <- !app_assoc. reflexivity. }
  rewrite E2. destruct (py_int (n_size e)) as [v|er]; [|reflexivity]. cbn [bind].
  destruct (n_eol e) as [|x [|y [|z r]]]; try discriminate Le. cbn [app firstn skipn]. rewrite int_digit by exact Hg. reflexivity.
Qed.
Lemma read_entry_ok e t v : readable e -> strptime (ascii " " ++ n_time e) = Ok t -> writes (n_size e) v ->
  read_entry T strptime (entry_text e) = Ok (Acquisition t v (Z.of_N (n_success e) - 48) (firstn 123 (n_payload e))).
Proof. intros R Et Ws. rewrite read_entry_text, Et by exact R. apply int_writes in Ws. cbn [bind]. rewrite Ws. reflexivity. Qed.

(** Logs. *)
Lemma break_acc bs : forall acc, fold_res (fun acc buffer => if (0 <=? find_z (ascii "time: ") buffer)%Z then do! d <- read_entry T strptime buffer in Ok (acc ++ [d]) else Ok acc) bs acc =
  (do! l <- break_down T strptime bs in Ok (acc ++ l)).
Proof.
  unfold break_down. induction bs as [|b bs IH]; intros acc; cbn [fold_res bind].
  - rewrite app_nil_r. reflexivity.
  - destruct (0 <=? find_z (ascii "time: ") b)%Z; cbn [bind].
    + destruct (read_entry T strptime b) as [d|er]; cbn [bind]; [|reflexivity]. rewrite (IH (acc ++ [d])), (IH ([] ++ [d])). destruct (fold_res _ bs []); cbn [bind]; [|reflexivity]. rewrite <- app_assoc. reflexivity.
    + rewrite IH. destruct (fold_res _ bs []); reflexivity.
Qed.
Lemma break_cons b bs : break_down T strptime (b :: bs) =
  if (0 <=? find_z (ascii "time: ") b)%Z then do! d <- read_entry T strptime b in do! l <- break_down T strptime bs in Ok (d :: l) else break_down T strptime bs.
Proof.
  unfold break_down at 1. cbn [fold_res]. destruct (0 <=? find_z (ascii "time: ") b)%Z; cbn [bind].
  - destruct (read_entry T strptime b) as [d|er]; cbn [bind]; [|reflexivity]. apply break_acc.
  - rewrite break_acc. destruct (break_down T strptime bs); reflexivity.
Qed.
Lemma break_skip b bs : absent (ascii "time: ") b -> break_down T strptime (b :: bs) = break_down T strptime bs.
Proof. intros H. rewrite break_cons, find_z_absent by exact H. reflexivity. Qed.

Lemma break_items is l : to_read strptime is l -> Forall (fun i => absent (ascii "Aquisition ") (item_text i)) is /\ break_down T strptime (map item_text is) = Ok l.
Proof.
  induction 1 as [|b is l [Hj Ha] R [F B]|e is l t v Re Et Ws R [F B]].
  - split; [constructor|reflexivity].
  - split; [constructor; assumption|]. cbn [map item_text]. rewrite break_skip by exact Hj. exact B.
  - split; [constructor; [apply Re|assumption]|]. cbn [map item_text]. rewrite break_cons. rewrite (find_z_first _ _ _ (proj1 Re)). rewrite (read_entry_ok e t v Re Et Ws). cbn [bind]. rewrite B. reflexivity.
Qed.
End Entry.
