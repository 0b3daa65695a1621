(** Lemmas on timestamps. *)
From Coq Require Import String Ascii List NArith Arith Bool Lia DecimalString DecimalN DecimalFacts.
From Verif Require Import Model.Timestamp Spec.TimestampSpec.
Import ListNotations.
Local Open Scope N_scope.

(** ** The calendar *)
Lemma month_positive y m : 28 <= month_length y m.
Proof. unfold month_length. destruct (m =? 2), (is_leap y), ((m =? 4) || (m =? 6) || (m =? 9) || (m =? 11))%bool; lia. Qed.

Definition earlier (a b : date) : Prop :=
  let '(y, m, d) := a in let '(y', m', d') := b in y < y' \/ (y = y' /\ (m < m' \/ (m = m' /\ d < d'))).

Lemma next_later x : earlier x (next_day x).
Proof.
  destruct x as [[y m] d]. unfold next_day. destruct (N.ltb_spec d (month_length y m)); [cbn; lia|]. destruct (N.ltb_spec m 12); cbn; lia.
Qed.
Lemma earlier_trans a b c : earlier a b -> earlier b c -> earlier a c.
Proof. destruct a as [[? ?] ?], b as [[? ?] ?], c as [[? ?] ?]. cbn. lia. Qed.
Lemma earlier_irr a : ~ earlier a a.
Proof. destruct a as [[? ?] ?]. cbn. lia. Qed.
Lemma div_next z k : 0 < k -> (z + 1) / k = z / k + (if (z + 1) mod k =? 0 then 1 else 0).
Proof.
  intros K. pose proof (N.div_mod z k ltac:(lia)) as D. pose proof (N.mod_lt z k ltac:(lia)) as B. set (q := z / k) in *. set (r := z mod k) in *. clearbody q r.
  destruct (N.eq_dec (r + 1) k) as [E|E].
  - assert (Z : z + 1 = (q + 1) * k) by nia. rewrite Z, N.div_mul, N.mod_mul by lia. cbn. lia.
  - assert (Z : z + 1 = k * q + (r + 1)) by lia. rewrite <- (N.div_unique (z + 1) k q (r + 1)), <- (N.mod_unique (z + 1) k q (r + 1)) by lia.
    destruct (N.eqb_spec (r + 1) 0); lia.
Qed.
Lemma mod_factor y a b : 0 < a -> 0 < b -> y mod (a * b) = 0 -> y mod a = 0.
Proof. intros A B H. apply N.mod_divide in H; [|lia]. apply N.mod_divide; [lia|]. destruct H as [q ->]. exists (q * b). lia. Qed.
Lemma year_length y : 1 <= y -> before_year (y + 1) = before_year y + (if is_leap y then 366 else 365).
Proof.
  intros Y. unfold before_year, is_leap. replace (y + 1 - 1) with ((y - 1) + 1) by lia. rewrite !div_next by lia. replace (y - 1 + 1) with y by lia.
  assert ((y - 1) / 100 <= (y - 1) / 4) by (apply N.div_le_compat_l; lia).
  pose proof (mod_factor y 100 4 eq_refl eq_refl) as F1. pose proof (mod_factor y 4 25 eq_refl eq_refl) as F2. cbn [N.mul Pos.mul Pos.add] in F1, F2.
  change (100 * 4) with 400 in F1. change (4 * 25) with 100 in F2.
  destruct (N.eqb_spec (y mod 4) 0), (N.eqb_spec (y mod 100) 0), (N.eqb_spec (y mod 400) 0); cbn [andb orb negb]; try (exfalso; auto; fail); lia.
Qed.
Lemma year_days y : 1 <= y -> before_month y 13 = if is_leap y then 366 else 365.
Proof.
  intros Y. unfold before_month. rewrite (year_length y Y). replace (before_year y + (if is_leap y then 366 else 365) - before_year y - 365) with (if is_leap y then 1 else 0) by (destruct (is_leap y); lia).
  destruct (is_leap y); reflexivity.
Qed.
Lemma month_days y m : 1 <= y -> 1 <= m <= 12 -> before_month y (m + 1) = before_month y m + month_length y m.
Proof.
  intros Y M. unfold before_month. rewrite (year_length y Y). replace (before_year y + (if is_leap y then 366 else 365) - before_year y - 365) with (if is_leap y then 1 else 0) by (destruct (is_leap y); lia).
  assert (C : m = 1 \/ m = 2 \/ m = 3 \/ m = 4 \/ m = 5 \/ m = 6 \/ m = 7 \/ m = 8 \/ m = 9 \/ m = 10 \/ m = 11 \/ m = 12) by lia. unfold month_length.
  destruct (is_leap y); repeat destruct C as [->|C]; try subst m; reflexivity.
Qed.
Lemma a_date_iff y m d : a_date (y, m, d) <-> 1 <= y /\ 1 <= m <= 12 /\ 1 <= d <= month_length y m.
Proof. unfold a_date. split; intros (Y & M & D); pose proof (month_days y m Y M); repeat split; lia. Qed.
Lemma next_date x : a_date x -> a_date (next_day x).
Proof.
  destruct x as [[y m] d]. rewrite a_date_iff. unfold next_day. intros (Y & H1 & H2). pose proof (month_positive y (m + 1)). pose proof (month_positive (y + 1) 1).
  destruct (N.ltb_spec d (month_length y m)); [apply a_date_iff; lia|]. destruct (N.ltb_spec m 12); apply a_date_iff; lia.
Qed.
Lemma next_ordinal x : a_date x -> ordinal (next_day x) = ordinal x + 1.
Proof.
  destruct x as [[y m] d]. rewrite a_date_iff. unfold next_day. intros (Y & H1 & H2). pose proof (month_days y m Y H1) as D.
  destruct (N.ltb_spec d (month_length y m)); [cbn [ordinal]; lia|]. destruct (N.ltb_spec m 12); cbn [ordinal]; [lia|].
  assert (m = 12) as -> by lia. change (12 + 1) with 13 in D.
  pose proof (year_days y Y) as E.
  rewrite (year_length y Y). change (before_month (y + 1) 1) with 0. lia.
Qed.
Lemma ordinal_later a b : a_date a -> a_date b -> earlier a b -> ordinal a < ordinal b.
Proof.
  destruct a as [[y m] d], b as [[y' m'] d']. rewrite !a_date_iff. intros (Y & M & D) (Y' & M' & D') E. cbn in E. cbn [ordinal].
  assert (MM : forall y k, 1 <= y -> 1 <= k <= 12 -> forall j, k + 1 <= j <= 13 -> before_month y k + month_length y k <= before_month y j).
  { intros z k Z K j J. rewrite <- month_days by assumption. revert J. induction j as [|j IH] using N.peano_ind; [lia|]. intros J. destruct (N.eq_dec (k + 1) (N.succ j)) as [->|]; [lia|].
    specialize (IH ltac:(lia)). rewrite <- N.add_1_r. rewrite (month_days z j) by lia. lia. }
  assert (YY : forall j, y + 1 <= j -> before_year y + before_month y 13 <= before_year j).
  { intros j. induction j as [|j IH] using N.peano_ind; [lia|]. intros J. pose proof (year_days y Y) as P.
    rewrite <- N.add_1_r. rewrite (year_length j) by lia. destruct (N.eq_dec y j) as [->|]; [rewrite P; lia|]. specialize (IH ltac:(lia)). destruct (is_leap j); lia. }
  destruct E as [E|[-> [E|[-> E]]]].
  - specialize (YY y' ltac:(lia)). pose proof (MM y m Y M 13 ltac:(lia)). lia.
  - pose proof (MM y' m Y' M m' ltac:(lia)). lia.
  - lia.
Qed.
Lemma ordinal_inj a b : a_date a -> a_date b -> ordinal a = ordinal b -> a = b.
Proof.
  intros A B E. assert (T : earlier a b \/ a = b \/ earlier b a).
  { destruct a as [[y m] d], b as [[y' m'] d']. cbn. destruct (N.lt_trichotomy y y') as [?|[->|?]]; [lia| |lia]. destruct (N.lt_trichotomy m m') as [?|[->|?]]; [lia| |lia].
    destruct (N.lt_trichotomy d d') as [?|[->|?]]; [lia|auto|lia]. }
  destruct T as [T|[T|T]]; [apply ordinal_later in T; [lia|assumption..]|exact T|apply ordinal_later in T; [lia|assumption..]].
Qed.
Lemma iter_later s n k : 0 < k -> earlier (N.iter n next_day s) (N.iter (n + k) next_day s).
Proof.
  induction k as [|k IH] using N.peano_ind; [lia|]. intros _. rewrite N.add_succ_r, N.iter_succ.
  destruct (N.eq_dec k 0) as [->|]; [rewrite N.add_0_r; apply next_later|]. eapply earlier_trans; [apply IH; lia|apply next_later].
Qed.
Lemma iter_inj s n k : N.iter n next_day s = N.iter k next_day s -> n = k.
Proof.
  intros E. destruct (N.lt_trichotomy n k) as [H|[H|H]]; [|exact H|]; exfalso.
  - pose proof (iter_later s n (k - n) ltac:(lia)) as X. replace (n + (k - n)) with k in X by lia. rewrite E in X. exact (earlier_irr _ X).
  - pose proof (iter_later s k (n - k) ltac:(lia)) as X. replace (k + (n - k)) with n in X by lia. rewrite E in X. exact (earlier_irr _ X).
Qed.
Lemma iter_date s n : a_date s -> a_date (N.iter n next_day s).
Proof. intros H. apply (N.peano_ind (fun n => a_date (N.iter n next_day s))); [exact H|]. intros k IH. rewrite N.iter_succ. now apply next_date. Qed.

Lemma iter_ordinal s n : a_date s -> ordinal (N.iter n next_day s) = ordinal s + n.
Proof.
  intros H. apply (N.peano_ind (fun n => ordinal (N.iter n next_day s) = ordinal s + n)); [cbn; lia|]. intros k IH. rewrite N.iter_succ, next_ordinal, IH by now apply iter_date. lia.
Qed.

(** ** Texts *)
Notation chars := list_ascii_of_string.
Lemma chars_app a b : chars (a ++ b)%string = (chars a ++ chars b)%list.
Proof. induction a as [|c a IH]; [reflexivity|]. cbn. now rewrite IH. Qed.
Lemma chars_inj a b : chars a = chars b -> a = b.
Proof. intros E. rewrite <- (string_of_list_ascii_of_string a), <- (string_of_list_ascii_of_string b), E. reflexivity. Qed.

Definition digit (c : ascii) : Prop := (48 <= nat_of_ascii c <= 57)%nat.
Lemma uint_digits u : Forall digit (chars (NilEmpty.string_of_uint u)).
Proof. induction u; cbn; constructor; try assumption; unfold digit; cbn; lia. Qed.
Lemma to_uint_nonnil n : N.to_uint n <> Decimal.Nil.
Proof. intros E. pose proof (Unsigned.of_to n) as X. rewrite E in X. cbn in X. rewrite <- X in E. discriminate E. Qed.
Lemma dec_empty n : dec n = NilEmpty.string_of_uint (N.to_uint n).
Proof. unfold dec, NilZero.string_of_uint. pose proof (to_uint_nonnil n). now destruct (N.to_uint n). Qed.
Lemma dec_digits n : Forall digit (chars (dec n)).
Proof. rewrite dec_empty. apply uint_digits. Qed.
Lemma dec_inj a b : dec a = dec b -> a = b.
Proof.
  rewrite !dec_empty. intros E. apply (f_equal NilEmpty.uint_of_string) in E. rewrite !NilEmpty.usu in E. injection E as E. now apply Unsigned.to_uint_inj.
Qed.
Lemma zeros_value k n : exists u, NilEmpty.uint_of_string (zeros k (dec n)) = Some u /\ N.of_uint u = n.
Proof.
  induction k as [|k (u & E & V)].
  - exists (N.to_uint n). cbn [zeros]. rewrite dec_empty, NilEmpty.usu. split; [reflexivity|apply Unsigned.of_to].
  - exists (Decimal.D0 u). cbn [zeros NilEmpty.uint_of_string]. rewrite E. split; [reflexivity|exact V].
Qed.
Lemma padded_inj w a b : padded w a = padded w b -> a = b.
Proof.
  unfold padded. intros E. destruct (zeros_value (w - String.length (dec a)) a) as (u & E1 & V1), (zeros_value (w - String.length (dec b)) b) as (v & E2 & V2).
  rewrite E, E2 in E1. injection E1 as <-. congruence.
Qed.
Lemma padded_digits w n : Forall digit (chars (padded w n)).
Proof. unfold padded. generalize (w - String.length (dec n))%nat. induction n0 as [|k IH]; [apply dec_digits|]. cbn. constructor; [unfold digit; cbn; lia|exact IH]. Qed.

(** Two texts cut at the first of a character. *)
Lemma cut_at (c : ascii) a b x y : (a ++ c :: x = b ++ c :: y)%list -> ~ In c a -> ~ In c b -> a = b /\ x = y.
Proof.
  revert b. induction a as [|d a IH]; intros [|e b] E Na Nb; cbn in E.
  - injection E as E. auto.
  - injection E as <- _. exfalso. apply Nb. now left.
  - injection E as -> _. exfalso. apply Na. now left.
  - injection E as -> E. destruct (IH b E) as [-> ->]; [intros K; apply Na; now right|intros K; apply Nb; now right|auto].
Qed.
Lemma digits_without l c : Forall digit l -> (nat_of_ascii c < 48)%nat \/ (57 < nat_of_ascii c)%nat -> ~ In c l.
Proof. intros F C I. rewrite Forall_forall in F. specialize (F c I). unfold digit in F. lia. Qed.
Lemma show_date_inj a b : show_date a = show_date b -> a = b.
Proof.
  destruct a as [[y m] d], b as [[y' m'] d']. unfold show_date. intros E. apply (f_equal chars) in E. rewrite !chars_app in E. cbn [chars app] in E.
  apply cut_at in E as [E1 E]; try (apply digits_without; [apply padded_digits|left; cbn; lia]).
  apply cut_at in E as [E2 E]; try (apply digits_without; [apply padded_digits|left; cbn; lia]).
  apply chars_inj, padded_inj in E1. apply chars_inj, padded_inj in E2. apply chars_inj, padded_inj in E. congruence.
Qed.
Lemma show_date_plain x : ~ In "_"%char (chars (show_date x)).
Proof.
  destruct x as [[y m] d]. unfold show_date. rewrite !chars_app. cbn [chars app]. intros I.
  assert (D : forall w n, ~ In "_"%char (chars (padded w n))) by (intros; apply digits_without; [apply padded_digits|right; cbn; lia]).
  apply in_app_or in I as [I|[I|I]]; [exact (D _ _ I)|discriminate I|]. apply in_app_or in I as [I|[I|I]]; [exact (D _ _ I)|discriminate I|exact (D _ _ I)].
Qed.
Lemma dec_plain n : ~ In "_"%char (chars (dec n)).
Proof. apply digits_without; [apply dec_digits|right; cbn; lia]. Qed.

(** ** Timestamps *)
Lemma timestamp_iff s a b : timestamp s a = timestamp s b <->
  at_date a / 1000000 / 86400 = at_date b / 1000000 / 86400 /\ hour (at_hour a) = hour (at_hour b) /\
  minute (at_minute a) = minute (at_minute b) /\ second (at_second a) = second (at_second b).
Proof.
  split.
  - unfold timestamp. intros E. apply (f_equal chars) in E. rewrite !chars_app in E. cbn [chars app] in E.
    apply cut_at in E as [E1 E]; try apply show_date_plain. apply cut_at in E as [E2 E]; try apply dec_plain. apply cut_at in E as [E3 E4]; try apply dec_plain.
    apply chars_inj, show_date_inj, iter_inj in E1. apply chars_inj, dec_inj in E2, E3, E4. auto.
  - intros (E1 & E2 & E3 & E4). unfold timestamp, today. rewrite E1, E2, E3, E4. reflexivity.
Qed.

(** The instant a timestamp stands for, in seconds. *)
Definition meant (r : reading) : N :=
  86400 * (sec (at_date r) / 86400) + 3600 * hour (at_hour r) + 60 * minute (at_minute r) + second (at_second r).
Lemma meant_iff s a b : timestamp s a = timestamp s b <-> meant a = meant b.
Proof.
  rewrite timestamp_iff. unfold meant, sec.
  pose proof (N.mod_lt (at_hour a / 1000000 / 3600) 24 ltac:(lia)). pose proof (N.mod_lt (at_hour b / 1000000 / 3600) 24 ltac:(lia)).
  pose proof (N.mod_lt (at_minute a / 1000000 / 60) 60 ltac:(lia)). pose proof (N.mod_lt (at_minute b / 1000000 / 60) 60 ltac:(lia)).
  pose proof (N.mod_lt (at_second a / 1000000) 60 ltac:(lia)). pose proof (N.mod_lt (at_second b / 1000000) 60 ltac:(lia)).
  unfold hour, minute, second. split; [intros (-> & -> & -> & ->); reflexivity|].
  repeat match goal with |- context [?x mod ?y] => generalize dependent (x mod y) end.
  generalize (at_date a / 1000000 / 86400), (at_date b / 1000000 / 86400). clear. intros. repeat split; lia.
Qed.
Lemma meant_lag r : in_order r -> meant r + lag r = sec (at_second r).
Proof.
  destruct r as [d h m s]. unfold in_order, meant, lag, begins. cbn [at_date at_hour at_minute at_second]. intros (O1 & O2 & O3).
  assert (S1 : sec d <= sec h) by (apply N.div_le_mono; lia). assert (S2 : sec h <= sec m) by (apply N.div_le_mono; lia). assert (S3 : sec m <= sec s) by (apply N.div_le_mono; lia).
  unfold hour, minute, second. fold (sec h) (sec m) (sec s). generalize dependent (sec d). generalize dependent (sec h). generalize dependent (sec m). generalize (sec s). clear.
  intros s m S3 h S2 d S1.
  pose proof (N.div_le_mono d h 86400 ltac:(lia) S1). pose proof (N.div_le_mono h m 3600 ltac:(lia) S2). pose proof (N.div_le_mono m s 60 ltac:(lia) S3).
  pose proof (N.div_mod s 60 ltac:(lia)). pose proof (N.div_mod (m / 60) 60 ltac:(lia)). pose proof (N.div_mod (h / 3600) 24 ltac:(lia)).
  assert (E1 : m / 60 / 60 = m / 3600) by (rewrite N.div_div by lia; reflexivity). assert (E2 : h / 3600 / 24 = h / 86400) by (rewrite N.div_div by lia; reflexivity).
  rewrite E1 in *. rewrite E2 in *.
  repeat match goal with |- context [?x mod ?y] => generalize dependent (x mod y) end. repeat match goal with |- context [?x / ?y] => generalize dependent (x / y) end. clear. intros. lia.
Qed.
Lemma meant_once t : meant (at_once t) = sec t.
Proof.
  pose proof (meant_lag (at_once t)) as X. unfold in_order, lag, begins, at_once in *. cbn [at_date at_hour at_minute at_second] in *. rewrite !N.sub_diag in X.
  specialize (X ltac:(lia)). lia.
Qed.

(** ** What a timestamp says *)
Lemma below (P : N -> bool) k : forallb (fun i => P (N.of_nat i)) (seq 0 k) = true -> forall n, n < N.of_nat k -> P n = true.
Proof. rewrite forallb_forall. intros H n B. rewrite <- (N2Nat.id n). apply H. apply in_seq. lia. Qed.
Lemma padded_two n : n < 100 -> String.length (padded 2 n) = 2%nat.
Proof. intros B. apply Nat.eqb_eq. apply (below (fun n => Nat.eqb (String.length (padded 2 n)) 2) 100); [vm_compute; reflexivity|lia]. Qed.
Lemma padded_four n : n < 10000 -> String.length (padded 4 n) = 4%nat.
Proof.
  intros B. apply Nat.eqb_eq. assert (n = 100 * (n / 100) + n mod 100) as -> by (apply N.div_mod; lia).
  pose proof (N.mod_lt n 100 ltac:(lia)) as L. assert (Q : n / 100 < 100) by (apply N.div_lt_upper_bound; lia). generalize dependent (n mod 100). generalize dependent (n / 100). clear. intros q Q r L.
  assert (A : forallb (fun i => forallb (fun j => Nat.eqb (String.length (padded 4 (100 * N.of_nat i + N.of_nat j))) 4) (seq 0 100)) (seq 0 100) = true) by (vm_compute; reflexivity).
  pose proof (below (fun i => forallb (fun j => Nat.eqb (String.length (padded 4 (100 * i + N.of_nat j))) 4) (seq 0 100)) 100 A q ltac:(lia)) as H.
  exact (below (fun j => Nat.eqb (String.length (padded 4 (100 * q + j))) 4) 100 H r ltac:(lia)).
Qed.
Lemma dec_short n : n < 100 -> String.length (dec n) = if n <? 10 then 1%nat else 2%nat.
Proof. intros B. apply Nat.eqb_eq. apply (below (fun n => Nat.eqb (String.length (dec n)) (if n <? 10 then 1%nat else 2%nat)) 100); [vm_compute; reflexivity|lia]. Qed.
Lemma padded_numeral w n : numeral (padded w n) n.
Proof. apply zeros_value. Qed.
Lemma dec_numeral n : numeral (dec n) n.
Proof. apply (zeros_value 0). Qed.
Lemma append_assoc a b c : ((a ++ b) ++ c = a ++ b ++ c)%string.
Proof. induction a as [|x a IH]; [reflexivity|]. cbn. now rewrite IH. Qed.
