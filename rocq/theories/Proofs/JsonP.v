(** Lemmas about the text of JSON documents (C109). *)
From Coq Require Import String Ascii List ZArith NArith Bool Arith Lia.
From Coq Require DecimalFacts DecimalN.
From Verif.Model Require Import Py ShipLog JsonText.
From Verif.Model Require Cmd.
From Verif.Spec Require Import JsonSpec.
From Verif.Proofs Require CmdP.
Import ListNotations.
Local Open Scope N_scope.
Local Open Scope list_scope.

(** Hexadecimal digits. *)
Lemma unhex_hexd d : d < 16 -> unhex (hexd d) = Some d.
Proof.
  intro H. unfold hexd, unhex. destruct (N.ltb_spec d 10).
  - destruct (N.leb_spec 48 (48 + d)), (N.leb_spec (48 + d) 57); cbn [andb]; try lia. f_equal. lia.
  - destruct (N.leb_spec 48 (87 + d)), (N.leb_spec (87 + d) 57); cbn [andb]; try lia;
    destruct (N.leb_spec 97 (87 + d)), (N.leb_spec (87 + d) 102); cbn [andb]; try lia; f_equal; lia.
Qed.
Lemma unhex4_hex4 n : n < 65536 -> unhex4 (hexd (n / 4096 mod 16)) (hexd (n / 256 mod 16)) (hexd (n / 16 mod 16)) (hexd (n mod 16)) = Some n.
Proof.
  intro H. unfold unhex4. rewrite !unhex_hexd by (apply N.mod_lt; lia). f_equal.
  pose proof (N.div_mod n 16 ltac:(lia)) as A.
  pose proof (N.div_mod (n / 16) 16 ltac:(lia)) as B. rewrite N.div_div in B by lia. change (16 * 16) with 256 in B.
  pose proof (N.div_mod (n / 256) 16 ltac:(lia)) as C. rewrite N.div_div in C by lia. change (256 * 16) with 4096 in C.
  assert (D : n / 4096 < 16) by (apply N.div_lt_upper_bound; lia). rewrite (N.mod_small (n / 4096)) by exact D. lia.
Qed.
Lemma hex4_shape n : exists a b c d, hex4 n = [a; b; c; d].
Proof. unfold hex4. eauto. Qed.

(** Strings. *)
Lemma scan_plain c t : c <> 34 -> c <> 92 -> 32 <= c -> scan (c :: t) = put c (scan t).
Proof. intros H1 H2 H3. cbn [scan]. destruct (N.eqb_spec c 34), (N.ltb_spec c 32), (N.eqb_spec c 92); try lia; try congruence. Qed.
Lemma scan_short e k t : e <> 117 -> unescape e = Some k -> scan (92 :: e :: t) = put k (scan t).
Proof.
  intros H1 H2. cbn [scan]. change (92 =? 34) with false. change (92 <? 32) with false. change (92 =? 92) with true. cbv iota.
  destruct (N.eqb_spec e 117); [congruence|]. now rewrite H2.
Qed.
Lemma scan_u a b c d hi t : unhex4 a b c d = Some hi -> is_high hi = false -> scan (92 :: 117 :: a :: b :: c :: d :: t) = put hi (scan t).
Proof.
  intros H1 H2. cbn [scan]. change (92 =? 34) with false. change (92 <? 32) with false. change (92 =? 92) with true. change (117 =? 117) with true.
  cbv iota. rewrite H1. destruct t as [|x1 [|x2 [|x3 [|x4 [|x5 [|x6 t]]]]]]; try reflexivity. now rewrite H2, andb_false_r.
Qed.
Lemma scan_u_short a b c d hi t : unhex4 a b c d = Some hi -> (List.length t < 6)%nat -> scan (92 :: 117 :: a :: b :: c :: d :: t) = put hi (scan t).
Proof.
  intros H1 H2. cbn [scan]. change (92 =? 34) with false. change (92 <? 32) with false. change (92 =? 92) with true. change (117 =? 117) with true.
  cbv iota. rewrite H1. destruct t as [|x1 [|x2 [|x3 [|x4 [|x5 [|x6 t]]]]]]; try reflexivity. cbn in H2. lia.
Qed.
Lemma scan_pair a b c d a' b' c' d' hi lo t : unhex4 a b c d = Some hi -> unhex4 a' b' c' d' = Some lo -> is_high hi = true -> is_low lo = true ->
  scan (92 :: 117 :: a :: b :: c :: d :: 92 :: 117 :: a' :: b' :: c' :: d' :: t) = put (65536 + 1024 * (hi - 55296) + (lo - 56320)) (scan t).
Proof.
  intros H1 H2 H3 H4. cbn [scan]. change (92 =? 34) with false. change (92 <? 32) with false. change (92 =? 92) with true. change (117 =? 117) with true.
  cbv iota. rewrite H1, H3. cbn [andb]. now rewrite H2, H4.
Qed.

Inductive char_case (n : N) : Prop :=
| cPlain : quote_char n = [n] -> n <> 34 -> n <> 92 -> 32 <= n -> char_case n
| cShort e : quote_char n = [92; e] -> e <> 117 -> unescape e = Some n -> char_case n
| cU : quote_char n = 92 :: 117 :: hex4 n -> n < 65536 -> is_high n = false -> char_case n
| cPair : quote_char n = (92 :: 117 :: hex4 (55296 + (n - 65536) / 1024)) ++ (92 :: 117 :: hex4 (56320 + (n - 65536) mod 1024)) ->
    65536 <= n < 1114112 -> char_case n.
Lemma char_cases n : scalar_code n -> char_case n.
Proof.
  intro H. unfold quote_char.
  destruct (N.eqb_spec n 34) as [->|N1]; [apply (cShort _ 34); reflexivity || discriminate|].
  destruct (N.eqb_spec n 92) as [->|N2]; [apply (cShort _ 92); reflexivity || discriminate|].
  destruct (N.eqb_spec n 10) as [->|N3]; [apply (cShort _ 110); reflexivity || discriminate|].
  destruct (N.eqb_spec n 13) as [->|N4]; [apply (cShort _ 114); reflexivity || discriminate|].
  destruct (N.eqb_spec n 9) as [->|N5]; [apply (cShort _ 116); reflexivity || discriminate|].
  destruct (N.eqb_spec n 12) as [->|N6]; [apply (cShort _ 102); reflexivity || discriminate|].
  destruct (N.eqb_spec n 8) as [->|N7]; [apply (cShort _ 98); reflexivity || discriminate|].
  assert (Q : quote_char n = if (32 <=? n) && (n <=? 126) then [n] else u_escape n).
  { unfold quote_char. destruct (N.eqb_spec n 34), (N.eqb_spec n 92), (N.eqb_spec n 10), (N.eqb_spec n 13), (N.eqb_spec n 9), (N.eqb_spec n 12), (N.eqb_spec n 8);
      try congruence. }
  destruct ((32 <=? n) && (n <=? 126)) eqn:E.
  - apply andb_true_iff in E. destruct E as [E1 E2]. apply N.leb_le in E1. apply cPlain; auto.
  - unfold u_escape in Q. destruct (N.ltb_spec n 65536).
    + apply cU; auto. unfold is_high. unfold scalar_code in H. destruct (N.leb_spec 55296 n), (N.leb_spec n 56319); try reflexivity. lia.
    + apply cPair; auto. unfold scalar_code in H. lia.
Qed.

Lemma pair_join n : 65536 <= n < 1114112 -> let v := n - 65536 in
  55296 + v / 1024 < 65536 /\ 56320 + v mod 1024 < 65536 /\ is_high (55296 + v / 1024) = true /\ is_low (56320 + v mod 1024) = true /\
  65536 + 1024 * (55296 + v / 1024 - 55296) + (56320 + v mod 1024 - 56320) = n.
Proof.
  intros H v. assert (V : v < 1048576) by (unfold v; lia). pose proof (N.div_mod v 1024 ltac:(lia)) as D. pose proof (N.mod_lt v 1024 ltac:(lia)) as M.
  assert (Q : v / 1024 < 1024) by (apply N.div_lt_upper_bound; lia).
  assert (Vn : n = 65536 + v) by (unfold v; lia). clearbody v. clear H. subst n.
  generalize dependent (v / 1024). generalize dependent (v mod 1024). intros m M q D Q. subst v. unfold is_high, is_low. repeat split; try lia.
  - destruct (N.leb_spec 55296 (55296 + q)), (N.leb_spec (55296 + q) 56319); try reflexivity; lia.
  - destruct (N.leb_spec 56320 (56320 + m)), (N.leb_spec (56320 + m) 57343); try reflexivity; lia.
Qed.

Lemma scan_char n t : scalar_code n -> scan (quote_char n ++ t) = put n (scan t).
Proof.
  intro H. destruct (char_cases n H) as [Q N1 N2 N3 | e Q N1 N2 | Q N1 N2 | Q N1]; rewrite Q.
  - now apply scan_plain.
  - now apply scan_short.
  - apply scan_u; [now apply unhex4_hex4|assumption].
  - destruct (pair_join n N1) as (A & B & C & D & E). rewrite <- app_assoc. unfold hex4. cbn [app].
    rewrite (scan_pair _ _ _ _ _ _ _ _ _ _ _ (unhex4_hex4 _ A) (unhex4_hex4 _ B) C D). now rewrite E.
Qed.
Lemma scan_quoted s t : text_ok s -> scan (flat_map quote_char s ++ 34 :: t) = JOk (s, t).
Proof.
  induction 1 as [|n s Hn _ IH]; [reflexivity|]. cbn [flat_map]. rewrite <- app_assoc, scan_char, IH by assumption. reflexivity.
Qed.

Lemma u_prefix a b c d p q : [92; 117; a; b; c; d] = p ++ q -> q <> [] -> scan p = JBad.
Proof.
  intros E Q. destruct p as [|p1 [|p2 [|p3 [|p4 [|p5 [|p6 p]]]]]]; try reflexivity;
    try (injection E as <- E; reflexivity); try (injection E as <- <- E; reflexivity); try (injection E as <- <- <- E; reflexivity);
    try (injection E as <- <- <- <- E; reflexivity); try (injection E as <- <- <- <- <- E; reflexivity).
  injection E as <- <- <- <- <- <- E. destruct p; [cbn in E; congruence|discriminate].
Qed.
Lemma char_prefix n p q : scalar_code n -> quote_char n = p ++ q -> q <> [] -> scan p = JBad.
Proof.
  intros H. destruct (char_cases n H) as [Q N1 N2 N3 | e Q N1 N2 | Q N1 N2 | Q N1]; rewrite Q; clear Q; intros E K.
  - destruct p as [|? [|]]; [reflexivity|injection E as _ E; cbn in E; congruence|discriminate].
  - destruct p as [|? [|? [|]]]; [reflexivity|injection E as <- E; reflexivity|injection E as _ _ E; cbn in E; congruence|discriminate].
  - unfold hex4 in E. now apply (u_prefix _ _ _ _ _ _ E).
  - destruct (pair_join n N1) as (A & B & _). apply app_eq_app in E. destruct E as (l & [[E1 E2] | [E1 E2]]).
    + destruct l as [|x l].
      * rewrite app_nil_r in E1. subst p. unfold hex4. rewrite (scan_u_short _ _ _ _ _ _ (unhex4_hex4 _ A)) by (cbn; lia). reflexivity.
      * unfold hex4 in E1. apply (u_prefix _ _ _ _ _ _ E1). discriminate.
    + subst p. assert (L : (List.length l < 6)%nat).
      { apply (f_equal (@List.length N)) in E2. rewrite app_length in E2. cbn [List.length hex4] in E2. destruct q; [congruence|cbn [List.length] in E2; lia]. }
      unfold hex4 at 1. cbn [app]. rewrite (scan_u_short _ _ _ _ _ _ (unhex4_hex4 _ A)) by assumption.
      rewrite (u_prefix _ _ _ _ _ _ E2 K). reflexivity.
Qed.
Lemma scan_prefix s : forall p q, text_ok s -> flat_map quote_char s ++ [34] = p ++ q -> q <> [] -> scan p = JBad.
Proof.
  induction s as [|n s IH]; intros p q Hs E Q.
  - destruct p as [|? [|]]; [reflexivity|injection E as _ E; cbn in E; congruence|discriminate].
  - inversion Hs as [|? ? Hn Hs']; subst. cbn [flat_map] in E. rewrite <- app_assoc in E. apply app_eq_app in E. destruct E as (l & [[E1 E2] | [E1 E2]]).
    + destruct l as [|x l].
      * rewrite app_nil_r in E1. subst p. rewrite <- (app_nil_r (quote_char n)), scan_char by assumption. reflexivity.
      * apply (char_prefix n p (x :: l) Hn E1). discriminate.
    + subst p. rewrite scan_char by assumption. now rewrite (IH l q Hs' E2 Q).
Qed.

(** White space. *)
Lemma skip_ws_length t : (List.length (skip_ws t) <= List.length t)%nat.
Proof. induction t as [|c t IH]; [constructor|]. cbn [skip_ws]. destruct (is_ws c); cbn [List.length]; lia. Qed.
Lemma skip_newline lvl t : skip_ws (newline lvl ++ t) = skip_ws t.
Proof. unfold newline. cbn [app skip_ws]. change (is_ws 10) with true. cbv iota. induction (4 * lvl)%nat as [|k IH]; [reflexivity|]. exact IH. Qed.
Lemma newline_prefix lvl p q : newline lvl = p ++ q -> skip_ws p = [].
Proof.
  intro E. assert (W : Forall (fun c => is_ws c = true) (p ++ q)).
  { rewrite <- E. constructor; [reflexivity|]. apply Forall_forall. intros x H. apply repeat_spec in H. now subst. }
  apply Forall_app in W. destruct W as [W _]. clear E q. induction W as [|c p H _ IH]; [reflexivity|]. cbn. now rewrite H.
Qed.
Lemma skip_head c t : is_ws c = false -> skip_ws (c :: t) = c :: t.
Proof. cbn. now intros ->. Qed.

(** Numbers. *)
Definition ends (t : text) : Prop := match t with [] => True | c :: _ => c = 44 \/ c = 10 end.
Definition not_digit (t : text) : Prop := match t with [] => True | c :: _ => is_digit c = false end.
Lemma is_digit_spec c : is_digit c = true <-> digit_code c.
Proof. unfold is_digit, digit_code. rewrite andb_true_iff, !N.leb_le. tauto. Qed.
Lemma not_digit_cons c t : ~ digit_code c -> not_digit (c :: t).
Proof. cbn. intro H. destruct (is_digit c) eqn:E; [|reflexivity]. apply is_digit_spec in E. contradiction. Qed.
Lemma span_spec ds t : Forall digit_code ds -> not_digit t -> span_digits (ds ++ t) = (ds, t).
Proof.
  induction 1 as [|c ds H _ IH]; intro K.
  - destruct t as [|c t]; [reflexivity|]. cbn in K |- *. now rewrite K.
  - cbn [app span_digits]. apply is_digit_spec in H. rewrite H, IH by assumption. reflexivity.
Qed.
Lemma span_suffix t : exists p, t = p ++ snd (span_digits t).
Proof.
  induction t as [|c t (p & IH)]; [now exists []|]. cbn [span_digits]. destruct (is_digit c); [|now exists []].
  destruct (span_digits t) as [a b]. cbn in *. exists (c :: p). cbn. congruence.
Qed.
Lemma sign_spec s w t : sign s -> whole w -> take_sign (s ++ w ++ t) = (s, w ++ t).
Proof.
  intros [-> | ->] W; [|reflexivity]. cbn [app].
  destruct W as [-> | [[N F] _]]; [reflexivity|]. destruct w as [|c w]; [congruence|]. inversion F as [|? ? D _]; subst.
  cbn. destruct (N.eqb_spec c 45); [unfold digit_code in D; lia|reflexivity].
Qed.
Lemma whole_spec w t : whole w -> not_digit t -> take_int (w ++ t) = (w, t).
Proof.
  intros [-> | [[N F] Z]] K; [reflexivity|]. destruct w as [|c w]; [congruence|]. unfold take_int. cbn [app].
  destruct (N.eqb_spec c 48) as [->|]; [exfalso; exact (Z w eq_refl)|]. now apply (span_spec (c :: w)).
Qed.
Lemma frac_spec f t : (f = [] \/ fraction f) -> not_digit t -> (f = [] -> match t with c :: _ => c <> 46 | [] => True end) -> take_frac (f ++ t) = (f, t).
Proof.
  intros [-> | (ds & -> & N & F)] K J.
  - destruct t as [|c t]; [reflexivity|]. cbn. specialize (J eq_refl). cbn in J. destruct (N.eqb_spec c 46); [congruence|reflexivity].
  - unfold take_frac. cbn [app]. change (46 =? 46) with true. cbv iota. rewrite span_spec by assumption. destruct ds; [congruence|reflexivity].
Qed.
Lemma ends_not_digit t : ends t -> not_digit t.
Proof. destruct t as [|c t]; cbn; [trivial|]. intros [-> | ->]; reflexivity. Qed.
Lemma exp_spec e t : (e = [] \/ exponent e) -> ends t -> take_exp (e ++ t) = (e, t).
Proof.
  intros [-> | (x & s & ds & -> & X & S & N & F)] K.
  - destruct t as [|c t]; [reflexivity|]. cbn in K. destruct K as [-> | ->]; reflexivity.
  - unfold take_exp. cbn [app]. assert (X' : ((x =? 101) || (x =? 69)) = true) by (destruct X as [-> | ->]; reflexivity). rewrite X'.
    rewrite <- app_assoc. assert (S' : take_exp_sign (s ++ ds ++ t) = (s, ds ++ t)).
    { destruct S as [-> | [-> | ->]]; try reflexivity. destruct ds as [|c ds]; [congruence|]. inversion F as [|? ? D _]; subst. cbn.
      unfold digit_code in D. destruct (N.eqb_spec c 45), (N.eqb_spec c 43); try lia. reflexivity. }
    rewrite S', span_spec by (assumption || now apply ends_not_digit). destruct ds; [congruence|reflexivity].
Qed.
Definition plain_number (s w f e : text) : Prop := sign s /\ whole w /\ (f = [] \/ fraction f) /\ (e = [] \/ exponent e).
Lemma number_spec s w f e t : plain_number s w f e -> ends t ->
  number ((s ++ w ++ f ++ e) ++ t) = Some (match f, e with [], [] => true | _, _ => false end, s ++ w ++ f ++ e, t).
Proof.
  intros (S & W & Hf & He) K. unfold number. rewrite <- !app_assoc.
  rewrite sign_spec by assumption.
  assert (T1 : not_digit (e ++ t) /\ match e ++ t with c :: _ => c <> 46 | [] => True end).
  { destruct He as [-> | (x & s' & ds & -> & X & _)].
    - cbn. split; [now apply ends_not_digit|]. destruct t as [|c t]; [trivial|]. cbn in K. destruct K as [-> | ->]; discriminate.
    - cbn [app]. destruct X as [-> | ->]; split; try reflexivity; discriminate. }
  assert (T2 : not_digit (f ++ e ++ t)).
  { destruct Hf as [-> | (ds & -> & _)]; [apply T1|]. reflexivity. }
  rewrite whole_spec by assumption. destruct w as [|c w'] eqn:Ew.
  { destruct W as [W | [[W _] _]]; congruence. }
  rewrite frac_spec by (try assumption; try apply T1; intros _; apply T1). rewrite exp_spec by assumption. reflexivity.
Qed.

(** show_int *)
Lemma whole_show n : whole (Cmd.show_digits (N.to_uint n)).
Proof.
  pose proof (CmdP.show_digits_digits (N.to_uint n)) as D. pose proof (CmdP.show_digits_nonnil _ (CmdP.to_uint_nonnil n)) as K.
  assert (D' : digits1 (Cmd.show_digits (N.to_uint n))) by (split; [exact K|exact D]).
  destruct (N.to_uint n) as [|d|d|d|d|d|d|d|d|d|d] eqn:E; try (right; split; [exact D'|intros r R; discriminate R]).
  left. pose proof (DecimalN.Unsigned.to_of (N.to_uint n)) as U. rewrite DecimalN.Unsigned.of_to in U. rewrite E in U.
  destruct (Decimal.nzhead (Decimal.D0 d)) eqn:Z.
  - apply DecimalFacts.unorm_0 in Z. rewrite Z in U. injection U as ->. reflexivity.
  - exfalso. exact (DecimalFacts.nzhead_nonzero _ _ Z).
  - rewrite DecimalFacts.unorm_nzhead in U by congruence. congruence.
  - rewrite DecimalFacts.unorm_nzhead in U by congruence. congruence.
  - rewrite DecimalFacts.unorm_nzhead in U by congruence. congruence.
  - rewrite DecimalFacts.unorm_nzhead in U by congruence. congruence.
  - rewrite DecimalFacts.unorm_nzhead in U by congruence. congruence.
  - rewrite DecimalFacts.unorm_nzhead in U by congruence. congruence.
  - rewrite DecimalFacts.unorm_nzhead in U by congruence. congruence.
  - rewrite DecimalFacts.unorm_nzhead in U by congruence. congruence.
  - rewrite DecimalFacts.unorm_nzhead in U by congruence. congruence.
Qed.
Lemma show_int_number z : exists s w, Cmd.show_int z = s ++ w ++ [] ++ [] /\ plain_number s w [] [].
Proof.
  destruct z as [|p|p]; cbn [Cmd.show_int].
  - exists [], (Cmd.show_digits (N.to_uint 0)). split; [now rewrite !app_nil_r|]. repeat split; [left; reflexivity|apply whole_show|now left|now left].
  - exists [], (Cmd.show_digits (N.to_uint (Z.to_N (Z.pos p)))). split; [now rewrite !app_nil_r|].
    repeat split; [left; reflexivity|apply whole_show|now left|now left].
  - exists [45], (Cmd.show_digits (N.to_uint (N.pos p))). split; [now rewrite !app_nil_r|].
    repeat split; [right; reflexivity|apply whole_show|now left|now left].
Qed.

(** Texts made of the characters of numbers: whatever is read of them leaves such a text. *)
Definition ncode (c : N) : Prop := digit_code c \/ c = 45 \/ c = 43 \/ c = 46 \/ c = 101 \/ c = 69.
Lemma suffix_ncode (p t : text) : Forall ncode (p ++ t) -> Forall ncode t.
Proof. intro H. now apply Forall_app in H. Qed.
Lemma span_ncode t : Forall ncode t -> Forall ncode (snd (span_digits t)).
Proof. destruct (span_suffix t) as (p & E). intro H. rewrite E in H. now apply suffix_ncode in H. Qed.
Ltac tail_of H := first [exact H | inversion H; assumption].
Lemma number_ncode t b tok r : Forall ncode t -> number t = Some (b, tok, r) -> Forall ncode r.
Proof.
  intros H. unfold number.
  assert (H1 : Forall ncode (snd (take_sign t))).
  { destruct t as [|c t]; [constructor|]. cbn. destruct (c =? 45); tail_of H. }
  destruct (take_sign t) as [sg r1]. cbn [snd] in H1.
  assert (H2 : Forall ncode (snd (take_int r1))).
  { destruct r1 as [|c r1]; [constructor|]. unfold take_int. destruct (c =? 48); [inversion H1; assumption|]. now apply span_ncode. }
  destruct (take_int r1) as [ip r2]. cbn [snd] in H2. destruct ip as [|i ip]; [discriminate|].
  assert (H3 : Forall ncode (snd (take_frac r2))).
  { destruct r2 as [|c r2]; [constructor|]. unfold take_frac. destruct (c =? 46); [|exact H2].
    assert (X : Forall ncode (snd (span_digits r2))) by (apply span_ncode; inversion H2; assumption).
    destruct (span_digits r2) as [[|d ds] r']; cbn in X |- *; assumption. }
  destruct (take_frac r2) as [fp r3]. cbn [snd] in H3.
  assert (H4 : Forall ncode (snd (take_exp r3))).
  { destruct r3 as [|c r3]; [constructor|]. unfold take_exp. destruct ((c =? 101) || (c =? 69)); [|exact H3].
    assert (X : Forall ncode (snd (take_exp_sign r3))).
    { inversion H3 as [|? ? _ H5]; subst. destruct r3 as [|c' r3]; [constructor|]. cbn. destruct ((c' =? 45) || (c' =? 43)); tail_of H5. }
    destruct (take_exp_sign r3) as [sg' r4]. cbn [snd] in X. apply span_ncode in X.
    destruct (span_digits r4) as [[|d ds] r']; cbn in X |- *; assumption. }
  destruct (take_exp r3) as [ep r4]. cbn [snd] in H4. intro E. congruence.
Qed.
Lemma plain_number_ncode s w f e : plain_number s w f e -> Forall ncode (s ++ w ++ f ++ e).
Proof.
  assert (D : forall ds, Forall digit_code ds -> Forall ncode ds) by (intros ds; apply Forall_impl; unfold ncode; tauto).
  intros (S & W & Hf & He). repeat rewrite Forall_app. repeat split.
  - destruct S as [-> | ->]; try (constructor; [unfold ncode; tauto|]); constructor.
  - destruct W as [-> | [[_ W] _]]; [|auto]. constructor; [unfold ncode, digit_code; lia|constructor].
  - destruct Hf as [-> | (ds & -> & _ & H)]; [constructor|]. constructor; [unfold ncode; tauto|auto].
  - destruct He as [-> | (x & s' & ds & -> & X & S' & _ & H)]; [constructor|]. constructor; [unfold ncode; tauto|]. apply Forall_app. split; [|auto].
    destruct S' as [-> | [-> | ->]]; try (constructor; [unfold ncode; tauto|]); constructor.
Qed.
Lemma plain_number_head s w f e : plain_number s w f e -> exists c t, s ++ w ++ f ++ e = c :: t /\ (digit_code c \/ c = 45).
Proof.
  intros (S & W & _). destruct S as [-> | ->]; [|cbn; eauto]. destruct W as [-> | [[N F] _]]; cbn.
  - exists 48. eexists. split; [reflexivity|]. left. unfold digit_code. lia.
  - destruct w as [|c w]; [congruence|]. inversion F; subst. cbn. eauto.
Qed.
Lemma number_shorter t b tok r : number t = Some (b, tok, r) -> (List.length r < List.length t)%nat.
Proof.
  assert (Sp : forall t, (List.length (fst (span_digits t)) + List.length (snd (span_digits t)) = List.length t)%nat).
  { clear. induction t as [|c t IH]; [reflexivity|]. cbn [span_digits]. destruct (is_digit c); [|reflexivity].
    destruct (span_digits t) as [a b']. cbn [fst snd List.length] in *. lia. }
  unfold number.
  assert (H1 : (List.length (snd (take_sign t)) <= List.length t)%nat).
  { destruct t as [|c t']; [constructor|]. cbn. destruct (c =? 45); cbn; lia. }
  destruct (take_sign t) as [sg r1]. cbn [snd] in H1.
  assert (H2 : (List.length (fst (take_int r1)) + List.length (snd (take_int r1)) = List.length r1)%nat).
  { destruct r1 as [|c r1]; [constructor|]. unfold take_int. destruct (c =? 48); [reflexivity|]. apply Sp. }
  destruct (take_int r1) as [ip r2]. cbn [fst snd] in H2. destruct ip as [|i ip]; [discriminate|]. cbn [List.length] in H2.
  assert (H3 : (List.length (snd (take_frac r2)) <= List.length r2)%nat).
  { destruct r2 as [|c r2]; [constructor|]. unfold take_frac. destruct (c =? 46); [|cbn; lia]. specialize (Sp r2).
    destruct (span_digits r2) as [[|d ds] r']; cbn [fst snd List.length] in *; lia. }
  destruct (take_frac r2) as [fp r3]. cbn [snd] in H3.
  assert (H4 : (List.length (snd (take_exp r3)) <= List.length r3)%nat).
  { destruct r3 as [|c r3]; [constructor|]. unfold take_exp. destruct ((c =? 101) || (c =? 69)); [|cbn; lia].
    assert (X : (List.length (snd (take_exp_sign r3)) <= List.length r3)%nat).
    { destruct r3 as [|c' r3]; [constructor|]. cbn. destruct ((c' =? 45) || (c' =? 43)); cbn; lia. }
    destruct (take_exp_sign r3) as [sg' r4]. cbn [snd] in X. specialize (Sp r4).
    destruct (span_digits r4) as [[|d ds] r']; cbn [fst snd List.length] in *; lia. }
  destruct (take_exp r3) as [ep r4]. cbn [snd] in H4. intro E. assert (r4 = r) by congruence. subst. lia.
Qed.
Lemma after_prefix_spec p t r : after_prefix p t = Some r <-> t = p ++ r.
Proof.
  revert t; induction p as [|a p IH]; intro t; cbn; [split; congruence|]. destruct t as [|b t]; [split; discriminate|].
  destruct (N.eqb_spec a b) as [->|]; [|split; [discriminate|congruence]]. rewrite IH. split; congruence.
Qed.
Lemma after_prefix_None p t : (forall r, t <> p ++ r) -> after_prefix p t = None.
Proof. intro H. destruct (after_prefix p t) eqn:E; [|reflexivity]. apply after_prefix_spec in E. now apply H in E. Qed.
