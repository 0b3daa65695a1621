(** Lemmas about histories of a connection. *)
From Coq Require Import String List NArith ZArith Arith Bool Lia Permutation.
From Verif.Model Require Import Py Dialect Struct Mavlink Parser Link.
From Verif.Spec Require Import Bytes Bits Header CrcSpec Frame StreamSpec LinkSpec.
From Verif.Proofs Require Import Base StreamP.
Import ListNotations.
Local Open Scope list_scope.
Local Notation length := List.length.

(** A piece of a stream. *)
Definition proper (x : piece) : Prop := match x with Noise b => ~ marker b | Frame f => whole f end.

Lemma cut_proper l : Forall proper l -> forall s l' r, cut s l' r -> cut (concat (map piece_bytes l) ++ s) (l ++ l') r.
Proof.
  induction 1 as [|[b|f] l H _ IH]; intros s l' r C; cbn; [exact C| |].
  - constructor; [exact H|]. apply IH, C.
  - rewrite <- app_assoc. constructor; [exact H|]. apply IH, C.
Qed.

Section Link.
Context {D M : Type}.
Variable decode : D -> bytes -> D * res M.
Hypothesis mav : only_mav_errors decode.
Notation parse_char := (parse_char decode).
Notation tolerant := (tolerant decode).

(** One call of parse_char of a robust parser. *)
Lemma char_one p c s d k n e : looks p s true d k n e -> is_bytes (s ++ c) ->
  (unfinished (s ++ c) /\ exists p', parse_char p c = (p', Ok None) /\ looks p' (s ++ c) true d k (n + length c) e) \/
  (exists x t it p', proper x /\ s ++ c = piece_bytes x ++ t /\ parse_char p c = (p', Ok (Some it)) /\ snd (tolerant d [x]) = [it] /\
     looks p' t true (fst (tolerant d [x])) (S k) (n + length c) (e + length (filter is_bad [it])) /\ length t < length (s ++ c)).
Proof using mav.
  intros L B. destruct (unfinished_or_frame (s ++ c)) as [(b & t & E & Hm)|[U|(f & t & E & Hw)]].
  - right. destruct (char_noise decode p c s true d k n e b t L E Hm) as (p' & E' & L' & _). cbn [orb] in L'.
    exists (Noise b), t, (BadData [b]), p'. split; [exact Hm|]. split; [exact E|]. split; [exact E'|]. split; [reflexivity|].
    cbn [StreamSpec.tolerant fst filter is_bad length]. rewrite Nat.add_1_r. split; [exact L'|]. rewrite E. cbn. lia.
  - left. split; [exact U|]. destruct (char_unfinished decode p c s true d k n e L U) as (p' & E' & L' & _). eauto.
  - right. assert (Bf : is_bytes f) by (unfold is_bytes in *; rewrite E in B; apply Forall_app in B; apply B).
    destruct (char_frame decode p c s true d k n e f t L E Hw Bf) as (p' & E' & L' & _).
    exists (Frame f), t. destruct (outcome decode d f) as [d' [m|x]] eqn:O; cbn [fst snd report] in *.
    + exists (Message m), p'. split; [exact Hw|]. split; [exact E|]. split; [exact E'|]. cbn [StreamSpec.tolerant]. rewrite O. split; [reflexivity|].
      cbn [fst filter is_bad length]. rewrite Nat.add_0_r. split; [exact L'|]. rewrite E, app_length. pose proof (whole_nonempty f Hw). lia.
    + assert (x = MAVError) as -> by (apply (outcome_mav decode mav d f x Bf Hw); rewrite O; reflexivity).
      exists (BadData f), p'. split; [exact Hw|]. split; [exact E|]. split; [exact E'|]. cbn [StreamSpec.tolerant]. rewrite O. split; [reflexivity|].
      cbn [fst filter is_bad length]. rewrite Nat.add_1_r. split; [exact L'|]. rewrite E, app_length. pose proof (whole_nonempty f Hw). lia.
Qed.

(** The parser has gone through the first pieces of what was fed. *)
Definition through (d0 : D) (p : parser D) (items : list (item M)) (s : bytes) : Prop :=
  exists l rest, Forall proper l /\ concat (map piece_bytes l) ++ rest = s /\ snd (tolerant d0 l) = items /\
    looks p rest true (fst (tolerant d0 l)) (length l) (length s) (length (filter is_bad items)).

Lemma through_char d0 p items s c : through d0 p items s -> is_bytes (s ++ c) ->
  (exists p', parse_char p c = (p', Ok None) /\ through d0 p' items (s ++ c) /\ unfinished (pending p') /\ length (pending p') = length (pending p) + length c) \/
  (exists it p', parse_char p c = (p', Ok (Some it)) /\ through d0 p' (items ++ [it]) (s ++ c) /\ length (pending p') < length (pending p) + length c).
Proof using mav.
  intros (l & rest & Pl & E & T & L) B.
  assert (Br : is_bytes (rest ++ c)).
  { rewrite <- E, <- app_assoc in B. unfold is_bytes in *. apply Forall_app in B. apply B. }
  pose proof L as (_ & Pd & _). destruct (char_one p c rest _ _ _ _ L Br) as [(U & p' & Ec & L')|(x & t & it & p' & Px & Ex & Ec & Tx & L' & Lt)].
  - left. exists p'. split; [exact Ec|]. pose proof L' as (_ & Pd' & _). rewrite Pd', Pd, app_length. split; [|auto].
    exists l, (rest ++ c). split; [exact Pl|]. rewrite app_assoc, E. split; [reflexivity|]. split; [exact T|].
    rewrite app_length. exact L'.
  - right. exists it, p'. split; [exact Ec|]. pose proof L' as (_ & Pd' & _). rewrite Pd', Pd, <- app_length. split; [|exact Lt].
    exists (l ++ [x]), t. split; [apply Forall_app; auto|]. split.
    { rewrite map_app, concat_app. cbn [map concat]. rewrite app_nil_r, <- app_assoc, <- Ex, app_assoc, E. reflexivity. }
    rewrite tolerant_app. cbn [fst snd]. rewrite T, Tx. split; [reflexivity|]. rewrite !app_length, filter_app, app_length. cbn [length].
    rewrite !Nat.add_1_r. exact L'.
Qed.

Lemma through_empty d0 p items s : through d0 p items s -> is_bytes s ->
  (exists p', parse_char p [] = (p', Ok None) /\ through d0 p' items s /\ unfinished (pending p')) \/
  (exists it p', parse_char p [] = (p', Ok (Some it)) /\ through d0 p' (items ++ [it]) s /\ length (pending p') < length (pending p)).
Proof using mav.
  intros H B. destruct (through_char d0 p items s [] H) as [(p' & E & T & U & _)|(it & p' & E & T & L)]; rewrite ?app_nil_r in *; auto.
  - left. eauto.
  - right. exists it, p'. rewrite Nat.add_0_r in L. auto.
Qed.

Definition parsed_app (a b : list (event M)) : parsed (a ++ b) = parsed a ++ parsed b.
Proof. unfold parsed. rewrite map_app. apply concat_app. Qed.
Definition returned_app (a b : list (event M)) : returned (a ++ b) = returned a ++ returned b.
Proof. unfold returned. rewrite map_app. apply concat_app. Qed.

(** What one run of library code does to the accounts. *)
Record settled (d0 : D) (c c' : conn D M) (evs : list (event M)) (items : list (item M)) (s : bytes) : Prop := {
  st_through : through d0 (c_parser c') (items ++ parsed evs) s;
  st_list : Exists is_list_returned evs -> unfinished (pending (c_parser c'));
  st_callback : c_callback c' = c_callback c /\ c_send_callback c' = c_send_callback c;
  st_calls : forall k it, In (Parsed k it) evs -> k = c_callback c;
  st_mav : c_mav c' = c_mav c;
  st_sends : forall k m, ~ In (SendCalled k m) evs
}.

Lemma loop_settled fuel : forall d0 c ret items s,
  through d0 (c_parser c) items s -> is_bytes s -> length (pending (c_parser c)) < fuel ->
  settled d0 c (fst (loop decode fuel c ret)) (snd (loop decode fuel c ret)) items s /\
  (exists st, c_stack (fst (loop decode fuel c ret)) = st ++ c_stack c /\ length st <= 1 /\ returned (snd (loop decode fuel c ret)) ++ held st = ret ++ parsed (snd (loop decode fuel c ret))) /\
  (forall e, ~ In (Raised e) (snd (loop decode fuel c ret))).
Proof using mav.
  induction fuel as [|f IH]; intros d0 c ret items s T B L; [lia|]. cbn [loop].
  destruct (through_empty d0 _ items s T B) as [(p' & E & T' & U)|(it & p' & E & T' & L')]; rewrite E.
  - cbn [fst snd]. split; [|split].
    + constructor; cbn [with_parser c_parser c_callback c_send_callback c_mav parsed map concat]; auto.
      * rewrite app_nil_r. exact T'.
      * intros k i [H|[]]. discriminate.
      * intros k m [H|[]]. discriminate.
    + exists []. cbn. split; [reflexivity|]. split; [lia|]. rewrite !app_nil_r. reflexivity.
    + intros e [H|[]]. discriminate.
  - cbn [with_parser c_callback]. destruct (c_callback c) as [k|] eqn:Ck.
    + cbn [fst snd]. split; [|split].
      * constructor; cbn [with_parser with_stack c_parser c_callback c_send_callback c_mav parsed map concat app]; auto.
        -- intros H. apply Exists_exists in H. destruct H as (x & [<-|[]] & H). destruct H.
        -- intros k' i [H|[]]. congruence.
        -- intros k' m [H|[]]. discriminate.
      * exists [InBuffer (ret ++ [it])]. cbn. split; [reflexivity|]. split; [lia|]. rewrite app_nil_r. reflexivity.
      * intros e [H|[]]. discriminate.
    + specialize (IH d0 (with_parser c p') (ret ++ [it]) (items ++ [it]) s T' B). cbn [with_parser c_parser] in IH.
      specialize (IH ltac:(lia)). change (Conn p' (c_mav c) (c_callback c) (c_send_callback c) (c_stack c)) with (with_parser c p') in IH.
      change (Conn p' (c_mav c) None (c_send_callback c) (c_stack c)) with (Conn p' (c_mav c) None (c_send_callback c) (c_stack c)).
      assert (Ec : Conn p' (c_mav c) None (c_send_callback c) (c_stack c) = with_parser c p') by (unfold with_parser; rewrite Ck; reflexivity).
      rewrite ?Ec. destruct (loop decode f (with_parser c p') (ret ++ [it])) as [c' ev]. cbn [fst snd] in *.
      destruct IH as ([S1 S2 S3 S4 S5 S6] & (st & E1 & El & E2) & R). cbn [with_parser c_callback c_send_callback c_mav c_stack] in *. split; [|split].
      * constructor; cbn [parsed map concat app]; auto.
        -- rewrite <- app_assoc in S1. exact S1.
        -- intros H. apply S2. inversion H as [? ? H0|? ? H0]; subst; [destruct H0|exact H0].
        -- intros k i [H|H]; [congruence|exact (S4 k i H)].
        -- intros k m [H|H]; [discriminate|exact (S6 k m H)].
      * exists st. split; [exact E1|]. split; [exact El|]. change (returned (Parsed None it :: ev)) with (returned ev). rewrite E2, <- app_assoc. reflexivity.
      * intros e [H|H]; [discriminate|exact (R e H)].
Qed.

Lemma go_on_settled d0 c ret items s :
  through d0 (c_parser c) items s -> is_bytes s ->
  settled d0 c (fst (go_on decode c ret)) (snd (go_on decode c ret)) items s /\
  (exists st, c_stack (fst (go_on decode c ret)) = st ++ c_stack c /\ length st <= 1 /\ returned (snd (go_on decode c ret)) ++ held st = ret ++ parsed (snd (go_on decode c ret))) /\
  (forall e, ~ In (Raised e) (snd (go_on decode c ret))).
Proof using mav.
  intros T B. apply loop_settled; auto. unfold pending. rewrite skipn_length. lia.
Qed.

(** One step, as far as the parser is concerned. *)
Definition block (a : action) : bytes := match a with Feed c => c | FeedAll s => s | _ => [] end.
Definition is_send (a : action) : Prop := match a with Send _ _ => True | _ => False end.

Definition popped (a : action) (st : list (frame M)) : list (frame M) * list (frame M) :=
  match a with Leave | Throw _ => (firstn 1 st, skipn 1 st) | _ => ([], st) end.

Lemma step_settled d0 c a items s :
  through d0 (c_parser c) items s -> is_bytes (s ++ block a) ->
  let c' := fst (step decode c a) in let ev := snd (step decode c a) in
  through d0 (c_parser c') (items ++ parsed ev) (s ++ block a) /\
  (Exists is_list_returned ev -> unfinished (pending (c_parser c'))) /\
  (~ sets_callback a -> c_callback c' = c_callback c) /\
  (forall k it, In (Parsed k it) ev -> k = c_callback c) /\
  (~ sets_send_callback a -> c_send_callback c' = c_send_callback c) /\
  (~ is_send a -> c_mav c' = c_mav c /\ forall k m, ~ In (SendCalled k m) ev) /\
  (exists st base lost, (base, lost) = popped a (c_stack c) /\ length st <= 1 /\ c_stack c' = st ++ lost /\
     (is_throw a \/ returned ev ++ held st = held base ++ parsed ev) /\ (is_throw a -> returned ev = [] /\ parsed ev = [] /\ st = [])).
Proof using mav.
  intros T B. destruct a as [b|b|m fl|k|k| |e]; cbn [step block] in *.
  - (* Feed *) unfold do_feed. destruct (through_char d0 _ items s b T B) as [(p' & E & T' & U & _)|(it & p' & E & T' & L')]; rewrite E.
    + cbn. rewrite !app_nil_r. split; [exact T'|]. split; [auto|]. split; [auto|]. split; [intros k i [H|[]]; discriminate|].
      split; [auto|]. split; [intros _; split; [auto|intros k m [H|[]]; discriminate]|].
      exists [], [], (c_stack c). cbn. split; [reflexivity|]. split; [lia|]. split; [reflexivity|]. split; [right; reflexivity|contradiction].
    + cbn [with_parser c_callback]. destruct (c_callback c) as [k|] eqn:Ck; cbn.
      * split; [exact T'|]. split; [intros H; inversion H as [? ? H0|? ? H0]; [destruct H0|inversion H0]|]. split; [auto|].
        split; [intros j i [H|[]]; congruence|]. split; [auto|]. split; [intros _; split; [auto|intros j m [H|[]]; discriminate]|].
        exists [InChar it], [], (c_stack c). cbn. split; [reflexivity|]. split; [lia|]. split; [reflexivity|]. split; [right; reflexivity|contradiction].
      * split; [exact T'|]. split; [intros H; apply Exists_exists in H; destruct H as (y & Hy & H); cbn in Hy; intuition (subst; contradiction)|].
        split; [auto|]. split; [intros j i [H|[H|[]]]; congruence|]. split; [auto|]. split; [intros _; split; [auto|intros j m [H|[H|[]]]; discriminate]|].
        exists [], [], (c_stack c). cbn. split; [reflexivity|]. split; [lia|]. split; [reflexivity|]. split; [right; reflexivity|contradiction].
  - (* FeedAll *) unfold do_feed_all. destruct (through_char d0 _ items s b T B) as [(p' & E & T' & U & _)|(it & p' & E & T' & L')]; rewrite E.
    + cbn. rewrite !app_nil_r. split; [exact T'|]. split; [auto|]. split; [auto|]. split; [intros k i [H|[]]; discriminate|].
      split; [auto|]. split; [intros _; split; [auto|intros k m [H|[]]; discriminate]|].
      exists [], [], (c_stack c). cbn. split; [reflexivity|]. split; [lia|]. split; [reflexivity|]. split; [right; reflexivity|contradiction].
    + cbn [with_parser c_callback]. destruct (c_callback c) as [k|] eqn:Ck.
      * cbn. split; [exact T'|]. split; [intros H; inversion H as [? ? H0|? ? H0]; [destruct H0|inversion H0]|]. split; [auto|].
        split; [intros j i [H|[]]; congruence|]. split; [auto|]. split; [intros _; split; [auto|intros j m [H|[]]; discriminate]|].
        exists [InBuffer [it]], [], (c_stack c). cbn. split; [reflexivity|]. split; [lia|]. split; [reflexivity|]. split; [right; reflexivity|contradiction].
      * pose proof (go_on_settled d0 (with_parser c p') [it] (items ++ [it]) (s ++ b) T' B) as G.
        assert (Ec : Conn p' (c_mav c) None (c_send_callback c) (c_stack c) = with_parser c p') by (unfold with_parser; rewrite Ck; reflexivity).
        rewrite ?Ec. destruct (go_on decode (with_parser c p') [it]) as [c' ev]. cbn [fst snd] in *.
        destruct G as ([S1 S2 S3 S4 S5 S6] & (st & E1 & El & E2) & R). cbn [with_parser c_callback c_send_callback c_mav c_stack] in *.
        split; [rewrite <- app_assoc in S1; exact S1|]. split; [intros H; apply S2; inversion H as [? ? H0|? ? H0]; subst; [destruct H0|exact H0]|].
        split; [rewrite Ck in S3; tauto|]. split; [intros j i [H|H]; [congruence|rewrite <- Ck; exact (S4 j i H)]|]. split; [tauto|].
        split; [intros _; split; [exact S5|intros j m [H|H]; [discriminate|exact (S6 j m H)]]|].
        exists st, [], (c_stack c). cbn [held map concat app]. split; [reflexivity|]. split; [exact El|]. split; [exact E1|]. split; [right|contradiction].
        change (returned (Parsed None it :: ev)) with (returned ev). rewrite E2. reflexivity.
  - (* Send *) unfold do_send. rewrite app_nil_r. rewrite app_nil_r in B.
    assert (X : forall c' ev, c_parser c' = c_parser c -> c_callback c' = c_callback c -> c_send_callback c' = c_send_callback c ->
      (parsed ev = [] /\ returned ev = [] /\ (forall k it, ~ In (Parsed k it) ev) /\ ~ Exists is_list_returned ev) ->
      (c_stack c' = c_stack c \/ c_stack c' = InSend :: c_stack c) ->
      through d0 (c_parser c') (items ++ parsed ev) s /\ (Exists is_list_returned ev -> unfinished (pending (c_parser c'))) /\
      (~ sets_callback (Send m fl) -> c_callback c' = c_callback c) /\ (forall k it, In (Parsed k it) ev -> k = c_callback c) /\
      (~ sets_send_callback (Send m fl) -> c_send_callback c' = c_send_callback c) /\
      (~ is_send (Send m fl) -> c_mav c' = c_mav c /\ forall k m0, ~ In (SendCalled k m0) ev) /\
      (exists st base lost, (base, lost) = popped (Send m fl) (c_stack c) /\ length st <= 1 /\ c_stack c' = st ++ lost /\
        (is_throw (Send m fl) \/ returned ev ++ held st = held base ++ parsed ev) /\ (is_throw (Send m fl) -> returned ev = [] /\ parsed ev = [] /\ st = []))).
    { intros c' ev E1 E2 E3 (E4 & E5 & E6 & E7) E8. rewrite E1, E4, E5, app_nil_r. split; [exact T|]. split; [contradiction|]. split; [auto|].
      split; [intros k it H; destruct (E6 k it H)|]. split; [auto|]. split; [intros H; destruct H; exact I|].
      destruct E8 as [->| ->]; [exists [], [], (c_stack c)|exists [InSend], [], (c_stack c)]; cbn; (split; [reflexivity|]; split; [lia|]; split; [reflexivity|]);
        (split; [right; reflexivity|contradiction]). }
    destruct (message_pack _ _ _ _) as [buf|e]; [destruct fl as [[n e]|]; [|cbn [c_send_callback]; destruct (c_send_callback c) as [k|] eqn:Cs]|];
      apply X; cbn; auto; (split; [reflexivity|]; split; [reflexivity|]; split; [intros ? ? [H|[]]; discriminate|];
        intros H; inversion H as [? ? H0|? ? H0]; [destruct H0|inversion H0]).
  - cbn. rewrite !app_nil_r. split; [exact T|]. split; [intros H; inversion H|]. split; [intros H; destruct H; exact I|]. split; [intros ? ? []|].
    split; [auto|]. split; [intros _; split; [auto|intros ? ? []]|]. exists [], [], (c_stack c). cbn. split; [reflexivity|]. split; [lia|]. split; [reflexivity|].
    split; [right; reflexivity|contradiction].
  - cbn. rewrite !app_nil_r. split; [exact T|]. split; [intros H; inversion H|]. split; [auto|]. split; [intros ? ? []|].
    split; [intros H; destruct H; exact I|]. split; [intros _; split; [auto|intros ? ? []]|]. exists [], [], (c_stack c). cbn. split; [reflexivity|]. split; [lia|].
    split; [reflexivity|]. split; [right; reflexivity|contradiction].
  - (* Leave *) rewrite app_nil_r in *. destruct (c_stack c) as [|[it|ret|] st] eqn:Es.
    + cbn. rewrite !app_nil_r. split; [exact T|]. split; [intros H; inversion H|]. split; [auto|]. split; [intros ? ? []|]. split; [auto|].
      split; [intros _; split; [auto|intros ? ? []]|]. exists [], [], []. cbn. rewrite Es. split; [reflexivity|]. split; [lia|]. split; [reflexivity|].
      split; [right; reflexivity|contradiction].
    + cbn. rewrite !app_nil_r. split; [exact T|]. split; [intros H; inversion H as [? ? H0|? ? H0]; [destruct H0|inversion H0]|]. split; [auto|].
      split; [intros ? ? [H|[]]; discriminate|]. split; [auto|].
      split; [intros _; split; [auto|intros ? ? [H|[]]; discriminate]|]. exists [], [InChar it], st. cbn. split; [reflexivity|]. split; [lia|].
      split; [reflexivity|]. split; [right; reflexivity|contradiction].
    + pose proof (go_on_settled d0 (with_stack c st) ret items s T B) as G.
      destruct (go_on decode (with_stack c st) ret) as [c' ev]. cbn [fst snd] in *.
      destruct G as ([S1 S2 S3 S4 S5 S6] & (st' & E1 & El & E2) & R). cbn [with_stack c_callback c_send_callback c_mav c_stack] in *.
      split; [exact S1|]. split; [exact S2|]. split; [tauto|]. split; [exact S4|]. split; [tauto|]. split; [auto|].
      exists st', [InBuffer ret], st. cbn [held map concat]. rewrite app_nil_r. split; [reflexivity|]. split; [exact El|]. split; [exact E1|].
      split; [right; exact E2|contradiction].
    + cbn. rewrite !app_nil_r. split; [exact T|]. split; [intros H; inversion H as [? ? H0|? ? H0]; [destruct H0|inversion H0]|]. split; [auto|].
      split; [intros ? ? [H|[]]; discriminate|]. split; [auto|].
      split; [intros _; split; [auto|intros ? ? [H|[]]; discriminate]|]. exists [], [InSend], st. cbn. split; [reflexivity|]. split; [lia|].
      split; [reflexivity|]. split; [right; reflexivity|contradiction].
  - (* Throw *) rewrite app_nil_r in *. destruct (c_stack c) as [|f st] eqn:Es; cbn; rewrite ?app_nil_r.
    + split; [exact T|]. split; [intros H; inversion H|]. split; [auto|]. split; [intros ? ? []|]. split; [auto|].
      split; [intros _; split; [auto|intros ? ? []]|]. exists [], [], []. cbn. rewrite Es. auto 12.
    + split; [exact T|]. split; [intros H; inversion H as [? ? H0|? ? H0]; [destruct H0|inversion H0]|]. split; [auto|].
      split; [intros ? ? [H|[]]; discriminate|]. split; [auto|].
      split; [intros _; split; [auto|intros ? ? [H|[]]; discriminate]|]. exists [], [f], st. cbn. auto 10.
Qed.
End Link.

(** The sending side; whatever the parser does. *)
Section Sender.
Context {D M : Type}.
Variable decode : D -> bytes -> D * res M.

Definition same_sender (c c' : conn D M) (ev : list (event M)) : Prop :=
  c_mav c' = c_mav c /\ c_send_callback c' = c_send_callback c /\ forall k, confirmed k ev = [].

Lemma loop_sender fuel : forall c ret, same_sender c (fst (loop decode fuel c ret)) (snd (loop decode fuel c ret)).
Proof.
  induction fuel as [|f IH]; intros c ret; cbn [loop]; [repeat split|].
  destruct (parse_char decode (c_parser c) []) as [p [[it|]|e]]; [|repeat split|repeat split].
  cbn [with_parser c_callback]. destruct (c_callback c); [repeat split|].
  match goal with |- context[loop decode f ?x ?y] => specialize (IH x y); destruct (loop decode f x y) as [c' ev] end. exact IH.
Qed.

Lemma step_sender c a : ~ is_send a -> ~ sets_send_callback a -> same_sender c (fst (step decode c a)) (snd (step decode c a)).
Proof.
  intros Hs Hc. destruct a as [b|b|m fl|k|k| |e]; cbn [step]; try (destruct Hs; exact I); try (destruct Hc; exact I).
  - unfold do_feed. destruct (parse_char decode (c_parser c) b) as [p [[it|]|e]]; [|repeat split|repeat split].
    cbn [with_parser c_callback]. destruct (c_callback c); repeat split.
  - unfold do_feed_all. destruct (parse_char decode (c_parser c) b) as [p [[it|]|e]]; [|repeat split|repeat split].
    cbn [with_parser c_callback]. destruct (c_callback c) eqn:E; [repeat split|]. unfold go_on.
    match goal with |- context[loop decode ?f ?x ?y] => pose proof (loop_sender f x y) as L; destruct (loop decode f x y) as [c' ev] end. exact L.
  - repeat split.
  - destruct (c_stack c) as [|[it|ret|] st]; try (repeat split; fail). unfold go_on.
    match goal with |- context[loop decode ?f ?x ?y] => exact (loop_sender f x y) end.
  - destruct (c_stack c) as [|f st]; repeat split.
Qed.

Definition sending_ (sys comp : Z) (k b : nat) (file : bytes) : Mavlink.mav := Mav (Z.of_nat k mod 256) sys comp file (Z.of_nat k) (Z.of_nat b).

Lemma next_number k : ((Z.of_nat k mod 256 + 1) mod 256 = Z.of_nat (S k) mod 256)%Z.
Proof. rewrite Zplus_mod_idemp_l. f_equal. lia. Qed.

Lemma attempts_cons a l : attempts (a :: l) = attempts [a] ++ attempts l.
Proof. unfold attempts. cbn [map concat]. rewrite app_nil_r. reflexivity. Qed.

Lemma run_sender sys comp l : forall c k b file, c_mav c = sending_ sys comp k b file ->
  c_mav (fst (run decode c l)) = sending_ sys comp (k + length (delivered sys comp k (attempts l))) (b + delivered_bytes sys comp k (attempts l))
                                         (file ++ written sys comp k (attempts l)).
Proof.
  induction l as [|a l IH]; intros c k b file E; cbn [run].
  - cbn. rewrite !Nat.add_0_r, app_nil_r. exact E.
  - rewrite attempts_cons. assert (Q : is_send a \/ ~ is_send a) by (destruct a; cbn; auto). destruct Q as [S|S].
    + destruct a as [b0|b0|m fl|j|j| |e]; try destruct S. cbn [step]. unfold do_send. rewrite E. cbn [sending_ mav_seq mav_sys mav_comp mav_file mav_packets mav_bytes].
      destruct (message_pack m (Z.of_nat k mod 256) sys comp) as [buf|e] eqn:P.
      * assert (F : frame_of sys comp k m = Some buf) by (unfold frame_of; rewrite P; reflexivity). destruct fl as [[n e]|].
        -- match goal with |- context[run decode ?x l] => specialize (IH x k b (file ++ firstn n buf) eq_refl); destruct (run decode x l) as [c' ev'] end.
           cbn [fst] in *. rewrite IH. cbn [attempts map concat app written delivered delivered_bytes]. rewrite F, app_assoc. reflexivity.
        -- match goal with |- context[let '(c, ev) := match c_send_callback ?x with _ => _ end in _] => set (c1 := x) end.
           assert (X : forall c2 ev, c_mav c2 = c_mav c1 -> c_mav (fst (let '(c, ev') := run decode c2 l in (c, ev ++ ev'))) = 
             sending_ sys comp (S k + length (delivered sys comp (S k) (attempts l))) (b + length buf + delivered_bytes sys comp (S k) (attempts l))
               ((file ++ buf) ++ written sys comp (S k) (attempts l))).
           { intros c2 ev E2. specialize (IH c2 (S k) (b + length buf) (file ++ buf)). destruct (run decode c2 l) as [c' ev']. cbn [fst] in *. apply IH.
             rewrite E2. unfold c1, sending_. cbn [c_mav]. rewrite next_number. f_equal; lia. }
           cbn [attempts map concat app written delivered delivered_bytes length]. rewrite F. cbn [length].
           replace (k + S (length (delivered sys comp (S k) (attempts l)))) with (S k + length (delivered sys comp (S k) (attempts l))) by lia.
           rewrite Nat.add_assoc, app_assoc. destruct (c_send_callback c1); apply X; reflexivity.
      * assert (F : frame_of sys comp k m = None) by (unfold frame_of; rewrite P; reflexivity).
        specialize (IH c k b file E). destruct (run decode c l) as [c' ev']. cbn [fst] in *. rewrite IH. destruct fl as [[n e']|];
          cbn [attempts map concat app written delivered delivered_bytes]; rewrite F; reflexivity.
    + assert (A : attempts [a] = []) by (destruct a; try reflexivity; destruct S; exact I). rewrite A. cbn [app].
      assert (E' : c_mav (fst (step decode c a)) = c_mav c).
      { destruct a as [b0|b0|m fl|j|j| |e]; try reflexivity; try (apply step_sender; cbn; auto; fail). }
      destruct (step decode c a) as [c1 ev]. cbn [fst] in E'. specialize (IH c1 k b file). destruct (run decode c1 l) as [c' ev']. cbn [fst] in *. apply IH. congruence.
Qed.

Lemma confirmed_app k (a b : list (event M)) : confirmed k (a ++ b) = confirmed k a ++ confirmed k b.
Proof. unfold confirmed. rewrite map_app. apply concat_app. Qed.

Lemma run_confirmed sys comp j l : forall c k b file, c_mav c = sending_ sys comp k b file -> c_send_callback c = Some j ->
  Forall (fun a => ~ sets_send_callback a) l -> confirmed j (snd (run decode c l)) = delivered sys comp k (attempts l).
Proof.
  induction l as [|a l IH]; intros c k b file E Ej F; cbn [run]; [reflexivity|]. inversion F as [|? ? F1 F2]; subst.
  rewrite attempts_cons. assert (Q : is_send a \/ ~ is_send a) by (destruct a; cbn; auto). destruct Q as [S|S].
  - destruct a as [b0|b0|m fl|i|i| |e]; try destruct S. cbn [step]. unfold do_send. rewrite E. cbn [sending_ mav_seq mav_sys mav_comp mav_file mav_packets mav_bytes].
    destruct (message_pack m (Z.of_nat k mod 256) sys comp) as [buf|e] eqn:P.
    + assert (G : frame_of sys comp k m = Some buf) by (unfold frame_of; rewrite P; reflexivity). destruct fl as [[n e]|].
      * match goal with |- context[run decode ?x l] => specialize (IH x k b (file ++ firstn n buf) eq_refl Ej F2); destruct (run decode x l) as [c' ev'] end.
        cbn [snd attempts map concat app delivered] in *. rewrite G. exact IH.
      * cbn [c_send_callback]. rewrite Ej. cbn [with_stack c_parser c_mav c_callback c_send_callback c_stack].
        match goal with |- context[run decode ?x l] => specialize (IH x (S k) (b + length buf) (file ++ buf)); destruct (run decode x l) as [c' ev'] end.
        cbn [snd attempts map concat app delivered c_mav c_send_callback] in *. rewrite G.
        change (confirmed j (SendCalled j m :: ev')) with ((if Nat.eqb j j then [m] else []) ++ confirmed j ev'). rewrite Nat.eqb_refl. cbn [app]. f_equal.
        apply IH; auto. unfold sending_, with_stack. cbn [c_mav]. rewrite next_number. f_equal; lia.
    + assert (G : frame_of sys comp k m = None) by (unfold frame_of; rewrite P; reflexivity).
      specialize (IH c k b file E Ej F2). destruct (run decode c l) as [c' ev']. cbn [snd] in *.
      change (confirmed j ([Raised e] ++ ev')) with (confirmed j ev'). rewrite IH.
      destruct fl as [[n e']|]; cbn [attempts map concat app delivered]; rewrite G; reflexivity.
  - assert (A : attempts [a] = []) by (destruct a; try reflexivity; destruct S; exact I). rewrite A. cbn [app].
    destruct (step_sender c a S F1) as (E1 & E2 & E3). destruct (step decode c a) as [c1 ev]. cbn [fst snd] in *.
    specialize (IH c1 k b file). destruct (run decode c1 l) as [c' ev']. cbn [snd] in *. rewrite confirmed_app, E3. apply IH; congruence.
Qed.
End Sender.

(** Histories. *)
Section History.
Context {D M : Type}.
Variable decode : D -> bytes -> D * res M.
Hypothesis mav : only_mav_errors decode.

Lemma fed_cons a l : fed (a :: l) = block a ++ fed l.
Proof. reflexivity. Qed.

Lemma run_through d0 l : forall c items s, through decode d0 (c_parser c) items s -> is_bytes (s ++ fed l) ->
  through decode d0 (c_parser (fst (run decode c l))) (items ++ parsed (snd (run decode c l))) (s ++ fed l).
Proof using mav.
  induction l as [|a l IH]; intros c items s T B; cbn [run].
  - cbn. rewrite !app_nil_r. exact T.
  - rewrite fed_cons, app_assoc in *. assert (Ba : is_bytes (s ++ block a)) by (unfold is_bytes in *; apply Forall_app in B; apply B).
    destruct (step_settled decode mav d0 c a items s T Ba) as (T1 & _). destruct (step decode c a) as [c1 ev]. cbn [fst snd] in *.
    specialize (IH c1 _ _ T1 B). destruct (run decode c1 l) as [c2 ev']. cbn [fst snd] in *. rewrite parsed_app, app_assoc. exact IH.
Qed.

Lemma new_through robust d sys comp : robust = true -> through decode d (c_parser (conn_new (M := M) robust d sys comp)) [] [].
Proof. intros ->. exists [], []. repeat split; cbn; auto; lia. Qed.

Lemma through_cut d p items s pieces rest : through decode d p items s -> cut s pieces rest ->
  exists done todo, pieces = done ++ todo /\ items = snd (tolerant decode d done) /\ pending p = concat (map piece_bytes todo) ++ rest /\
    p_decoder p = fst (tolerant decode d done) /\ p_packets p = length done /\ p_bytes p = length s /\ p_errors p = length (filter is_bad items).
Proof.
  intros (l & r & Pl & E & T & L) C. destruct (cut_total r) as (l2 & r2 & C2).
  pose proof (cut_proper l Pl r l2 r2 C2) as C3. rewrite E in C3. destruct (cut_unique _ _ _ C _ _ C3) as [-> ->].
  exists l, l2. split; [reflexivity|]. split; [auto|]. rewrite (cut_bytes _ _ _ C2). destruct L as (_ & L1 & _ & L2 & L3 & L4 & L5). auto.
Qed.

Lemma through_unfinished d p items s pieces rest : through decode d p items s -> cut s pieces rest -> unfinished (pending p) ->
  items = snd (tolerant decode d pieces) /\ pending p = rest.
Proof.
  intros (l & r & Pl & E & T & L) C U. destruct L as (_ & L1 & _). rewrite L1 in U. rewrite L1.
  pose proof (cut_proper l Pl r [] r (cut_rest _ U)) as C3. rewrite E in C3. destruct (cut_unique _ _ _ C _ _ C3) as [-> ->]. rewrite app_nil_r. auto.
Qed.

Lemma held_app (a b : list (frame M)) : held (a ++ b) = held a ++ held b.
Proof. unfold held. rewrite map_app. apply concat_app. Qed.

Lemma popped_app a (st base lost : list (frame M)) : (base, lost) = popped a st -> st = base ++ lost.
Proof. destruct a; cbn; intros [= -> ->]; try reflexivity; destruct st; reflexivity. Qed.

(** Nothing gets lost but by exceptions of callbacks. *)
Lemma run_accounts d0 l : forall c items s, through decode d0 (c_parser c) items s -> is_bytes (s ++ fed l) ->
  exists lost, Permutation (held (c_stack c) ++ parsed (snd (run decode c l))) (returned (snd (run decode c l)) ++ held (c_stack (fst (run decode c l))) ++ lost) /\
    (Forall (fun a => ~ is_throw a) l -> lost = []).
Proof using mav.
  induction l as [|a l IH]; intros c items s T B; cbn [run].
  - exists []. cbn. rewrite !app_nil_r. auto.
  - rewrite fed_cons, app_assoc in B. assert (Ba : is_bytes (s ++ block a)) by (unfold is_bytes in *; apply Forall_app in B; apply B).
    destruct (step_settled decode mav d0 c a items s T Ba) as (T1 & _ & _ & _ & _ & _ & (st & base & lo & Ep & _ & Es & H1 & H2)).
    apply popped_app in Ep. destruct (step decode c a) as [c1 ev]. cbn [fst snd] in *.
    destruct (IH c1 _ _ T1 B) as (lost & Pm & Nl). destruct (run decode c1 l) as [c2 ev']. cbn [fst snd] in *.
    rewrite parsed_app, returned_app, Ep, held_app. rewrite Es, held_app in Pm.
    assert (Q : is_throw a \/ ~ is_throw a) by (destruct a; cbn; auto). destruct Q as [Q|Q].
    + destruct (H2 Q) as (-> & -> & ->). cbn [held map concat app] in *. exists (held base ++ lost). split; [|intros F; inversion F; contradiction].
      rewrite <- app_assoc, Pm. etransitivity; [apply Permutation_app_comm|]. rewrite <- !app_assoc. do 2 apply Permutation_app_head.
      apply Permutation_app_comm.
    + destruct H1 as [H1|H1]; [contradiction|]. exists lost. split; [|intros F; inversion F; auto].
      transitivity ((held base ++ parsed ev) ++ held lo ++ parsed ev').
      { rewrite <- !app_assoc. apply Permutation_app_head. rewrite !app_assoc. apply Permutation_app_tail, Permutation_app_comm. }
      rewrite <- H1, <- !app_assoc. apply Permutation_app_head. rewrite <- app_assoc in Pm. exact Pm.
Qed.

(** Only the outermost call holds messages. *)
Fixpoint bottom (st : list (frame M)) : Prop :=
  match st with
  | [] | [_] => True
  | InSend :: t => bottom t
  | _ => False
  end.

Lemma run_order d0 l : forall c items s, through decode d0 (c_parser c) items s -> is_bytes (s ++ fed l) -> bottom (c_stack c) ->
  no_nesting decode c l -> Forall (fun a => ~ is_throw a) l ->
  held (c_stack c) ++ parsed (snd (run decode c l)) = returned (snd (run decode c l)) ++ held (c_stack (fst (run decode c l))).
Proof using mav.
  induction l as [|a l IH]; intros c items s T B Hb Hn Ht; cbn [run].
  - cbn. rewrite !app_nil_r. reflexivity.
  - rewrite fed_cons, app_assoc in B. assert (Ba : is_bytes (s ++ block a)) by (unfold is_bytes in *; apply Forall_app in B; apply B).
    destruct (step_settled decode mav d0 c a items s T Ba) as (T1 & _ & _ & _ & _ & _ & (st & base & lo & Ep & Ls & Es & H1 & H2)).
    pose proof (popped_app _ _ _ _ Ep) as Ea. inversion Ht as [|? ? Ht1 Ht2]; subst. destruct H1 as [H1|H1]; [contradiction|]. destruct Hn as [Hn1 Hn2].
    assert (X : bottom (c_stack (fst (step decode c a))) /\ (held lo = [] \/ (parsed (snd (step decode c a)) = [] /\ returned (snd (step decode c a)) = []))).
    { destruct a as [b|b|m fl|k|k| |e]; cbn [popped] in Ep.
      - rewrite Hn1 in Ep. injection Ep as -> ->. rewrite Es, app_nil_r. split; [|auto]. destruct st as [|[ | | ] [|? ?]]; cbn in *; auto; lia.
      - rewrite Hn1 in Ep. injection Ep as -> ->. rewrite Es, app_nil_r. split; [|auto]. destruct st as [|[ | | ] [|? ?]]; cbn in *; auto; lia.
      - cbn [step]. unfold do_send. destruct (message_pack _ _ _ _) as [buf|e]; [|split; [exact Hb|right; split; reflexivity]].
        destruct fl as [[n e]|]; [split; [exact Hb|right; split; reflexivity]|]. cbn [c_send_callback].
        destruct (c_send_callback c); cbn; (split; [|right; split; reflexivity]); [destruct (c_stack c); [exact I|exact Hb]|exact Hb].
      - split; [exact Hb|right; split; reflexivity].
      - split; [exact Hb|right; split; reflexivity].
      - destruct (c_stack c) as [|f st0] eqn:Ec; injection Ep as -> ->.
        + rewrite Es, app_nil_r. split; [|left; reflexivity]. destruct st as [|[ | | ] [|? ?]]; cbn in *; auto; lia.
        + destruct f as [it|ret|].
          * assert (st0 = []) as -> by (destruct st0; [reflexivity|destruct Hb]). rewrite Es, app_nil_r. split; [|left; reflexivity].
            destruct st as [|[ | | ] [|? ?]]; cbn in *; auto; lia.
          * assert (st0 = []) as -> by (destruct st0; [reflexivity|destruct Hb]). rewrite Es, app_nil_r. split; [|left; reflexivity].
            destruct st as [|[ | | ] [|? ?]]; cbn in *; auto; lia.
          * cbn [step]. rewrite Ec. cbn. split; [|right; split; reflexivity]. cbn in Hb. destruct st0; [exact I|exact Hb].
      - destruct Ht1; exact I. }
    destruct X as [Hb' X]. specialize (IH _ _ _ T1 B Hb' Hn2 Ht2). rewrite Es in IH.
    destruct (step decode c a) as [c1 ev]. cbn [fst snd] in *. destruct (run decode c1 l) as [c2 ev']. cbn [fst snd] in *.
    rewrite parsed_app, returned_app, Ea, held_app. rewrite held_app in IH. destruct X as [X|[X1 X2]].
    + rewrite X, app_nil_r in *. rewrite app_assoc, <- H1, <- !app_assoc. f_equal. exact IH.
    + rewrite X1, X2 in *. cbn [app] in *. rewrite app_nil_r in H1. rewrite H1 in IH. exact IH.
Qed.

(** The callback. *)
Lemma run_callback d0 o l : forall c items s, through decode d0 (c_parser c) items s -> is_bytes (s ++ fed l) -> c_callback c = o ->
  Forall (fun a => ~ sets_callback a) l -> forall k it, In (Parsed k it) (snd (run decode c l)) -> k = o.
Proof using mav.
  induction l as [|a l IH]; intros c items s T B Ho F k it; cbn [run]; [intros []|]. inversion F as [|? ? F1 F2]; subst o.
  rewrite fed_cons, app_assoc in B. assert (Ba : is_bytes (s ++ block a)) by (unfold is_bytes in *; apply Forall_app in B; apply B).
  destruct (step_settled decode mav d0 c a items s T Ba) as (T1 & _ & C1 & C2 & _). destruct (step decode c a) as [c1 ev]. cbn [fst snd] in *.
  specialize (IH c1 _ _ T1 B (C1 F1) F2 k it). destruct (run decode c1 l) as [c2 ev']. cbn [snd] in *. intros Hin. apply in_app_or in Hin. destruct Hin as [Hin|Hin]; eauto.
Qed.

Lemma called_all k (ev : list (event M)) : (forall j it, In (Parsed j it) ev -> j = Some k) -> called_with k ev = parsed ev.
Proof.
  induction ev as [|e ev IH]; intros H; [reflexivity|]. unfold called_with, parsed in *. cbn [map concat]. rewrite IH by (intros j it Hi; eapply H; right; exact Hi).
  destruct e as [j it|?|?|? ?| |?]; try reflexivity. rewrite (H j it (or_introl eq_refl)), Nat.eqb_refl. reflexivity.
Qed.

Lemma run_app c a b : run decode c (a ++ b) = (let '(c1, ev) := run decode c a in let '(c2, ev') := run decode c1 b in (c2, ev ++ ev')).
Proof.
  revert c. induction a as [|x a IH]; intros c; cbn [run app].
  - destruct (run decode c b). reflexivity.
  - destruct (step decode c x) as [c1 ev]. rewrite IH. destruct (run decode c1 a) as [c2 ev2]. destruct (run decode c2 b). rewrite app_assoc. reflexivity.
Qed.
End History.
