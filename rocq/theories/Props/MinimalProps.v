(** C85: the minimal dialect and the dialect of the vehicle understand each other. *)
From Coq Require Import String List Arith ZArith NArith Bool Lia.
From Verif.Model Require Import Py Dialect ProtocolMeta Struct Crc Mavlink MinimalTable MinimalDialect Parser.
From Verif.Spec Require Import Bytes Bits Header CrcSpec Frame StreamSpec.
From Verif.Proofs Require Import Base DialectP MavlinkP FieldsP PackP SendP MavlinkMore StreamP StreamMore.
From Verif.Props Require Import MavlinkProps StreamProps.
Import ListNotations.
Local Open Scope list_scope.
Local Notation length := List.length.

(** The messages of the minimal dialect. *)
Definition minimal_ids : list N := [0; 33; 212; 218; 225; 234]%N.
Definition known (i : N) : bool := existsb (N.eqb i) minimal_ids.

Lemma min_cases i : match min_class i with Some c => get_class i = Some c /\ known i = true | None => known i = false end.
Proof.
  unfold min_class, minimal_map, minimal_classes. cbn [map dict_get mc_key]. unfold known, minimal_ids. cbn [existsb].
  repeat match goal with |- context[N.eqb i ?k] => let E := fresh in destruct (N.eqb_spec i k) as [E|E]; [subst i; split; [vm_compute; reflexivity|reflexivity]|] end.
  reflexivity.
Qed.
Lemma min_body text b h s m l ic co q sy cp i : min_decode_body text b h s m l ic co q sy cp i =
  if known i then decode_body text b h s m l ic co q sy cp i else Err MAVError.
Proof.
  unfold min_decode_body, decode_body. pose proof (min_cases i) as C. destruct (min_class i) as [c|].
  - destruct C as [-> ->]. reflexivity.
  - rewrite C. destruct (negb _); [reflexivity|]. destruct (negb _); reflexivity.
Qed.
Lemma body_id text b h s m l ic co q sy cp i d : decode_body text b h s m l ic co q sy cp i = Ok d -> d_msgId d = i.
Proof.
  unfold decode_body. destruct (negb _); [discriminate|]. destruct (negb _); [discriminate|]. destruct (get_class i); [|discriminate]. destruct (negb _); [discriminate|].
  destruct (calcsize _); cbn [bind]; [|discriminate]. destruct (struct_unpack _ _); cbn [bind]; [|discriminate]. destruct (reorder _ _); cbn [bind]; [|discriminate]. intros K. injection K as <-. reflexivity.
Qed.

(** Both dialects have the same six messages: equal numbers, names, fields, formats and checksum seeds. *)
Theorem c85_same : forall c, In c minimal_classes <-> In c mavlink_classes /\ known (mc_id c) = true.
Proof.
  assert (A : Forall (fun c => In c mavlink_classes /\ known (mc_id c) = true) minimal_classes).
  { unfold minimal_classes. repeat (apply Forall_cons; [split; [|reflexivity]|]); [..|apply Forall_nil].
    all: match goal with |- In ?c _ => assert (E : get_class (mc_id c) = Some c) by (vm_compute; reflexivity) end.
    all: unfold get_class, mavlink_map in E; revert E; generalize mavlink_classes; intros l E; induction l as [|x l IH]; [discriminate|]; cbn [map dict_get] in E;
         destruct (N.eqb _ _); [injection E as <-; left; reflexivity|right; apply IH; exact E]. }
  assert (B : filter (fun c => known (mc_id c)) mavlink_classes = filter (fun c => known (mc_id c)) minimal_classes) by (vm_compute; reflexivity).
  intros c. split.
  - intros Hc. rewrite Forall_forall in A. apply A. exact Hc.
  - intros [Hc Hk]. assert (Hf : In c (filter (fun c => known (mc_id c)) mavlink_classes)) by (apply filter_In; split; assumption). rewrite B in Hf. apply filter_In in Hf. apply Hf.
Qed.
Print Assumptions c85_same.

(** The receiver of the minimal dialect accepts exactly the frames of these messages that the full receiver accepts, and reads the same. *)
Theorem c85_decode : forall text b, 
  (forall d, min_decode text b = Ok d <-> decode text b = Ok d /\ known (d_msgId d) = true) /\
  (forall e, is_bytes b -> min_decode text b = Err e -> (b = [] /\ e = IndexError) \/ (b <> [] /\ e = MAVError)).
Proof.
  intros text b. assert (G : forall d, min_decode text b = Ok d <-> decode text b = Ok d /\ known (d_msgId d) = true).
  { intros d. unfold min_decode, decode. destruct b as [|b0 t]; [split; [discriminate|intros [K _]; discriminate]|]. cbv zeta. 
    destruct (b0 =? stx)%N; destruct (Nat.ltb _ _); try (split; [discriminate|intros [K _]; discriminate]); rewrite min_body;
    match goal with |- context[decode_body ?a ?b ?c ?d ?e ?f ?g ?h ?i ?j ?k ?l] => pose proof (body_id a b c d e f g h i j k l) as I; destruct (decode_body a b c d e f g h i j k l) as [d'|]; destruct (known l) eqn:Kn end;
    (split; [intros K; first [discriminate K | injection K as <-; split; [reflexivity|rewrite (I _ eq_refl); exact Kn]]|intros [K Kd]; first [discriminate K | injection K as <-; first [reflexivity | rewrite (I _ eq_refl) in Kd; congruence]]]). }
  split; [exact G|]. intros e Hb. pose proof (c08_decode_errors text b) as Er. unfold min_decode. unfold decode in Er. destruct b as [|b0 t]; [intros K; injection K as <-; left; auto|]. intros K. right. split; [discriminate|]. cbv zeta in *.
  destruct (b0 =? stx)%N; destruct (Nat.ltb _ _); try (injection K as <-; reflexivity); rewrite min_body in K;
    destruct (known _); try (injection K as <-; reflexivity); destruct (Er _ Hb K) as [[E1 _]|[_ E2]]; try discriminate; exact E2.
Qed.
Print Assumptions c85_decode.

(** What one dialect sends the other one reads. *)
Theorem c85_exchange : forall text c fs seq sys comp, In c minimal_classes -> fits_all c fs -> in_byte seq -> in_byte sys -> in_byte comp ->
  exists b d, message_pack (Msg c fs) seq sys comp = Ok b /\ min_decode text b = Ok d /\ decode text b = Ok d /\ sent text c fs (Z.to_N seq) (Z.to_N sys) (Z.to_N comp) d.
Proof.
  intros text c fs q sy cp Hc Hf Hq Hs Hp. apply c85_same in Hc. destruct Hc as [Hc Hk]. destruct (c09_pack_decode text c fs q sy cp Hc Hf Hq Hs Hp) as (b & d & E & _ & _ & _ & D & Se).
  exists b, d. split; [exact E|]. split; [|auto]. apply c85_decode. split; [exact D|]. destruct Se as (_ & -> & _). exact Hk.
Qed.
Print Assumptions c85_exchange.

(** A stream of any kind, in any blocks: the minimal receiver delivers the messages of the full one with the six numbers, in the same order, and
    reports the frames of the others as bad data; both keep the same unfinished rest. *)
Definition minimal_plain (text : bytes -> list N) (d : unit) (f : bytes) : unit * res decoded := (d, min_decode text f).
Lemma minimal_mav text : only_mav_errors (minimal_plain text).
Proof. intros d f e B H E. cbn in E. destruct (proj2 (c85_decode text f) e B E) as [[K _]|[_ K]]; [contradiction|exact K]. Qed.
Definition hidden (x : item decoded) (y : item decoded) : Prop :=
  match x with Message d => if known (d_msgId d) then y = Message d else exists f, y = BadData f | BadData f => y = BadData f end.
Lemma tolerant_hidden text : forall pieces, Forall2 hidden (snd (tolerant (plain_decode text) tt pieces)) (snd (tolerant (minimal_plain text) tt pieces)).
Proof.
  induction pieces as [|[b|f] l IH]; cbn [tolerant].
  - constructor.
  - destruct (tolerant (plain_decode text) tt l) as [[] r], (tolerant (minimal_plain text) tt l) as [[] r']. cbn [snd] in *. constructor; [reflexivity|exact IH].
  - set (x := outcome (plain_decode text) tt f). set (y := outcome (minimal_plain text) tt f).
    assert (Hx : fst x = tt) by (destruct (fst x); reflexivity). assert (Hy : fst y = tt) by (destruct (fst y); reflexivity).
    assert (H : match snd x, snd y with Ok d, Ok d' => d' = d /\ known (d_msgId d) = true | Ok d, Err _ => known (d_msgId d) = false | Err _, Err _ => True | Err _, Ok _ => False end).
    { subst x y. unfold outcome. destruct (_ && _)%bool; [exact I|]. cbn [plain_decode minimal_plain snd]. pose proof (proj1 (c85_decode text f)) as G. destruct (decode text f) as [d|]; destruct (min_decode text f) as [d'|].
      - destruct (proj1 (G d') eq_refl) as [K1 K2]. injection K1 as <-. auto.
      - destruct (known (d_msgId d)) eqn:Kn; [|reflexivity]. assert (K : Err e = Ok d) by (apply G; auto). discriminate.
      - destruct (proj1 (G d') eq_refl). discriminate.
      - exact I. }
    destruct x as [x1 x2], y as [y1 y2]. cbn [fst snd] in *. subst x1 y1. destruct (tolerant (plain_decode text) tt l) as [[] r], (tolerant (minimal_plain text) tt l) as [[] r']. cbn [snd] in *.
    constructor; [|exact IH]. destruct x2 as [d|], y2 as [d'|]; cbn [hidden].
    + destruct H as [-> ->]. reflexivity.
    + rewrite H. eauto.
    + destruct H.
    + reflexivity.
Qed.
Theorem c85_stream : forall text blocks, is_bytes (concat blocks) -> exists p q items items',
  feed_blocks (plain_decode text) (parser_new true tt) blocks = (p, Ok items) /\ feed_blocks (minimal_plain text) (parser_new true tt) blocks = (q, Ok items') /\
  Forall2 hidden items items' /\ messages items' = filter (fun d => known (d_msgId d)) (messages items) /\ pending q = pending p.
Proof.
  intros text blocks B. destruct (cut_total (concat blocks)) as (l & r & C).
  destruct (c69_blocks _ _ (plain_decode text) tt blocks l r (plain_mav text) B C) as (p & E & P & _).
  destruct (c69_blocks _ _ (minimal_plain text) tt blocks l r (minimal_mav text) B C) as (q & E' & P' & _).
  exists p, q, (snd (tolerant (plain_decode text) tt l)), (snd (tolerant (minimal_plain text) tt l)). split; [exact E|]. split; [exact E'|]. pose proof (tolerant_hidden text l) as H. split; [exact H|]. split; [|congruence].
  clear - H. unfold messages. induction H as [|x y xs ys Hxy H IH]; [reflexivity|]. cbn [flat_map]. rewrite IH. destruct x as [d|f]; cbn [hidden] in Hxy.
  - cbn [app filter]. destruct (known (d_msgId d)); [rewrite Hxy; reflexivity|]. destruct Hxy as [f ->]. reflexivity.
  - rewrite Hxy. reflexivity.
Qed.
Print Assumptions c85_stream.

(** A heartbeat is read by both; an attitude message, one of the five of the telemetry buffers, only by the full receiver. *)
Example c85_ex : (exists d, decode text0 hb = Ok d /\ min_decode text0 hb = Ok d) /\ In (class_of 0) minimal_classes /\ fits_all (class_of 0) hb_fields.
Proof. split; [eexists; split; vm_compute; reflexivity|]. split; [left; reflexivity|apply c09_ex_fits]. Qed.
Example c85_ex_attitude : match message_pack (Msg (class_of 30) (FOne (VInt 5) :: map (fun x => FOne (VF32 x)) [1; 2; 3; 4; 5; 6]%N)) 3 1 1 with
  | Ok b => (match decode text0 b with Ok d => Some (d_msgId d) | Err _ => None end, match min_decode text0 b with Ok _ => None | Err e => Some e end) = (Some 30%N, Some MAVError) | Err _ => False end.
Proof. vm_compute. reflexivity. Qed.
