(** Signing of outgoing messages. *)
From Coq Require Import String Ascii List NArith ZArith Arith Bool Lia.
From Verif.Model Require Import Py Dialect ProtocolMeta Struct Crc Mavlink Parser Signing.
From Verif.Spec Require Import Bytes Bits Header CrcSpec Frame StreamSpec SignSpec.
From Verif.Proofs Require Import Base DialectP StructP MavlinkP FieldsP PackP SendP MavlinkMore StreamP StreamMore SignP.
Import ListNotations.
Local Open Scope list_scope.
Local Notation length := List.length.

Lemma le_bytes_prefix : forall n m v, n <= m -> firstn n (le_bytes m v) = le_bytes n v.
Proof. induction n as [|n IH]; intros m v H; [reflexivity|]. destruct m as [|m]; [lia|]. cbn [le_bytes firstn]. f_equal. apply IH. lia. Qed.

Lemma le_val_le_bytes_mod : forall n v, le_val (le_bytes n v) = (v mod 256 ^ N.of_nat n)%N.
Proof.
  induction n as [|n IH]; intros v; [cbn; rewrite N.mod_1_r; reflexivity|]. cbn [le_bytes le_val]. rewrite IH, Nat2N.inj_succ, N.pow_succ_r'.
  rewrite N.mod_mul_r; [reflexivity|discriminate|apply N.pow_nonzero; discriminate].
Qed.

Lemma pack_bq link time : struct_pack "<BQ" [VInt link; VInt time] =
  if ((0 <=? link) && (link <? 2 ^ 8) && (0 <=? time) && (time <? 2 ^ 64))%Z%bool then Ok (Z.to_N link :: le_bytes 8 (Z.to_N time)) else Err StructError.
Proof.
  unfold struct_pack. change (parse_fmt "<BQ") with (Ok [(1, "B"%char); (1, "Q"%char)]). cbn [bind].
  cbn [pack_items]. unfold pack_item at 1. cbn [snd fst pack_rep]. unfold pack_one. cbn [char_size char_unsigned].
  change (8 * Z.of_nat 1)%Z with 8%Z. change (8 * Z.of_nat 8)%Z with 64%Z.
  destruct ((0 <=? link)%Z && (link <? 2 ^ 8)%Z)%bool eqn:E1; [|reflexivity]. cbn [bind fst snd andb].
  unfold pack_item. cbn [snd fst pack_rep char_size char_unsigned]. unfold pack_one. cbn [char_size char_unsigned].
  change (8 * Z.of_nat 8)%Z with 64%Z.
  destruct ((0 <=? time)%Z && (time <? 2 ^ 64)%Z)%bool eqn:E2; [|reflexivity]. cbn [bind fst snd].
  rewrite !app_nil_r. cbn [le_bytes app]. rewrite (N.mod_small (Z.to_N link)) by lia. reflexivity.
Qed.

Section Sending.
Variable text : bytes -> list N.

Lemma frame_longer c f s : frame_v1 c f -> is_bytes (f ++ s) -> s <> [] -> decode text (f ++ s) = Err MAVError.
Proof using.
  intros F B Hs. destruct (decode text (f ++ s)) as [d|e] eqn:E.
  - exfalso. assert (H0 : nth 0 (f ++ s) 0%N = 254%N) by (destruct F as (_ & body & lo & hi & sig & -> & _); reflexivity).
    destruct (proj1 (decode_v1_iff text (f ++ s) B H0 d) E) as (c' & F' & _).
    destruct F as (_ & body & lo & hi & sig & Ef & Ls & Hl & N1 & _). destruct F' as (_ & body' & lo' & hi' & sig' & Ef' & Ls' & Hl' & N1' & _).
    destruct sig; [|discriminate]. destruct sig'; [|discriminate].
    assert (L : length (f ++ s) = length body' + 3) by (rewrite Ef'; cbn [length]; rewrite !app_length; cbn [length]; lia).
    assert (Lf : length f = length body + 3) by (rewrite Ef; cbn [length]; rewrite !app_length; cbn [length]; lia).
    rewrite app_length in L. rewrite app_nth1 in N1' by lia. assert (s <> [] -> 0 < length s) by (destruct s; cbn; [congruence|lia]).
    specialize (H Hs). lia.
  - destruct (decode_errors text _ _ B E) as [[H _]|[_ ->]]; [|reflexivity]. destruct f; [|discriminate]. contradiction.
Qed.
End Sending.
