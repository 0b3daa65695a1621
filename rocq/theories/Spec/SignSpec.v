(** Specification of signed MAVLink frames. *)
From Coq Require Import String Ascii List NArith ZArith Bool.
From Verif.Model Require Import Py Dialect Struct Mavlink Signing.
From Verif.Spec Require Import Bytes Bits Header CrcSpec Frame.
Import ListNotations.

(** A version 2 frame whose lowest flag is set ends with 13 bytes of signature: link id, timestamp (6 bytes), hash (6 bytes). *)
Definition has_signature (b : bytes) : Prop := nth 0 b 0%N <> 254%N /\ N.testbit (nth 2 b 0%N) 0 = true.
Definition from_end (b : bytes) (k n : nat) : bytes := firstn n (skipn (List.length b - k) b).
Definition stamp (b : bytes) : Z := Z.of_N (le_number (from_end b 12 6)).
Definition stream_of (b : bytes) : N * N * N := (nth (List.length b - 13) b 0%N, nth 5 b 0%N, nth 6 b 0%N).

(** The hash of the key and everything before it. *)
Definition authentic (sha256 : bytes -> bytes) (key b : bytes) : Prop :=
  from_end b 6 6 = firstn 6 (sha256 (key ++ firstn (List.length b - 6) b)).

(** The timestamp: later than the one recorded for the stream, or at most a minute (in units of 10 us) old if the stream is new. *)
Definition recorded (sg : signing) (stream : N * N * N) : option Z := dict_get stream_eqb (sg_streams sg) stream.
Definition fresh (sg : signing) (b : bytes) : Prop :=
  match recorded sg (stream_of b) with
  | Some old => (old < stamp b)%Z
  | None => (sg_timestamp sg <= stamp b + 6000000)%Z
  end.

(** A frame whose signature proves its origin. *)
Definition proven (sha256 : bytes -> bytes) (sg : signing) (b : bytes) : Prop :=
  exists key, sg_key sg = Some key /\ has_signature b /\ fresh sg b /\ authentic sha256 key b.

(** The callback accepts the message id. *)
Definition permitted (sg : signing) (id : N) : Prop := exists f, sg_allow sg = Some f /\ f id = true.

(** What is counted: signed frames, bad, good, permitted by the callback, refused by the callback. *)
Definition counted (sg sg' : signing) (sig bad good unsigned reject : nat) : Prop :=
  sg_sig sg' = sg_sig sg + sig /\ sg_badsig sg' = sg_badsig sg + bad /\ sg_goodsig sg' = sg_goodsig sg + good /\
  sg_unsigned sg' = sg_unsigned sg + unsigned /\ sg_reject sg' = sg_reject sg + reject.
Definition asked (sg : signing) (id : N) : nat * nat :=
  match sg_allow sg with None => (0, 0) | Some f => if f id then (1, 0) else (0, 1) end.

(** The settings are never changed. *)
Definition same_settings (sg sg' : signing) : Prop :=
  sg_key sg' = sg_key sg /\ sg_link sg' = sg_link sg /\ sg_outgoing sg' = sg_outgoing sg /\ sg_allow sg' = sg_allow sg.

(** The recorded timestamps: unchanged, or one stream is added. *)
Definition same_records (sg sg' : signing) : Prop := forall s, recorded sg' s = recorded sg s.
Definition records (sg sg' : signing) (b : bytes) : Prop :=
  forall s, recorded sg' s = match recorded sg s with Some t => Some t | None => if stream_eqb s (stream_of b) then Some (stamp b) else None end.

(** Any number of frames. *)
Definition after_frames (sha256 : bytes -> bytes) (text : bytes -> list N) (sg : signing) (bs : list bytes) : signing :=
  fold_left (fun sg b => fst (decode_signed sha256 text sg b)) bs sg.
