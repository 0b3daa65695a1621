(** Specification of C117: frames of protocol version 2.0. *)
From Coq Require Import String List NArith ZArith Bool.
From Verif.Model Require Import Py Dialect Struct Mavlink.
From Verif.Spec Require Import Bytes Bits Header CrcSpec Frame.
Import ListNotations.
Local Open Scope list_scope.
Local Notation length := List.length.

(** [p] is the payload [pl] without its trailing zeros, but not empty. *)
Definition shortest (p pl : bytes) : Prop :=
  pl = p ++ repeat 0%N (length pl - length p) /\ 1 <= length p /\ (1 < length p -> last p 0%N <> 0%N).

(** The bytes of a frame of version 2.0 up to the checksum. *)
Definition checked_part (flag : N) (c : msg_class) (seq sys comp : N) (p : bytes) : bytes :=
  [N.of_nat (length p); flag; 0; seq; sys; comp; mc_id c mod 256; (mc_id c / 256) mod 256; mc_id c / 65536]%N ++ p.
Definition frame2 (marker flag : N) (c : msg_class) (seq sys comp : N) (p : bytes) : bytes :=
  let body := checked_part flag c seq sys comp p in
  let crc := crc16 (body ++ [mc_crc_extra c]) in
  marker :: body ++ [crc mod 256; crc / 256]%N.

(** The message a receiver should get, as for version 1.0 ([sent]) but for the length of the payload. *)
Definition sent2 (text : bytes -> list N) (c : msg_class) (fs : list fieldval) (seq sys comp : N) (d : decoded) : Prop :=
  d_class d = c /\ d_msgId d = mc_id c /\ d_seq d = seq /\ d_sys d = sys /\ d_comp d = comp /\ d_compat d = 0%N /\
  d_fields d = map (fun i => returned text c i (nth i fs (FText []))) (List.seq 0 (f_count c)).
