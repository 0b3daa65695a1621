(** Specification of the delivery of messages through code words. *)
From Coq Require Import String Ascii List NArith ZArith Bool.
From Verif.Model Require Import Py Dialect Mavlink Segmentation MsgCreator.
From Verif.Spec Require Import Bytes Header Frame Segment TelemetrySpec.
Import ListNotations.

(** The words of a buffer, by number of clusters: first byte, end, and bits of filling that follow. *)
Definition word_layout (n : nat) : list (nat * nat * nat) :=
  match n with
  | 1 => [(0, 153, 72)]
  | 2 => [(0, 72, 72); (72, 153, 0)]
  | 3 => [(0, 52, 70); (52, 108, 38); (108, 153, 126)]
  | _ => []
  end.
Definition code_length (n : nat) : nat := match n with 1 => 1296 | 2 => 648 | _ => 486 end.

(** The messages between two bytes of the buffer, with their positions counted from the first of these bytes. *)
Definition messages_between (a b : nat) : structure :=
  map (fun m => (fst m - a, snd m)) (filter (fun m => Nat.leb a (fst m) && Nat.ltb (fst m) b)%bool [(0, 33%N); (52, 234%N); (72, 30%N); (108, 212%N); (135, 218%N)]).

(** Positions moved by [n] bytes. *)
Definition moved (n : nat) (s : structure) : structure := map (fun m => (n + fst m, snd m)) s.

(** Nine bytes that look like an AUTH_KEY message with a payload of one byte. *)
Definition like_auth_key (g : bytes) : Prop :=
  exists q s c x lo hi m, g = [254; 1; q; s; c; 7; x; lo; hi]%N /\ is_msg 7 m /\ frame_v1 m g.

(** The decoded message [d] is the one that the buffer for time [t], whose first message has number [q], carries at position [k] of its layout. *)
Definition is_sent (q t : Z) (k : nat) (id : N) (s : series) (d : decoded) : Prop :=
  d_seq d = Z.to_N ((q + Z.of_nat k) mod 256) /\ d_sys d = 1%N /\ d_comp d = 1%N /\ exists i, chosen (s_time s) t i /\ shows_row id s i d.
