(** Specification vocabulary for the two ways of training a model of fields. *)
From Coq Require Import String List NArith ZArith Bool.
From Verif.Model Require Import Py Struct Dialect Mavlink Segmentation StatModels.
From Verif.Spec Require Import Bytes Bits Header Frame Segment Describe Stats.
Import ListNotations.

(** [sl] lists the payload fields, without the bytes of the headers, of all messages of a structure. *)
Inductive payloads : structure -> list slot -> Prop :=
| pay_nil : payloads [] []
| pay_cons k i c s sl : is_msg i c -> payloads s sl -> payloads ((k, i) :: s) (skipn 6 (msg_slots k c) ++ sl).

(** What a buffer has under a name: the value of the last field with this name, if there is any. *)
Definition newest (nm : string) (b : bytes) (sl : list slot) : list pyval :=
  match rev (filter (fun x => String.eqb (s_name x) nm) sl) with [] => [] | x :: _ => [slot_value b x] end.

(** The buffer is cut into the messages [s]; none of them has arrays. *)
Definition cut_into (text : bytes -> list N) (b : bytes) (s : structure) : Prop :=
  is_bytes b /\ Forall (plain_in (length b)) s /\ exists p v, segment_buffer (decode text) b = Ok (p, v, s).
