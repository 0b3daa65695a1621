(** Specification of the fields and of the description of a buffer. *)
From Coq Require Import String List NArith ZArith Bool.
From Verif.Model Require Import Py Dialect Mavlink Segmentation.
From Verif.Spec Require Import Bytes Header Frame Segment.
Import ListNotations.

(** The field (constructor index) that is transmitted at wire position [j]. *)
Definition field_at_wire (c : msg_class) (j : nat) : nat :=
  hd 0 (filter (fun i => Nat.eqb (f_wire c i) j) (seq 0 (f_count c))).

(** Name of field [i] in the dictionary. *)
Definition full_name (c : msg_class) (i : nat) : string := (mc_name c ++ "_" ++ nth i (mc_fieldnames c) "")%string.

(** Values and description of one frame [f] of message [c], in transmission order. *)
Definition frame_values (text : bytes -> list N) (c : msg_class) (f : bytes) : list (string * (fieldval * string)) :=
  map (fun j => let i := field_at_wire c j in (full_name c i, (f_value text c (payload f) i, f_type c i))) (seq 0 (f_count c)).
Definition frame_description (c : msg_class) (f : bytes) : list desc_item :=
  DHeader (firstn 6 f) :: map (fun j => let i := field_at_wire c j in DField (full_name c i) (f_type c i)) (seq 0 (f_count c)) ++ [DCrc].
