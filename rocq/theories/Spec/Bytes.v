(** Specification vocabulary for byte strings. *)
From Coq Require Import List NArith.
From Verif.Model Require Import Py.

(** Every element is a byte value 0..255. *)
Definition is_bytes (l : bytes) : Prop := Forall (fun b => (b < 256)%N) l.
