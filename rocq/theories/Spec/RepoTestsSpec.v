(** What the tests of the repository may draw. *)
From Coq Require Import List NArith ZArith Reals.
From Verif.Model Require Import Py RepoTests.
From Verif.Spec Require Import Bytes Header.
Import ListNotations.

(** A known message id. *)
Definition known_id (z : Z) : Prop := exists i n, plen i n /\ z = Z.of_N i.
(** Values of rand_msg and of three calls of rand_uint8. *)
Definition drawable (d : drawn) : Prop := known_id (dr_msg d) /\ in_byte (dr_sys d) /\ in_byte (dr_comp d) /\ in_byte (dr_seq d).
