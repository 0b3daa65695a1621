(** Specification of the training of stored models. *)
From Coq Require Import List ZArith NArith Arith Bool.
From Verif.Model Require Import Py.
From Verif.Spec Require Import Bytes Bits.
Import ListNotations.

(** A row of the table of sent words: bits, or 2 everywhere when it is not known what was sent. *)
Definition row_known (r : list Z) : Prop := Forall (fun x => x = 0%Z \/ x = 1%Z) r.
Definition row_unknown (r : list Z) : Prop := Forall (fun x => x = 2%Z) r.
Definition table_row (r : list Z) : Prop := 984 <= length r /\ (row_known r \/ row_unknown r).

(** The bits of the frame marker 254. *)
Definition marker : list Z := [1; 1; 1; 1; 1; 1; 1; 0]%Z.
Definition starts_frame (r : list Z) : bool := if list_eq_dec Z.eq_dec (firstn 8 r) marker then true else false.

(** The 123 bytes that the first 984 entries of a row spell, anything but 0 counting as 1. *)
Definition spells (r : list Z) (b : bytes) : Prop :=
  is_bytes b /\ length b = 123 /\ forall p, p < 984 -> bit_of b p = negb (Z.eqb (nth p r 0%Z) 0).

(** The number of information bits of the code used for a number of clusters, and the sizes of the pieces of a transmission of 1224 bits. *)
Definition info_bits (c : Z) : nat := if Z.eqb c 1 then 1296 else if Z.eqb c 2 then 648 else 486.
Definition pieces (c : Z) : list nat := if Z.eqb c 1 then [1224] else if Z.eqb c 2 then [576; 648] else [416; 448; 360].
