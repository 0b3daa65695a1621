(** Specification of the comparison of clustering methods. *)
From Coq Require Import List ZArith Arith Bool.
From Verif.Model Require Import Py.
Import ListNotations.

Definition a_bit (b : Z) : Prop := b = 0%Z \/ b = 1%Z.
(** A draw of [size] different numbers below [bound]. *)
Definition drawn (bound size : nat) (l : list nat) : Prop := NoDup l /\ length l = size /\ Forall (fun i => i < bound) l.
(** The positions where two words differ. *)
Definition differ (a b : list Z) : list nat := filter (fun i => negb (Z.eqb (nth i a 0%Z) (nth i b 0%Z))) (seq 0 (length a)).
(** The word without errors: part c of the row and its padding. *)
Definition clean_word (part : nat) (row padding : list Z) (c : nat) : list Z := firstn part (skipn (c * part) row) ++ padding.
