(** Specification of the analysis of the classifier of fields. *)
From Coq Require Import String List Arith ZArith Bool.
From Verif.Model Require Import Py Float.
Import ListNotations.

(** The numbers below [n] with a property, and how many. *)
Definition those (n : nat) (P : nat -> bool) : list nat := filter P (seq 0 n).
Definition how_many (n : nat) (P : nat -> bool) : nat := length (those n P).

(** The confusion table of a judgement over [n] things: true positives, false positives, true negatives, false negatives, positives, negatives. *)
Definition table (n : nat) (judged actual : nat -> bool) : list Z :=
  map Z.of_nat [how_many n (fun i => judged i && actual i); how_many n (fun i => judged i && negb (actual i)); how_many n (fun i => negb (judged i) && negb (actual i));
                how_many n (fun i => negb (judged i) && actual i); how_many n actual; how_many n (fun i => negb (actual i))]%bool.

(** [i] is in a list of numbers. *)
Definition member (l : list Z) (i : nat) : bool := existsb (Z.eqb (Z.of_nat i)) l.
(** A set of numbers below [n]. *)
Definition subset_of (n : nat) (l : list Z) : Prop := NoDup l /\ forall v, In v l -> (0 <= v < Z.of_nat n)%Z.

(** What a model says about the fields: probability and deviation of each. *)
Definition verdicts {F : Type} (vf : list (option (string * F * F))) (vs : list (F * F)) : Prop := map (option_map (fun e => (snd (fst e), snd e))) vf = map Some vs.
