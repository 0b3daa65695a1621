(** The steps that can be split, and what a step is after its parts were put together again. *)
From Coq Require Import String List.
From Verif.Model Require Import Py FixResults.
Import ListNotations.
Local Open Scope string_scope.

Section Spec.
Variable V : Type.
(** The step holds tables of these three names, and a name is used once. *)
Definition splittable (s : step V) : Prop :=
  NoDup (map fst s) /\
  forall k, In k ["data"; "decoded_entropy"; "decoded_ldpc"] -> exists cols, In (k, Frame V cols) s.
(** The columns of a table by name: of several columns with one name the last. *)
Definition columns_of (cols : list (string * list V)) (out : list (string * list V)) : Prop :=
  NoDup (map fst out) /\ forall x c, In (x, c) out <-> exists a b, cols = (a ++ (x, c) :: b)%list /\ ~ In x (map fst b).
(** Every key of the step: its value if it is none of the three, else the columns of the table. *)
Definition holds (s : step V) (k : string) (e : entry V) : Prop :=
  if in_dec string_dec k ["data"; "decoded_entropy"; "decoded_ldpc"]
  then exists cols out, In (k, Frame V cols) s /\ e = Lists V out /\ columns_of cols out
  else In (k, e) s.
(** A step put together again from its entries in the three files. *)
Definition parts (entropy ldpc : list (string * list V)) (stats : step V) : step V :=
  ("decoded_entropy", Lists V entropy) :: ("decoded_ldpc", Lists V ldpc) :: stats.
(** Nothing is lost and nothing else is there: the keys are those of the step, each once, with its values. *)
Definition restored (s : step V) (entropy ldpc : list (string * list V)) (stats : step V) : Prop :=
  NoDup (map fst (parts entropy ldpc stats)) /\ (forall k, In k (map fst s) <-> In k (map fst (parts entropy ldpc stats))) /\
  forall k v, In (k, v) (parts entropy ldpc stats) -> holds s k v.
End Spec.
