(** Specification of C115: which attributes methods may read before they are set. *)
From Coq Require Import String ZArith NArith List Bool.
From Verif Require Import Model.Names Model.AttrsTable Spec.NamesSpec.
Import ListNotations.
Local Open Scope string_scope.
Local Open Scope list_scope.

(** A class, an attribute and the arguments of the constructor with which a method reads it before it is set, though nothing fails. *)
Definition attr_faults : list (string * string * list cond) :=
  [("EntropyBitwiseWeightedDecoder", "a_normalized_variance", [Is "confidence" (VInt 4); Not (Is "estimator" (VStr "Bayes"))]);
   ("EntropyBitwiseWeightedDecoder", "b_normalized_variance", [Is "confidence" (VInt 4); Not (Is "estimator" (VStr "Bayes"))]);
   ("BMM", "x", []); ("BMM", "mu", []); ("BMM", "pi", []); ("BMM", "gamma", []); ("BMM", "Neff", []); ("BMM", "old_mu", []);
   ("DUDE", "_last_context", [])].

(** Those which may be read before they are set as far as what conditions have in common is left out (BMM.fit reads logL from its second step on
    only, and sets it in every step), or which are read after another one which is not set. *)
Definition attr_loose : list (string * list string) :=
  [("BMM", ["logL"; "n_samples"; "old_pi"; "old_gamma"]); ("BMM.fit", ["logL"]); ("DUDE", ["contexts"])].
