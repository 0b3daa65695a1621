(** What a document of json.dump may hold (C109). *)
From Coq Require Import String Ascii List ZArith NArith.
From Verif.Model Require Import ShipLog JsonText.
From Verif.Model Require Cmd.
Import ListNotations.
Local Open Scope N_scope.

(** A code point that is no surrogate. *)
Definition scalar_code (n : N) : Prop := n < 55296 \/ 57344 <= n < 1114112.
Definition text_ok (s : text) : Prop := Forall scalar_code s.

Definition digit_code (c : N) : Prop := 48 <= c <= 57.
Definition digits1 (t : text) : Prop := t <> [] /\ Forall digit_code t.
(** The integer part of a number: 0, or digits that do not start with 0. *)
Definition whole (t : text) : Prop := t = [48] \/ (digits1 t /\ forall r, t <> 48 :: r).
Definition sign (t : text) : Prop := t = [] \/ t = [45].
Definition fraction (t : text) : Prop := exists ds, t = 46 :: ds /\ digits1 ds.
Definition exponent (t : text) : Prop := exists e s ds, t = e :: s ++ ds /\ (e = 101 \/ e = 69) /\ (s = [] \/ s = [45] \/ s = [43]) /\ digits1 ds.
(** How a float is written: with a fraction, an exponent or both (1.5, 1e-07, -2.5e+16), or as NaN, Infinity or -Infinity. *)
Definition float_text (t : text) : Prop :=
  (exists s w f e : text, t = s ++ w ++ f ++ e /\ sign s /\ whole w /\ (f = [] \/ fraction f) /\ (e = [] \/ exponent e) /\ (f <> [] \/ e <> [])) \/
  t = ascii "NaN" \/ t = ascii "Infinity" \/ t = ascii "-Infinity".

(** A document: the strings hold no surrogates, the keys of an object are distinct, and the floats it holds are written as floats that read
    back as themselves. *)
Section Writable.
Context {A : Type}.
Variable show_float : A -> text.
Variable read_float : text -> A.
Inductive writable : jdoc A -> Prop :=
| wNull : writable TNull
| wBool b : writable (TBool b)
| wInt z : writable (TInt z)
| wFloat x : float_text (show_float x) -> read_float (show_float x) = x -> writable (TFloat x)
| wStr s : text_ok s -> writable (TStr s)
| wArr l : Forall writable l -> writable (TArr l)
| wObj l : NoDup (map fst l) -> Forall text_ok (map fst l) -> Forall writable (map snd l) -> writable (TObj l).
End Writable.

(** [p] is the beginning of [t], without all of it. *)
Definition cut_short (p t : text) : Prop := exists q, t = p ++ q /\ q <> [].
