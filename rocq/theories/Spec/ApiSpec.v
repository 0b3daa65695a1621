(** Specification of the generated interface. *)
From Coq Require Import String Ascii List NArith ZArith Bool.
From Verif.Model Require Import Py Dialect Struct Mavlink Wrappers.
From Verif.Spec Require Import Bytes Frame.
Import ListNotations.

(** Names in lower case: the methods of message NAME are name_encode and name_send. *)
Definition lower_char (a : ascii) : ascii :=
  let n := nat_of_ascii a in if (Nat.leb 65 n && Nat.leb n 90)%bool then ascii_of_nat (n + 32) else a.
Fixpoint lower (s : string) : string := match s with EmptyString => EmptyString | String a t => String (lower_char a) (lower t) end.
Definition encode_of (c : msg_class) : string := (lower (mc_name c) ++ "_encode")%string.
Definition send_of (c : msg_class) : string := (lower (mc_name c) ++ "_send")%string.

(** The attribute of an object. *)
Definition attribute (o : object) (name : string) : option fieldval := dict_get String.eqb (o_attrs o) name.

(** A field that is an array of numbers, and its length. *)
Definition is_array (c : msg_class) (i : nat) : Prop := String.eqb (f_type c i) "char" = false /\ f_array c i <> 0.

(** Values as in [fits] (C09), but arrays may be longer than the field; what is sent of them; arrays that are too short. *)
Definition fits_or_longer (c : msg_class) (i : nat) (v : fieldval) : Prop :=
  fits c i v \/ (is_array c i /\ exists l, v = FMany l /\ f_array c i <= List.length l /\ Forall (c_ok (f_type c i)) l).
Definition trim (c : msg_class) (i : nat) (v : fieldval) : fieldval :=
  match v with FMany l => FMany (firstn (f_array c i) l) | _ => v end.
Definition too_short (c : msg_class) (i : nat) (v : fieldval) : Prop :=
  is_array c i /\ exists l, v = FMany l /\ List.length l < f_array c i.

Definition field (fs : list fieldval) (i : nat) : fieldval := nth i fs (FText []).
Definition trim_all (c : msg_class) (fs : list fieldval) : list fieldval := map (fun i => trim c i (field fs i)) (seq 0 (f_count c)).
