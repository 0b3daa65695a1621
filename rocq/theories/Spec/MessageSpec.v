(** Specification of the comparison of messages. *)
From Coq Require Import String Ascii List NArith ZArith Bool.
From Verif.Model Require Import Py Dialect Struct Mavlink Message.
From Verif.Spec Require Import Bytes Frame ApiSpec.
Import ListNotations.

(** A message object whose fields are those of its class. *)
Definition proper (m : msgobj) : Prop := In (mo_class m) mavlink_classes /\ List.length (mo_fields m) = f_count (mo_class m).

(** A 32 bit float given by its bits: sign, 8 bits of exponent, 23 bits of fraction. *)
Definition exponent (p : N) : N := N.land (N.shiftr p 23) 255.
Definition fraction (p : N) : N := N.land p (N.ones 23).
Definition nan (p : N) : Prop := exponent p = 255%N /\ fraction p <> 0%N.
Definition zero (p : N) : Prop := exponent p = 0%N /\ fraction p = 0%N.

(** Numbers that compare equal. *)
Definition same_number (a b : pyval) : Prop :=
  match a, b with
  | VInt x, VInt y => x = y
  | VF32 p, VF32 q => ~ nan p /\ ~ nan q /\ (p = q \/ (zero p /\ zero q))
  | _, _ => False
  end.

(** A text without the NULs at its end. *)
Inductive stripped : list N -> list N -> Prop :=
| stripped_here t n : (t = [] \/ last t 0%N <> 0%N) -> stripped (t ++ repeat 0%N n) t.

(** What a field shows: byte strings as text without the NULs at the end. *)
Inductive shows (text : bytes -> list N) : fieldval -> fieldval -> Prop :=
| shows_bytes b t : stripped (text b) t -> shows text (FOne (VBytes b)) (FText t)
| shows_other v : (forall b, v <> FOne (VBytes b)) -> shows text v v.
Definition same_shown (a b : fieldval) : Prop :=
  match a, b with
  | FOne x, FOne y => same_number x y
  | FMany x, FMany y => Forall2 same_number x y
  | FText x, FText y => x = y
  | _, _ => False
  end.
Definition same_field (text : bytes -> list N) (a b : fieldval) : Prop := exists x y, shows text a x /\ shows text b y /\ same_shown x y.

(** Messages that compare equal. *)
Definition same_message (text : bytes -> list N) (a b : msgobj) : Prop :=
  mo_class a = mo_class b /\ mo_seq a = mo_seq b /\ mo_sys a = mo_sys b /\ mo_comp a = mo_comp b /\
  forall i, i < f_count (mo_class a) -> same_field text (field (mo_fields a) i) (field (mo_fields b) i).

(** The floats of a field. *)
Definition no_nan_number (v : pyval) : Prop := match v with VF32 p => ~ nan p | _ => True end.
Definition no_nan (v : fieldval) : Prop := match v with FOne x => no_nan_number x | FMany l => Forall no_nan_number l | FText _ => True end.

(** A byte string of at most [w] bytes whose text has no NUL but at the end. *)
Definition plain_text (text : bytes -> list N) (w : nat) (v : fieldval) : Prop :=
  match v with FOne (VBytes b) => List.length b <= w /\ forall t, stripped (text b) t -> ~ In 0%N t | _ => True end.

(** Padding with NULs is not changed by decoding (true of UTF-8 for valid byte strings). *)
Definition keeps_padding (text : bytes -> list N) (b : bytes) : Prop := forall n, text (b ++ repeat 0%N n) = text b ++ repeat 0%N n.

Definition has_text (c : msg_class) : Prop := exists i, i < f_count c /\ f_type c i = "char"%string.

(** Bytes cut or zero padded to [w] bytes. *)
Definition padded (w : nat) (l : bytes) : bytes := firstn w (l ++ repeat 0%N (w - List.length l)).
