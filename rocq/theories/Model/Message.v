(** Model of the methods of MAVLink_message: format_attr, __eq__, __ne__, to_dict; mavlink_utils/HC_dialect.py:107-207. *)
From Coq Require Import String Ascii List NArith ZArith Bool.
From Verif.Model Require Import Py Dialect ProtocolMeta Struct Crc Mavlink.
Import ListNotations.

(** A message object: class, field attributes in the order of fieldnames, and the header attributes that are compared;
    mavlink_utils/HC_dialect.py:86-118. *)
Record msgobj := MsgObj { mo_class : msg_class; mo_fields : list fieldval; mo_seq : Z; mo_sys : Z; mo_comp : Z }.

(** A message after its construction: the header defaults are 0; mavlink_utils/HC_dialect.py:88-95, 109-110. *)
Definition obj_new (c : msg_class) (fs : list fieldval) : msgobj := MsgObj c fs 0 0 0.

(** pack replaces the header; mavlink_utils/HC_dialect.py:237-240. *)
Definition obj_packed (m : msgobj) (seq sys comp : Z) : msgobj := MsgObj (mo_class m) (mo_fields m) seq sys comp.

(** The message returned by decode; mavlink_utils/HC_dialect.py:8943-8954. *)
Definition obj_decoded (d : decoded) : msgobj :=
  MsgObj (d_class d) (d_fields d) (Z.of_N (d_seq d)) (Z.of_N (d_sys d)) (Z.of_N (d_comp d)).

Section Message.
(** to_string, see Model/Mavlink.v. *)
Variable to_string : bytes -> list N.

(** str.rstrip of NUL characters. See mavlink_utils/HC_dialect.py:120-125. *)
Fixpoint rstrip_nul (t : list N) : list N :=
  match t with
  | [] => []
  | x :: r => match rstrip_nul r with [] => if N.eqb x 0 then [] else [x] | r' => x :: r' end
  end.

(** MAVLink_message.format_attr; mavlink_utils/HC_dialect.py:120-125. *)
Definition format_attr (m : msgobj) (name : string) : res fieldval :=
  match str_index (mc_fieldnames (mo_class m)) name with
  | Err _ => Err AttributeError
  | Ok i =>
      match index (mo_fields m) i with
      | Err _ => Err AttributeError
      | Ok (FOne (VBytes b)) => Ok (FText (rstrip_nul (to_string b)))
      | Ok v => Ok v
      end
  end.

(** Python's == on numbers.  A 32 bit float is NaN if its exponent is 255 and its fraction is not 0; +0.0 == -0.0.  Simplified: an int is never
    equal to a float, and bytes objects are not compared (format_attr turns them into text). See mavlink_utils/HC_dialect.py:196-198. *)
Definition f32_nan (p : N) : bool := N.ltb 2139095040 (N.modulo p 2147483648).
(** == of floats; mavlink_utils/HC_dialect.py:196-198. *)
Definition f32_eq (p q : N) : bool :=
  (negb (f32_nan p) && negb (f32_nan q) && (N.eqb p q || (N.eqb (N.modulo p 2147483648) 0 && N.eqb (N.modulo q 2147483648) 0)))%bool.
(** == of numbers; mavlink_utils/HC_dialect.py:196-198. *)
Definition py_num_eq (a b : pyval) : bool :=
  match a, b with
  | VInt x, VInt y => Z.eqb x y
  | VF32 p, VF32 q => f32_eq p q
  | _, _ => false
  end.
(** == of lists; mavlink_utils/HC_dialect.py:196-198. *)
Fixpoint list_eq {A} (eq : A -> A -> bool) (a b : list A) : bool :=
  match a, b with
  | [], [] => true
  | x :: a, y :: b => (eq x y && list_eq eq a b)%bool
  | _, _ => false
  end.

(** Python's == on attributes.  Simplified: sequences are of the same Python type and share no element objects. See mavlink_utils/HC_dialect.py:196-198. *)
Definition py_eq (a b : fieldval) : bool :=
  match a, b with
  | FOne x, FOne y => py_num_eq x y
  | FMany x, FMany y => list_eq py_num_eq x y
  | FText x, FText y => list_eq N.eqb x y
  | _, _ => false
  end.

(** The loop of MAVLink_message.__eq__ over the fields; mavlink_utils/HC_dialect.py:196-198. *)
Fixpoint fields_eq (a b : msgobj) (names : list string) : res bool :=
  match names with
  | [] => Ok true
  | n :: t =>
      do! x <- format_attr a n in
      do! y <- format_attr b n in
      if py_eq x y then fields_eq a b t else Ok false
  end.

(** MAVLink_message.__eq__ for another message or None; mavlink_utils/HC_dialect.py:176-200. *)
Definition message_eq (a : msgobj) (other : option msgobj) : res bool :=
  match other with
  | None => Ok false
  | Some b =>
      if negb (String.eqb (mc_name (mo_class a)) (mc_name (mo_class b))) then Ok false
      else if negb (Z.eqb (mo_seq a) (mo_seq b)) then Ok false
      else if negb (Z.eqb (mo_sys a) (mo_sys b)) then Ok false
      else if negb (Z.eqb (mo_comp a) (mo_comp b)) then Ok false
      else fields_eq a b (mc_fieldnames (mo_class a))
  end.

(** MAVLink_message.__ne__; mavlink_utils/HC_dialect.py:173-174. *)
Definition message_ne (a : msgobj) (other : option msgobj) : res bool := do! r <- message_eq a other in Ok (negb r).

(** MAVLink_message.to_dict; mavlink_utils/HC_dialect.py:202-207. *)
Inductive dictval := DName (s : string) | DField (v : fieldval).
(** to_dict; mavlink_utils/HC_dialect.py:202-207. *)
Definition to_dict (m : msgobj) : res (list (string * dictval)) :=
  fold_res (fun d n => do! v <- format_attr m n in Ok (dict_set String.eqb d n (DField v))) (mc_fieldnames (mo_class m))
           [("mavpackettype"%string, DName (mc_name (mo_class m)))].
End Message.
