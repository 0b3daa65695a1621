(** What the XML definition of a message says about its frames, and about the class that is generated from it
    (the rules of the MAVLink protocol, version 1.0). *)
From Coq Require Import String Ascii List NArith ZArith Bool Arith DecimalString.
From Verif.Model Require Import Py Dialect Struct Mavlink XmlTable.
From Verif.Spec Require Import Bytes Header CrcSpec Frame.
Import ListNotations.
Local Open Scope string_scope.
Local Open Scope list_scope.
Local Notation length := List.length.

(** Element type (the version number is an ordinary byte), its size, and the bytes that the whole field takes. *)
Definition x_type (f : xfield) : string :=
  if String.eqb (xf_type f) "uint8_t_mavlink_version" then "uint8_t" else xf_type f.
Definition x_size (f : xfield) : nat := c_size (x_type f).
Definition x_width (f : xfield) : nat := Nat.max 1 (xf_array f) * x_size f.

(** Order of transmission: the fields with elements of 8 bytes, then 4, 2 and 1, each group in the order of the file. *)
Definition x_wire (x : xmsg) : list (nat * xfield) :=
  flat_map (fun s => filter (fun p => Nat.eqb (x_size (snd p)) s) (combine (seq 0 (length (xm_fields x))) (xm_fields x)))
    [8; 4; 2; 1].

Definition no_field : xfield := XF "" "" 0.
Definition x_field (x : xmsg) (i : nat) : xfield := nth i (xm_fields x) no_field.

(** The fields that are transmitted before field [i]. *)
Definition x_before (x : xmsg) (i : nat) : list nat :=
  filter (fun k => Nat.ltb (x_size (x_field x i)) (x_size (x_field x k)) ||
                   (Nat.eqb (x_size (x_field x k)) (x_size (x_field x i)) && Nat.ltb k i))%bool
    (seq 0 (length (xm_fields x))).
Definition x_offset (x : xmsg) (i : nat) : nat := list_sum (map (fun k => x_width (x_field x k)) (x_before x i)).
Definition x_total (x : xmsg) : nat := list_sum (map x_width (xm_fields x)).

(** The extra byte of the checksum: the definition as a text, in the order of transmission, checksummed and folded. *)
Definition ascii_bytes (s : string) : bytes := map N_of_ascii (list_ascii_of_string s).
Definition x_text (x : xmsg) : bytes :=
  ascii_bytes (xm_name x ++ " ")%string ++
  flat_map (fun p => ascii_bytes (x_type (snd p) ++ " " ++ xf_name (snd p) ++ " ")%string ++
                     if Nat.eqb (xf_array (snd p)) 0 then [] else [N.of_nat (xf_array (snd p))]) (x_wire x).
Definition x_extra (x : xmsg) : N := N.lxor (crc16 (x_text x) mod 256) (crc16 (x_text x) / 256).

(** The value of a field in a payload whose missing bytes count as zero; [text] decodes byte strings. *)
Definition x_value (text : bytes -> list N) (x : xmsg) (pl : bytes) (i : nat) : fieldval :=
  let f := x_field x i in
  let raw := map (fun k => nth (x_offset x i + k) pl 0%N) (seq 0 (x_width f)) in
  if String.eqb (x_type f) "char" then FText (before_nul (text raw))
  else if Nat.eqb (xf_array f) 0 then FOne (c_scalar (x_type f) raw)
  else FMany (map (fun k => c_scalar (x_type f) (firstn (x_size f) (skipn (k * x_size f) raw))) (seq 0 (xf_array f))).

(** [b] is a frame of [x]: start marker, length of the payload, three bytes, the id, the payload, the checksum. *)
Definition x_is_frame (x : xmsg) (b : bytes) : Prop :=
  exists q s c pl lo hi, b = [254; N.of_nat (length pl); q; s; c; xm_id x]%N ++ pl ++ [lo; hi] /\
    (lo + 256 * hi)%N = crc16 ([N.of_nat (length pl); q; s; c; xm_id x]%N ++ pl ++ [x_extra x]).

(** Values that a field can hold, and their bytes: two's complement or the bits of the float, the least significant byte
    first; texts cut or filled with zeros. *)
Definition x_fits (f : xfield) (v : fieldval) : Prop :=
  if String.eqb (x_type f) "char" then exists b, v = FOne (VBytes b) /\ is_bytes b
  else if Nat.eqb (xf_array f) 0 then exists u, v = FOne u /\ c_ok (x_type f) u
  else exists l, v = FMany l /\ length l = xf_array f /\ Forall (c_ok (x_type f)) l.
Definition x_fits_all (x : xmsg) (vs : list fieldval) : Prop := Forall2 x_fits (xm_fields x) vs.

Definition le_Z (n : nat) (z : Z) : bytes := map (fun k => Z.to_N (z / 256 ^ Z.of_nat k mod 256)) (seq 0 n).
Definition x_scalar (ty : string) (u : pyval) : bytes :=
  match u with VInt z => le_Z (c_size ty) z | VF32 p => le_Z (c_size ty) (Z.of_N p) | VBytes _ => [] end.
Definition x_bytes (f : xfield) (v : fieldval) : bytes :=
  match v with
  | FOne (VBytes b) => firstn (x_width f) b ++ repeat 0%N (x_width f - length b)
  | FOne u => x_scalar (x_type f) u
  | FMany l => flat_map (x_scalar (x_type f)) l
  | FText _ => []
  end.

(** The frame of a message with values [vs] in the order of the file. *)
Definition x_payload (x : xmsg) (vs : list fieldval) : bytes :=
  flat_map (fun p => x_bytes (snd p) (nth (fst p) vs (FText []))) (x_wire x).
Definition x_frame (x : xmsg) (vs : list fieldval) (seq sys comp : N) : bytes :=
  let body := [N.of_nat (x_total x); seq; sys; comp; xm_id x]%N ++ x_payload x vs in
  let crc := crc16 (body ++ [x_extra x]) in
  254%N :: body ++ [crc mod 256; crc / 256]%N.

(** The attributes of the generated class. *)
Definition x_letter (ty : string) : string :=
  match find (fun p => String.eqb (fst p) ty)
    [("uint8_t", "B"); ("int8_t", "b"); ("uint16_t", "H"); ("int16_t", "h"); ("uint32_t", "I"); ("int32_t", "i");
     ("uint64_t", "Q"); ("int64_t", "q"); ("float", "f"); ("char", "s")] with
  | Some p => snd p | None => "" end.
Definition decimal (n : nat) : string := NilEmpty.string_of_uint (Nat.to_uint n).
Definition x_item (f : xfield) : string :=
  ((if Nat.eqb (xf_array f) 0 then "" else decimal (xf_array f)) ++ x_letter (x_type f))%string.
Definition x_format (x : xmsg) : string := ("<" ++ String.concat "" (map (fun p => x_item (snd p)) (x_wire x)))%string.
Definition x_class (x : xmsg) : msg_class :=
  MC (xm_id x) (xm_id x) (xm_name x)
     (map xf_name (xm_fields x))
     (map (fun p => xf_name (snd p)) (x_wire x))
     (map x_type (xm_fields x))
     (x_format x)
     (map (fun i => length (x_before x i)) (seq 0 (length (xm_fields x))))
     (map (fun p => if String.eqb (x_type (snd p)) "char" then 1 else Nat.max 1 (xf_array (snd p))) (x_wire x))
     (map (fun p => xf_array (snd p)) (x_wire x))
     (x_extra x) (x_format x) (x_extra x) (x_format x).
