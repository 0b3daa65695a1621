(** Model of the parts of Python's [struct] module (little-endian, standard sizes) that the code of /repo uses:
    the message formats of mavlink_utils/HC_dialect.py, the header formats '<BBBBBB', '<cBBBBB', '<cBBBBBBHB', '<H', and
    protocol_meta/protocol_meta.py:10-12.  Simplified: a value of format 'f' is its 32 bit pattern (the conversion to a
    Python float and back is not modelled), an int given for it, which Python would convert, is refused; format 'd' does not occur. *)
From Coq Require Import String Ascii List NArith ZArith Bool.
From Verif.Model Require Import Py.
Import ListNotations.

(** Values produced by struct.unpack. See mavlink_utils/HC_dialect.py:2227-2228, 8840-8957. *)
Inductive pyval :=
| VInt (z : Z)
| VF32 (pattern : N)
| VBytes (b : bytes).

(** Size in bytes of one item of a format character. See mavlink_utils/HC_dialect.py:8840-8957. *)
Definition char_size (c : ascii) : option nat :=
  match c with
  | "c"%char | "b"%char | "B"%char | "s"%char => Some 1
  | "h"%char | "H"%char => Some 2
  | "i"%char | "I"%char | "f"%char => Some 4
  | "q"%char | "Q"%char => Some 8
  | _ => None
  end.

(** Is the format character a signed integer, an unsigned integer?. See mavlink_utils/HC_dialect.py:8840-8957. *)
Definition char_signed (c : ascii) : bool :=
  match c with "b"%char | "h"%char | "i"%char | "q"%char => true | _ => false end.
(** The unsigned types; mavlink_utils/HC_dialect.py:8840-8957. *)
Definition char_unsigned (c : ascii) : bool :=
  match c with "B"%char | "H"%char | "I"%char | "Q"%char => true | _ => false end.

(** The value of a digit; mavlink_utils/HC_dialect.py:8840-8957. *)
Definition digit (c : ascii) : option nat :=
  let n := nat_of_ascii c in if (Nat.leb 48 n && Nat.leb n 57)%bool then Some (n - 48) else None.

(** The body of a format string: optional repeat count, then a character. See mavlink_utils/HC_dialect.py:8840-8957. *)
Fixpoint parse_items (s : string) (cnt : option nat) : res (list (nat * ascii)) :=
  match s with
  | EmptyString => match cnt with None => Ok [] | Some _ => Err StructError end
  | String c t =>
      match digit c with
      | Some d => parse_items t (Some (match cnt with None => d | Some k => 10 * k + d end))
      | None => match char_size c with
                | Some _ => do! r <- parse_items t None in Ok ((match cnt with None => 1 | Some k => k end, c) :: r)
                | None => Err StructError
                end
      end
  end.

(** A format string; only the '<' prefix is used. See mavlink_utils/HC_dialect.py:8840-8957. *)
Definition parse_fmt (s : string) : res (list (nat * ascii)) :=
  match s with
  | String "<"%char t => parse_items t None
  | _ => Err StructError
  end.

(** The bytes of an item; mavlink_utils/HC_dialect.py:8840-8957. *)
Definition item_size (it : nat * ascii) : nat := fst it * match char_size (snd it) with Some n => n | None => 0 end.
(** The bytes of all items; mavlink_utils/HC_dialect.py:8840-8957. *)
Definition items_size (l : list (nat * ascii)) : nat := list_sum (map item_size l).

(** struct.calcsize. See mavlink_utils/HC_dialect.py:8840-8957. *)
Definition calcsize (fmt : string) : res nat := do! l <- parse_fmt fmt in Ok (items_size l).

(** Little-endian value of a byte string, and its inverse on [n] bytes. See mavlink_utils/HC_dialect.py:8840-8957. *)
Fixpoint le_val (l : bytes) : N := match l with [] => 0%N | b :: t => (b + 256 * le_val t)%N end.
(** An unsigned number as little-endian bytes; mavlink_utils/HC_dialect.py:97-103. *)
Fixpoint le_bytes (n : nat) (v : N) : bytes :=
  match n with O => [] | S n' => (v mod 256)%N :: le_bytes n' (v / 256)%N end.

(** One value of a format character (other than 's') from its bytes. See mavlink_utils/HC_dialect.py:8840-8957. *)
Definition unpack_one (c : ascii) (b : bytes) : pyval :=
  if char_unsigned c then VInt (Z.of_N (le_val b))
  else if char_signed c then
         let v := Z.of_N (le_val b) in
         let m := (2 ^ (8 * Z.of_nat (length b)))%Z in
         VInt (if (2 * v <? m)%Z then v else (v - m)%Z)
  else match c with
       | "f"%char => VF32 (le_val b)
       | _ => VBytes b
       end.

(** A repeated type; mavlink_utils/HC_dialect.py:8840-8957. *)
Fixpoint unpack_rep (n : nat) (c : ascii) (sz : nat) (b : bytes) : list pyval :=
  match n with
  | O => []
  | S n' => unpack_one c (firstn sz b) :: unpack_rep n' c sz (skipn sz b)
  end.

(** One item; mavlink_utils/HC_dialect.py:8840-8957. *)
Definition unpack_item (it : nat * ascii) (b : bytes) : list pyval :=
  match snd it with
  | "s"%char => [VBytes (firstn (fst it) b)]
  | c => unpack_rep (fst it) c (match char_size c with Some k => k | None => 0 end) b
  end.

(** All items; mavlink_utils/HC_dialect.py:8840-8957. *)
Fixpoint unpack_items (l : list (nat * ascii)) (b : bytes) : list pyval :=
  match l with
  | [] => []
  | it :: t => unpack_item it b ++ unpack_items t (skipn (item_size it) b)
  end.

(** struct.unpack: struct.error unless the buffer has exactly the size of the format. See mavlink_utils/HC_dialect.py:8840-8957. *)
Definition struct_unpack (fmt : string) (b : bytes) : res (list pyval) :=
  do! l <- parse_fmt fmt in
  if Nat.eqb (length b) (items_size l) then Ok (unpack_items l b) else Err StructError.

(** One value of a format character (other than 's') to bytes; struct.error on a wrong type or range. See mavlink_utils/HC_dialect.py:97-103. *)
Definition pack_one (c : ascii) (v : pyval) : res bytes :=
  match char_size c with
  | None => Err StructError
  | Some n =>
    let m := (2 ^ (8 * Z.of_nat n))%Z in
    if char_unsigned c then
      match v with
      | VInt z => if ((0 <=? z) && (z <? m))%Z then Ok (le_bytes n (Z.to_N z)) else Err StructError
      | _ => Err StructError
      end
    else if char_signed c then
      match v with
      | VInt z => if ((- (m / 2) <=? z) && (z <? m / 2))%Z then Ok (le_bytes n (Z.to_N (z mod m))) else Err StructError
      | _ => Err StructError
      end
    else match c, v with
         | "f"%char, VF32 p => Ok (le_bytes 4 p)
         | "c"%char, VBytes [b] => Ok [b]
         | _, _ => Err StructError
         end
  end.

(** The [n] values of one repeated item; consumes them from the argument list. See mavlink_utils/HC_dialect.py:97-103. *)
Fixpoint pack_rep (n : nat) (c : ascii) (vs : list pyval) : res (bytes * list pyval) :=
  match n with
  | O => Ok ([], vs)
  | S n' => match vs with
            | [] => Err StructError
            | v :: t => do! b <- pack_one c v in do! r <- pack_rep n' c t in Ok (b ++ fst r, snd r)
            end
  end.

(** One item; mavlink_utils/HC_dialect.py:97-103, 2227-2228. *)
Definition pack_item (it : nat * ascii) (vs : list pyval) : res (bytes * list pyval) :=
  match snd it with
  | "s"%char => match vs with
                | VBytes b :: t => Ok (firstn (fst it) b ++ repeat 0%N (fst it - length b), t)   (* truncate / zero pad *)
                | _ => Err StructError
                end
  | c => pack_rep (fst it) c vs
  end.

(** All items; mavlink_utils/HC_dialect.py:97-103, 2227-2228. *)
Fixpoint pack_items (l : list (nat * ascii)) (vs : list pyval) : res bytes :=
  match l with
  | [] => match vs with [] => Ok [] | _ => Err StructError end
  | it :: t => do! r <- pack_item it vs in do! b <- pack_items t (snd r) in Ok (fst r ++ b)
  end.

(** struct.pack. See mavlink_utils/HC_dialect.py:97-103. *)
Definition struct_pack (fmt : string) (vs : list pyval) : res bytes :=
  do! l <- parse_fmt fmt in pack_items l vs.
