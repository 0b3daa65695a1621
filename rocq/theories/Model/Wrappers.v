(** Model of the generated interface of mavlink_utils/HC_dialect.py: the constructors and pack methods of the message classes (2189-8390) and
    the methods *_encode and *_send of class MAVLink (8956-14254).  Simplified: arguments are passed by position. *)
From Coq Require Import String Ascii List NArith ZArith Bool.
From Verif.Model Require Import Py Dialect ProtocolMeta Struct Crc Mavlink ApiTable.
Import ListNotations.

(** Local variables, or the attributes of an object. See mavlink_utils/HC_dialect.py:2215-2225. *)
Definition vars := list (string * fieldval).

(** Passing arguments to a Python function: TypeError for too many or too few; the last parameters may have defaults. See mavlink_utils/HC_dialect.py:2215-2225. *)
Definition bind_args (params : list string) (defaults : list Z) (args : list fieldval) : res vars :=
  if Nat.ltb (length params) (length args) then Err TypeError
  else if Nat.ltb (length args + length defaults) (length params) then Err TypeError
  else Ok (combine params (args ++ map (fun z => FOne (VInt z)) (skipn (length args + length defaults - length params) defaults))).

(** The value of a local variable (NameError is not distinguished from UnboundLocalError). See mavlink_utils/HC_dialect.py:2215-2225. *)
Definition var (vs : vars) (name : string) : res fieldval :=
  match dict_get String.eqb vs name with Some v => Ok v | None => Err UnboundLocal end.

(** A message object: its class, its generated methods, its field attributes. See mavlink_utils/HC_dialect.py:2215-2225. *)
Record object := Object { o_class : msg_class; o_ctor : ctor; o_attrs : vars }.

(** The generated __init__; e.g. mavlink_utils/HC_dialect.py:2215-2225. *)
Definition construct (c : msg_class) (k : ctor) (args : list fieldval) : res object :=
  do! vs <- bind_args (k_params k) [] args in
  do! attrs <- fold_res (fun attrs s => do! v <- var vs (snd s) in Ok (dict_set String.eqb attrs (fst s) v)) (k_sets k) [] in
  Ok (Object c k attrs).

(** self.attribute and self.attribute[i] as arguments of struct.pack; e.g. mavlink_utils/HC_dialect.py:2228.  A number has no elements; an
    element of a bytes object is a number.  Simplified: a str, or a sequence given as a whole, is reported as struct.error at once, although
    an IndexError of a later argument would come first. *)
Definition pack_ref (o : object) (r : string * option nat) : res pyval :=
  match dict_get String.eqb (o_attrs o) (fst r) with
  | None => Err AttributeError
  | Some v =>
      match snd r, v with
      | None, FOne v => Ok v
      | None, _ => Err StructError
      | Some i, FMany l => index l i
      | Some i, FOne (VBytes b) => do! x <- index b i in Ok (VInt (Z.of_N x))
      | Some _, FOne _ => Err TypeError
      | Some i, FText t => do! _ <- index t i in Err StructError
      end
  end.

(** The generated pack methods; e.g. mavlink_utils/HC_dialect.py:2227-2228. *)
Definition object_pack (o : object) (seq sys comp : Z) : res bytes :=
  do! args <- map_res (pack_ref o) (k_packs (o_ctor o)) in
  do! payload <- struct_pack (mc_pack_fmt (o_class o)) args in
  pack_frame (o_class o) seq sys comp payload.

(** MAVLink.send for a message object; mavlink_utils/HC_dialect.py:8649-8657. *)
Definition object_send (s : mav) (o : object) : res mav :=
  do! buf <- object_pack o (mav_seq s) (mav_sys s) (mav_comp s) in
  Ok (Mav ((mav_seq s + 1) mod 256) (mav_sys s) (mav_comp s) (mav_file s ++ buf) (mav_packets s + 1)
          (mav_bytes s + Z.of_nat (length buf))).

(** The class of a given Python name, and a method of class MAVLink. See mavlink_utils/HC_dialect.py:8956-14254. *)
Definition find_ctor (name : string) : option (ctor * msg_class) :=
  find (fun x => String.eqb (k_name (fst x)) name) (combine ctors mavlink_classes).
(** A method of that name; mavlink_utils/HC_dialect.py:8956-14254. *)
Definition find_method (l : list method) (name : string) : option method := find (fun h => String.eqb (h_name h) name) l.

(** A call of a method *_encode; mavlink_utils/HC_dialect.py:8956-14254. *)
Definition call_encode (name : string) (args : list fieldval) : res object :=
  match find_method encodes name with
  | None => Err AttributeError
  | Some h =>
      do! vs <- bind_args (h_params h) (h_defaults h) args in
      match find_ctor (h_calls h) with
      | None => Err UnboundLocal
      | Some (k, c) => do! args <- map_res (var vs) (h_args h) in construct c k args
      end
  end.

(** A call of a method *_send; mavlink_utils/HC_dialect.py:8956-14254. *)
Definition call_send (s : mav) (name : string) (args : list fieldval) : res mav :=
  match find_method sends name with
  | None => Err AttributeError
  | Some h =>
      do! vs <- bind_args (h_params h) (h_defaults h) args in
      do! args <- map_res (var vs) (h_args h) in
      do! o <- call_encode (h_calls h) args in
      object_send s o
  end.
