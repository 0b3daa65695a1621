(** Python / numpy primitives shared by the model.
    These definitions do not model code of /repo; they model the Python 3 built-ins that the code of /repo calls
    (slices, negative indices, insertion ordered dicts, exceptions).  Each one says which built-in it stands for. *)
From Coq Require Import String Ascii List ZArith NArith Bool Lia.
Import ListNotations.

(** Exceptions that the modelled code can raise, as values.
    HeaderLength, NonExistentMsdId: protocol_meta/msg_header.py:10-17; NonUint8, IncorrectBufferLength,
    UnsupportedDtype: utils/custom_exceptions.py; MAVError: mavlink_utils/HC_dialect.py:8550-8554; the others are
    Python built-ins (StructError = struct.error, CreationError = bitstring.CreationError,
    UnboundLocal = UnboundLocalError, LinAlg = numpy.linalg.LinAlgError). *)
Inductive exn :=
| TypeError | ValueError | IndexError | KeyError | AttributeError | UnboundLocal | ZeroDivision | RuntimeError
| StructError | CreationError | LinAlg
| HeaderLength | NonExistentMsdId | NonUint8 | IncorrectBufferLength | UnsupportedDtype | MAVError.

(** Result of a computation that may raise. See Python itself; used for e.g. the ValueError of utils/bit_operations.py:8-32. *)
Inductive res (A : Type) :=
| Ok (a : A)
| Err (e : exn).
Arguments Ok {A} a.
Arguments Err {A} e.

(** Sequencing of Python statements: the first exception raised aborts the rest. See Python itself; used for e.g. utils/bit_operations.py:8-32. *)
Definition bind {A B} (x : res A) (f : A -> res B) : res B :=
  match x with Ok a => f a | Err e => Err e end.

Notation "'do!' x '<-' e 'in' f" := (bind e (fun x => f)) (at level 200, x pattern, e at level 100, f at level 200).

(** No exception; Python itself; used for e.g. utils/bit_operations.py:8-32. *)
Definition is_ok {A} (x : res A) : bool := match x with Ok _ => true | Err _ => false end.

(** [for x in l: acc = f(acc, x)] where the body may raise. See Python itself; used for e.g. the loops of inference/buffer_segmentation.py:85-125. *)
Fixpoint fold_res {A B} (f : B -> A -> res B) (l : list A) (b : B) : res B :=
  match l with
  | [] => Ok b
  | x :: t => do! b' <- f b x in fold_res f t b'
  end.

(** A list comprehension whose element expression may raise. See Python itself; used for e.g. the comprehensions of inference/buffer_segmentation.py:60-69. *)
Fixpoint map_res {A B} (f : A -> res B) (l : list A) : res (list B) :=
  match l with
  | [] => Ok []
  | x :: t => do! y <- f x in do! ys <- map_res f t in Ok (y :: ys)
  end.

(** [l[i:j]] for 0 <= i, 0 <= j (out of range bounds are clamped, as in Python). See Python itself; used for e.g. inference/buffer_segmentation.py:85-125. *)
Definition slice {A} (l : list A) (i j : nat) : list A := firstn (j - i) (skipn i l).

(** Position denoted by a possibly negative slice bound [i] of a sequence of length [n]. See Python itself; used for e.g. inference/entropy_mle.py:66-79. *)
Definition norm_bound (n : nat) (i : Z) : nat :=
  if (i <? 0)%Z then Z.to_nat (Z.max 0 (Z.of_nat n + i)) else Nat.min n (Z.to_nat i).

(** [l[i:]] with Python's treatment of negative bounds; in particular [l[-0:] = l]. See Python itself; used for e.g. inference/entropy_mle.py:66-79. *)
Definition slice_from {A} (l : list A) (i : Z) : list A := skipn (norm_bound (length l) i) l.

(** [l[:j]] with Python's treatment of negative bounds. See Python itself; used for e.g. inference/entropy_mle.py:66-79. *)
Definition slice_to {A} (l : list A) (j : Z) : list A := firstn (norm_bound (length l) j) l.

(** [l[i:j]] with Python's treatment of negative bounds. See Python itself; used for e.g. ship_log_reader.py:10-22. *)
Definition slice_z {A} (l : list A) (i j : Z) : list A :=
  let a := norm_bound (length l) i in let b := norm_bound (length l) j in firstn (b - a) (skipn a l).

(** [l[i]] with Python's negative indices; IndexError outside. See Python itself; used for e.g. combined_decoder.py:134-203; combined_unified_decoder.py:144-233. *)
Definition index_z {A} (l : list A) (i : Z) : res A :=
  let n := Z.of_nat (length l) in
  let j := if (i <? 0)%Z then (i + n)%Z else i in
  if ((j <? 0) || (n <=? j))%Z then Err IndexError
  else match nth_error l (Z.to_nat j) with Some a => Ok a | None => Err IndexError end.

(** [l[i]] for a non-negative index. See Python itself; used for e.g. inference/clustering.py:97-119. *)
Definition index {A} (l : list A) (i : nat) : res A :=
  match nth_error l i with Some a => Ok a | None => Err IndexError end.

(** [l[i] = v] on a position known to exist (no effect outside). See Python itself; used for e.g. decoders/classifiying_decoder.py:59-136. *)
Fixpoint set_nth {A} (l : list A) (i : nat) (v : A) : list A :=
  match l, i with
  | [], _ => []
  | _ :: t, O => v :: t
  | x :: t, S i' => x :: set_nth t i' v
  end.

(** numpy's [l[i:j] = v] for a scalar [v] and 0 <= i, 0 <= j: fills the positions i <= p < min j len.
    See Python itself; used for e.g. utils/random_sources.py:4-22. *)
Fixpoint fill {A} (l : list A) (i j : nat) (v : A) : list A :=
  match l, j with
  | [], _ => []
  | _, O => l
  | x :: t, S j' => match i with
                    | O => v :: fill t O j' v
                    | S i' => x :: fill t i' j' v
                    end
  end.

(** dict.get on an insertion ordered dict, represented as an association list with distinct keys. See Python itself; used for e.g. inference/dude.py:30-63. *)
Fixpoint dict_get {K V} (eqb : K -> K -> bool) (d : list (K * V)) (k : K) : option V :=
  match d with
  | [] => None
  | (k', v) :: t => if eqb k k' then Some v else dict_get eqb t k
  end.

(** [d[k] = v]: replaces in place, or appends at the end. See Python itself; used for e.g. inference/dude.py:30-63. *)
Fixpoint dict_set {K V} (eqb : K -> K -> bool) (d : list (K * V)) (k : K) (v : V) : list (K * V) :=
  match d with
  | [] => [(k, v)]
  | (k', v') :: t => if eqb k k' then (k, v) :: t else (k', v') :: dict_set eqb t k v
  end.

(** [k in d.keys()]. See Python itself; used for e.g. inference/dude.py:30-63. *)
Definition dict_in {K V} (eqb : K -> K -> bool) (d : list (K * V)) (k : K) : bool :=
  match dict_get eqb d k with Some _ => true | None => false end.

(** [sub in s] for Python strings. See Python itself; used for e.g. inference/statistical_models.py:14-26. *)
Definition str_contains (sub s : string) : bool :=
  match String.index 0 sub s with Some _ => true | None => false end.

(** [l.index(x)] for a list of strings; ValueError when absent. See Python itself; used for e.g. mavlink_utils/HC_dialect.py:2227-2228. *)
Fixpoint str_index (l : list string) (x : string) : res nat :=
  match l with
  | [] => Err ValueError
  | y :: t => if String.eqb x y then Ok 0 else do! i <- str_index t x in Ok (S i)
  end.

(** A Python bytes object (elements 0..255). See Python itself; used for e.g. utils/bit_operations.py:8-32. *)
Definition bytes := list N.

(** numpy.unpackbits of one byte: most significant bit first. See Python itself; used for e.g. utils/bit_operations.py:19-22. *)
Definition byte_bits (b : N) : list bool := map (fun i => N.testbit b i) [7; 6; 5; 4; 3; 2; 1; 0]%N.

(** numpy.unpackbits / bitstring.Bits(bytes=...). See Python itself; used for e.g. utils/bit_operations.py:19-22. *)
Definition bytes_bits (l : bytes) : list bool := flat_map byte_bits l.

(** [int(''.join(map(str, bits)), 2)] for a list of 0/1 digits (most significant first). See Python itself; used for e.g. inference/statistical_models.py:223-226. *)
Definition bits_value (l : list bool) : N := fold_left (fun acc (b : bool) => (2 * acc + if b then 1 else 0)%N) l 0%N.
