(** Specification of the segmentation of a byte buffer into frames. *)
From Coq Require Import List NArith ZArith Bool Sorting.Sorted.
From Verif.Model Require Import Py Segmentation.
From Verif.Spec Require Import Bytes Header.
Import ListNotations.

(** Payload length announced by a header that starts at position [k], and the end of the frame it announces. *)
Definition announced (b : bytes) (k : nat) : nat := N.to_nat (nth (k + 1) b 0%N).
Definition frame_end (b : bytes) (k : nat) : nat := k + 6 + announced b k + 2.

(** A valid header starts at [k] and at least 8 bytes are left. *)
Definition header_at (b : bytes) (k : nat) : Prop := k + 8 <= length b /\ valid_header (firstn 6 (skipn k b)).

(** The bytes of that frame (fewer if the buffer ends before). *)
Definition frame_bytes (b : bytes) (k : nat) : bytes := firstn (6 + announced b k + 2) (skipn k b).

(** A valid header of message [i] starts at [k] and the frame is acceptable. *)
Definition frame_at (accepts : bytes -> Prop) (b : bytes) (k : nat) (i : N) : Prop :=
  header_at b k /\ nth (k + 5) b 0%N = i /\ accepts (frame_bytes b k).

(** Position [j] lies in a frame that [s] lists. *)
Definition covered (b : bytes) (s : structure) (j : nat) : Prop := exists k i, In (k, i) s /\ k <= j < frame_end b k.

(** [s] lists frames that start before [limit], in increasing order and without overlap, and misses no frame that starts
    before [limit], except those that start inside a listed frame. *)
Definition segments_upto (limit : nat) (accepts : bytes -> Prop) (b : bytes) (s : structure) : Prop :=
  (forall k i, In (k, i) s -> k < limit /\ frame_at accepts b k i) /\
  StronglySorted (fun x y => frame_end b (fst x) <= fst y) s /\
  (forall k i, k < limit -> frame_at accepts b k i ->
     In (k, i) s \/ exists k' i', In (k', i') s /\ k' < k < frame_end b k').

Definition segments (accepts : bytes -> Prop) (b : bytes) (s : structure) : Prop := segments_upto (length b) accepts b s.

(** The part of a frame that a byte belongs to. *)
Definition in_header (b : bytes) (s : structure) (j : nat) : Prop := exists k i, In (k, i) s /\ k <= j < k + 6.
Definition in_payload (b : bytes) (s : structure) (j : nat) : Prop :=
  exists k i, In (k, i) s /\ k + 6 <= j < k + 6 + announced b k.
Definition in_checksum (b : bytes) (s : structure) (j : nat) : Prop :=
  exists k i, In (k, i) s /\ k + 6 + announced b k <= j < k + 6 + announced b k + 2.

(** The classification of bytes and of bits that belongs to [s]. *)
Definition classifies (b : bytes) (s : structure) (parts : list msg_part) : Prop :=
  length parts = length b /\
  forall j, j < length b ->
    (nth j parts UNKNOWN = HEADER <-> in_header b s j) /\
    (nth j parts UNKNOWN = PAYLOAD <-> in_payload b s j) /\
    (nth j parts UNKNOWN = CHECKSUM <-> in_checksum b s j) /\
    (nth j parts UNKNOWN = UNKNOWN <-> ~ covered b s j).
Definition validates (b : bytes) (s : structure) (valid : list Z) : Prop :=
  length valid = 8 * length b /\
  forall j r, j < length b -> r < 8 ->
    (nth (8 * j + r) valid 0%Z = 1%Z <-> covered b s j) /\
    (nth (8 * j + r) valid 0%Z = 0%Z <-> ~ covered b s j).

(** A buffer made of complete frames and of other bytes. *)
Inductive chunk := Good (f : bytes) | Junk (g : bytes).
Definition chunk_bytes (c : chunk) : bytes := match c with Good f => f | Junk g => g end.
Definition stream (l : list chunk) : bytes := concat (map chunk_bytes l).

(** Start and message id of every good frame, when the first chunk starts at position [pos]. *)
Fixpoint good_starts (pos : nat) (l : list chunk) : structure :=
  match l with
  | [] => []
  | Good f :: t => (pos, nth 5 f 0%N) :: good_starts (pos + length f) t
  | Junk g :: t => good_starts (pos + length g) t
  end.

(** Position [j] lies in a junk chunk. *)
Definition in_junk (l : list chunk) (j : nat) : Prop :=
  exists l1 g l2, l = l1 ++ Junk g :: l2 /\ length (stream l1) <= j < length (stream l1) + length g.

(** A complete frame with a valid header. *)
Definition complete_frame (accepts : bytes -> Prop) (f : bytes) : Prop :=
  valid_header (firstn 6 f) /\ length f = 6 + N.to_nat (nth 1 f 0%N) + 2 /\ accepts f.

(** [i, j) is a maximal run of UNKNOWN among the first [n] entries. *)
Definition maximal_run (parts : list msg_part) (n i j : nat) : Prop :=
  i < j <= n /\ (forall k, i <= k < j -> nth k parts HEADER = UNKNOWN) /\
  (i = 0 \/ nth (i - 1) parts HEADER <> UNKNOWN) /\ (j = n \/ nth j parts HEADER <> UNKNOWN).

(** The buffer carries message id [i] at position [k]. *)
Definition carries (b : bytes) (k : nat) (i : N) : Prop :=
  k + 6 <= length b /\ nth (k + 5) b 0%N = i /\ exists c, is_msg i c.

(** Why registering [b] fails at position [k], where message [i] is expected: too short, unknown id, another id. *)
Inductive offence (b : bytes) (k : nat) (i : N) : exn -> Prop :=
| off_short : length b < k + 6 -> offence b k i HeaderLength
| off_unknown : k + 6 <= length b -> (~ exists c, is_msg (nth (k + 5) b 0%N) c) -> offence b k i NonExistentMsdId
| off_other : k + 6 <= length b -> (exists c, is_msg (nth (k + 5) b 0%N) c) -> nth (k + 5) b 0%N <> i -> offence b k i ValueError.
