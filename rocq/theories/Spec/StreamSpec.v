(** Specification of a MAVLink byte stream: how it falls into frames and noise, and what a receiver makes of them. *)
From Coq Require Import String Ascii List NArith ZArith Bool.
From Verif.Model Require Import Py Dialect Struct Mavlink Parser.
From Verif.Spec Require Import Bytes Bits Header CrcSpec Frame.
Import ListNotations.

(** A frame starts with 0xFE (version 1) or 0xFD (version 2). *)
Definition marker (b : N) : Prop := b = 254%N \/ b = 253%N.

(** The length of a frame according to its first three bytes: header, payload, checksum, and a signature of 13 bytes when the lowest flag
    of a version 2 frame is set. *)
Definition frame_size (magic len flags : N) : nat :=
  if N.eqb magic 254 then 6 + N.to_nat len + 2 else 10 + N.to_nat len + 2 + (if N.odd flags then 13 else 0).

(** A frame: it has the length it announces. *)
Definition whole (f : bytes) : Prop :=
  exists magic len flags t, f = magic :: len :: flags :: t /\ marker magic /\ List.length f = frame_size magic len flags.

(** The beginning of a frame, too short to be one. *)
Definition unfinished (s : bytes) : Prop :=
  s = [] \/ exists magic t, s = magic :: t /\ marker magic /\ (forall len flags t', t = len :: flags :: t' -> List.length s < frame_size magic len flags).

(** A stream falls into frames, single bytes that start no frame, and an unfinished rest. *)
Inductive piece := Noise (b : N) | Frame (f : bytes).
Definition piece_bytes (x : piece) : bytes := match x with Noise b => [b] | Frame f => f end.
Inductive cut : bytes -> list piece -> bytes -> Prop :=
| cut_rest s : unfinished s -> cut s [] s
| cut_noise b s l r : ~ marker b -> cut s l r -> cut (b :: s) (Noise b :: l) r
| cut_frame f s l r : whole f -> cut s l r -> cut (f ++ s) (Frame f :: l) r.

Definition is_v2_frame (x : piece) : Prop := match x with Frame (253%N :: _) => True | _ => False end.
Definition is_noise (x : piece) : Prop := match x with Noise _ => True | Frame _ => False end.

Definition is_bad {M} (x : item M) : bool := match x with BadData _ => true | Message _ => false end.

Section Receivers.
Context {D M : Type}.
Variable decode : D -> bytes -> D * res M.

(** The decoding of a frame; a version 2 frame with an unknown flag is refused at once. *)
Definition outcome (d : D) (f : bytes) : D * res M :=
  if (N.eqb (nth 0 f 0%N) 253 && N.ltb 1 (nth 2 f 0%N))%bool then (d, Err MAVError) else decode d f.

(** No exception but MAVError. *)
Definition only_mav_errors : Prop := forall d f e, is_bytes f -> f <> [] -> snd (decode d f) = Err e -> e = MAVError.

(** A tolerant receiver reports every piece. *)
Fixpoint tolerant (d : D) (l : list piece) : D * list (item M) :=
  match l with
  | [] => (d, [])
  | Noise b :: t => let '(d, rs) := tolerant d t in (d, BadData [b] :: rs)
  | Frame f :: t =>
      let '(d, r) := outcome d f in
      let '(d, rs) := tolerant d t in (d, match r with Ok m => Message m | Err _ => BadData f end :: rs)
  end.

(** A strict receiver raises an exception for the first byte of a run of noise and for a frame that is refused. *)
Fixpoint strict (d : D) (in_noise : bool) (l : list piece) : D * list (res (item M)) :=
  match l with
  | [] => (d, [])
  | Noise b :: t => let '(d, rs) := strict d true t in (d, if in_noise then rs else Err MAVError :: rs)
  | Frame f :: t =>
      let '(d, r) := outcome d f in
      let '(d, rs) := strict d false t in (d, match r with Ok m => Ok (Message m) | Err e => Err e end :: rs)
  end.

(** The number of runs of noise. *)
Fixpoint noise_runs (in_noise : bool) (l : list piece) : nat :=
  match l with
  | [] => 0
  | Noise _ :: t => (if in_noise then 0 else 1) + noise_runs true t
  | Frame _ :: t => noise_runs false t
  end.

(** Nothing but frames that are accepted, and the messages. *)
Fixpoint accepted (d : D) (l : list piece) (ms : list M) : Prop :=
  match l, ms with
  | [], [] => True
  | Frame f :: t, m :: ms => snd (outcome d f) = Ok m /\ accepted (fst (outcome d f)) t ms
  | _, _ => False
  end.

(** The bytes arrive in blocks, each handed to parse_buffer; the lists returned are joined. *)
Fixpoint feed_blocks (p : parser D) (blocks : list bytes) : parser D * res (list (item M)) :=
  match blocks with
  | [] => (p, Ok [])
  | b :: t =>
      match parse_buffer decode p b with
      | (p, Err e) => (p, Err e)
      | (p, Ok r) => let '(p, rs) := feed_blocks p t in (p, do! l <- rs in Ok (match r with None => [] | Some x => x end ++ l))
      end
  end.

(** The bytes are handed to parse_char one by one, whatever is raised; what is returned or raised, without the Nones. *)
Fixpoint feed_bytes (p : parser D) (s : bytes) : parser D * list (res (item M)) :=
  match s with
  | [] => (p, [])
  | b :: t =>
      let '(p, r) := parse_char decode p [b] in
      let '(p, rs) := feed_bytes p t in
      (p, match r with Ok None => rs | Ok (Some m) => Ok m :: rs | Err e => Err e :: rs end)
  end.

(** The usual receiving loop: as many bytes as bytes_needed says are read from the stream (as far as there are any) and handed to parse_char.
    The state after [n] rounds, and what is left of the stream. *)
Fixpoint poll (n : nat) (p : parser D) (s : bytes) : parser D * bytes :=
  match n with
  | O => (p, s)
  | S n => let k := bytes_needed p in poll n (fst (parse_char decode p (firstn k s))) (skipn k s)
  end.
End Receivers.

(** What was transmitted: packed messages of the dialect, between them bytes that start no frame, and frames that were damaged behind their
    first three bytes and are no longer accepted. *)
Record sending := Sending { s_class : msg_class; s_fields : list fieldval; s_seq : Z; s_sys : Z; s_comp : Z }.
Definition legit (x : sending) : Prop :=
  In (s_class x) mavlink_classes /\ fits_all (s_class x) (s_fields x) /\ in_byte (s_seq x) /\ in_byte (s_sys x) /\ in_byte (s_comp x).
Definition sent_as (text : bytes -> list N) (x : sending) (d : decoded) : Prop :=
  sent text (s_class x) (s_fields x) (Z.to_N (s_seq x)) (Z.to_N (s_sys x)) (Z.to_N (s_comp x)) d.

Inductive transmission (text : bytes -> list N) : bytes -> list sending -> Prop :=
| tr_end : transmission text [] []
| tr_message x f s l : legit x -> message_pack (Msg (s_class x) (s_fields x)) (s_seq x) (s_sys x) (s_comp x) = Ok f ->
    transmission text s l -> transmission text (f ++ s) (x :: l)
| tr_noise b s l : ~ marker b -> (b < 256)%N -> transmission text s l -> transmission text (b :: s) l
| tr_damaged f s l : whole f -> is_bytes f -> (forall d, decode text f <> Ok d) -> transmission text s l -> transmission text (f ++ s) l.

(** Nothing but messages. *)
Inductive clean_transmission : bytes -> list sending -> Prop :=
| ct_end : clean_transmission [] []
| ct_message x f s l : legit x -> message_pack (Msg (s_class x) (s_fields x)) (s_seq x) (s_sys x) (s_comp x) = Ok f ->
    clean_transmission s l -> clean_transmission (f ++ s) (x :: l).

Definition messages {M} (l : list (item M)) : list M := flat_map (fun x => match x with Message m => [m] | BadData _ => [] end) l.
Definition returned_items {A} (l : list (res A)) : list A := flat_map (fun x => match x with Ok m => [m] | Err _ => [] end) l.
