(** Model of the stream parser of class MAVLink: parse_char, parse_buffer, bytes_needed; mavlink_utils/HC_dialect.py:8599-8772.
    Simplified: no native parser (mavnative is not installed), no callback. *)
From Coq Require Import List NArith Bool.
From Verif.Model Require Import Py Mavlink.
Import ListNotations.

Section Parser.
(** The method decode: an object with a state [D] (the signing counters), a frame, a message [M] or an exception. *)
Context {D M : Type}.
Variable decode : D -> bytes -> D * res M.

(** What parse_char returns: a message, or a MAVLink_bad_data object (its data; the reason is a text); mavlink_utils/HC_dialect.py:8566-8577. *)
Inductive item := Message (m : M) | BadData (data : bytes).

(** The attributes used by the parser; mavlink_utils/HC_dialect.py:8610-8625. *)
Record parser := Parser {
  p_buf : bytes; p_index : nat; p_expected : nat; p_prefix_error : bool; p_robust : bool;
  p_packets : nat; p_bytes : nat; p_errors : nat; p_decoder : D
}.

(** MAVLink.__init__; mavlink_utils/HC_dialect.py:8610-8623.  robust_parsing is False at first; users set the attribute. *)
Definition parser_new (robust : bool) (d : D) : parser := Parser [] 0 8 false robust 0 0 0 d.

(** buf_len and self.buf[self.buf_index:]; mavlink_utils/HC_dialect.py:8659-8660. *)
Definition pending (p : parser) : bytes := skipn (p_index p) (p_buf p).
(** buf_len; mavlink_utils/HC_dialect.py:8659-8660. *)
Definition buf_len (p : parser) : nat := length (p_buf p) - p_index p.

(** bytes_needed; mavlink_utils/HC_dialect.py:8662-8671. *)
Definition bytes_needed (p : parser) : nat := if Nat.leb (p_expected p) (buf_len p) then 1 else p_expected p - buf_len p.

(** PROTOCOL_MARKER_V1, PROTOCOL_MARKER_V2; mavlink_utils/HC_dialect.py:19-20. *)
Definition is_v1 (b : N) : bool := N.eqb b 254.
(** The marker of version 2; mavlink_utils/HC_dialect.py:19-20. *)
Definition is_v2 (b : N) : bool := N.eqb b 253.

(** expected_length once three bytes are there; mavlink_utils/HC_dialect.py:8734-8741. *)
Definition announced (header_len : nat) (magic len incompat_flags : N) : nat :=
  N.to_nat len + (if (is_v2 magic && negb (N.eqb (N.land incompat_flags 1) 0))%bool then 13 else 0) + (header_len + 2).

(** The bad incompat_flags of a version 2 frame: any bit but the lowest of a byte; mavlink_utils/HC_dialect.py:8748, 8755. *)
Definition bad_flags (magic incompat_flags : N) : bool := (is_v2 magic && negb (N.eqb (N.land incompat_flags 254) 0))%bool.

(** A frame is cut out and decoded; mavlink_utils/HC_dialect.py:8742-8758.  Only a MAVError becomes bad data. *)
Definition parse_frame (p : parser) (header_len : nat) (magic flags : N) : parser * res (option item) :=
  let mbuf := slice (p_buf p) (p_index p) (p_index p + p_expected p) in
  let p := Parser (p_buf p) (p_index p + p_expected p) (header_len + 2) (p_prefix_error p) (p_robust p) (p_packets p) (p_bytes p)
                  (p_errors p) (p_decoder p) in
  let '(d, r) := if bad_flags magic flags then (p_decoder p, Err MAVError) else decode (p_decoder p) mbuf in
  let with_ errors := Parser (p_buf p) (p_index p) (p_expected p) (p_prefix_error p) (p_robust p) (p_packets p) (p_bytes p) errors d in
  match r with
  | Ok m => (with_ (p_errors p), Ok (Some (Message m)))
  | Err MAVError => if p_robust p then (with_ (S (p_errors p)), Ok (Some (BadData mbuf))) else (with_ (p_errors p), Err MAVError)
  | Err e => (with_ (p_errors p), Err e)
  end.

(** __parse_char_legacy; mavlink_utils/HC_dialect.py:8714-8759. *)
Definition parse_legacy (p : parser) : parser * res (option item) :=
  let header_len := match pending p with b :: _ => if is_v2 b then 10 else 6 | [] => 6 end in
  let set index expected prefix errors :=
    Parser (p_buf p) index expected prefix (p_robust p) (p_packets p) (p_bytes p) errors (p_decoder p) in
  match pending p with
  | [] => (set (p_index p) (p_expected p) false (p_errors p), Ok None)
  | b :: t =>
      if (negb (is_v1 b) && negb (is_v2 b))%bool
      then if p_robust p then (set (S (p_index p)) (header_len + 2) (p_prefix_error p) (S (p_errors p)), Ok (Some (BadData [b])))
           else if p_prefix_error p then (set (S (p_index p)) (p_expected p) (p_prefix_error p) (p_errors p), Ok None)
           else (set (S (p_index p)) (p_expected p) true (S (p_errors p)), Err MAVError)
      else
        match t with
        | len :: flags :: _ =>
            let p := set (p_index p) (announced header_len b len flags) false (p_errors p) in
            if (Nat.leb (header_len + 2) (p_expected p) && Nat.leb (p_expected p) (buf_len p))%bool
            then parse_frame p header_len b flags else (p, Ok None)
        | _ =>
            let p := set (p_index p) (p_expected p) false (p_errors p) in
            (* no three bytes are there, expected_length is at least 8: nothing is cut out; the local variable magic would be unbound *)
            if (Nat.leb (header_len + 2) (p_expected p) && Nat.leb (p_expected p) (buf_len p))%bool
            then (p, Err UnboundLocal) else (p, Ok None)
        end
  end.

(** parse_char; mavlink_utils/HC_dialect.py:8683-8712. *)
Definition parse_char (p : parser) (c : bytes) : parser * res (option item) :=
  let p := Parser (p_buf p ++ c) (p_index p) (p_expected p) (p_prefix_error p) (p_robust p) (p_packets p) (p_bytes p + length c) (p_errors p)
                  (p_decoder p) in
  let '(p, r) := parse_legacy p in
  match r with
  | Err e => (p, Err e)
  | Ok (Some m) =>
      (Parser (p_buf p) (p_index p) (p_expected p) (p_prefix_error p) (p_robust p) (S (p_packets p)) (p_bytes p) (p_errors p) (p_decoder p), Ok (Some m))
  | Ok None =>
      (if (Nat.eqb (buf_len p) 0 && negb (Nat.eqb (p_index p) 0))%bool
       then Parser [] 0 (p_expected p) (p_prefix_error p) (p_robust p) (p_packets p) (p_bytes p) (p_errors p) (p_decoder p) else p, Ok None)
  end.

(** The loop of parse_buffer; mavlink_utils/HC_dialect.py:8766-8772.  Every round but the last uses up a byte, so that [fuel] above the
    number of bytes is never used up. *)
Fixpoint parse_more (fuel : nat) (p : parser) (ret : list item) : parser * res (option (list item)) :=
  match fuel with
  | O => (p, Err RuntimeError)
  | S f =>
      let '(p, r) := parse_char p [] in
      match r with
      | Err e => (p, Err e)
      | Ok None => (p, Ok (Some ret))
      | Ok (Some m) => parse_more f p (ret ++ [m])
      end
  end.

(** parse_buffer; mavlink_utils/HC_dialect.py:8761-8772: None, or a list of messages. *)
Definition parse_buffer (p : parser) (s : bytes) : parser * res (option (list item)) :=
  let '(p, r) := parse_char p s in
  match r with
  | Err e => (p, Err e)
  | Ok None => (p, Ok None)
  | Ok (Some m) => parse_more (S (length (p_buf p))) p [m]
  end.
End Parser.
Arguments Message {M}.
Arguments BadData {M}.
Arguments item M : clear implicits.
Arguments parser D : clear implicits.
Arguments Parser {D}.
Arguments p_buf {D}.
Arguments p_index {D}.
Arguments p_expected {D}.
Arguments p_prefix_error {D}.
Arguments p_robust {D}.
Arguments p_packets {D}.
Arguments p_bytes {D}.
Arguments p_errors {D}.
Arguments p_decoder {D}.

(** The parser with the method decode of a MAVLink object without signing key; its counters of signed packets are not modelled.
    See mavlink_utils/HC_dialect.py:8840-8957. *)
Definition plain_decode (to_string : bytes -> list N) (d : unit) (f : bytes) : unit * res decoded := (d, decode to_string f).
