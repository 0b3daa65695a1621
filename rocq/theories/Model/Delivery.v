(** Model of the way from the information words back to the messages: runs/HC_eilat_July_2018/simulated_data_mavlink_decoding.py,
    runs/HC_eilat_July_2018/simulated_data_combined_decoder.py and the segmentation of decoded words in the decoders. *)
From Coq Require Import String Ascii List NArith ZArith Arith Bool.
From Verif.Model Require Import Py Segmentation DecoderBase.
Import ListNotations.

(** Bits.tobytes: the bits as bytes, the last one filled up with zeros; the bitstring library is not modelled further.
    See simulated_data_mavlink_decoding.py:95-114; simulated_data_combined_decoder.py:99-117. *)
Definition tobytes (bits : list bool) : bytes := pack (map Z.b2z bits).

Section Delivery.
Context {D : Type} (parser : bytes -> res D).

(** The structures handed to set_buffer_structures, found in the parts of a buffer without the filling;
    simulated_data_mavlink_decoding.py:95-114, simulated_data_combined_decoder.py:99-117. *)
Definition structure_of (bits : list bool) : res structure :=
  do! (_, _, s) <- segment_buffer parser (tobytes bits) in Ok s.
(** known structures; simulated_data_mavlink_decoding.py:95-114; simulated_data_combined_decoder.py:99-117. *)
Definition known_structures (n_clusters : nat) (bits : list bool) : res (list structure) :=
  match n_clusters with
  | 1 => do! a <- structure_of bits in Ok [a]
  | 2 => do! a <- structure_of (firstn 576 bits) in do! b <- structure_of (skipn 576 bits) in Ok [a; b]
  | 3 => do! a <- structure_of (firstn 416 bits) in do! b <- structure_of (slice bits 416 864) in
         do! c <- structure_of (skipn 864 bits) in Ok [a; b; c]
  | _ => Err ValueError
  end.

(** binary_data after the loop over the buffers is the last of them; without buffers the name is not bound (NameError, written UnboundLocal);
    simulated_data_mavlink_decoding.py:74-89, 98-112. *)
Definition run_structures (n_clusters : nat) (buffers : list (list bool)) : res (list structure) :=
  match rev buffers with [] => Err UnboundLocal | b :: _ => known_structures n_clusters b end.

(** What a decoder finds in the information bits of a word: info_bits(estimate).tobytes() handed to segment_buffer;
    decoders/mavlink_decoder.py:143-144, 215-216, decoders/combined_decoder.py:188-189, 291-292, decoders/combined_unified_decoder.py:218-219, 321-322.
    Simplified: info_bits of the LDPC library is taken to be the string of the information bits. *)
Definition received (info : list bool) : res seg_result := segment_buffer parser (tobytes info).
End Delivery.
