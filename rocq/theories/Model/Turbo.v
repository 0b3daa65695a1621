(** Model of decoders/turbo.py. *)
From Coq Require Import List ZArith Bool.
From Verif.Model Require Import Py Float InfoTheory.
Import ListNotations.

(** [a[idx] = True] for an array of possibly negative indices. See decoders/turbo.py:7-12. *)
Fixpoint mark (l : list bool) (idx : list Z) : res (list bool) :=
  match idx with
  | [] => Ok l
  | i :: t =>
      do! _ <- index_z l i in
      mark (set_nth l (Z.to_nat (if (i <? 0)%Z then (i + Z.of_nat (length l))%Z else i)) true) t
  end.

(** track_errors; decoders/turbo.py:7-12.  The words are arrays of uint8; a word of another length is a ValueError (arrays of one
    element are repeated). *)
Definition track_errors (error_idx : list Z) (rx estimate : list Z) : res nat :=
  do! errors_bool <- mark (repeat false (length rx)) error_idx in
  do! tx <- broadcast (fun r (e : bool) => Z.lxor r (if e then 1 else 0)) rx errors_bool in
  do! l <- broadcast (fun a b => negb (Z.eqb a b)) tx estimate in
  Ok (length (filter (fun b => b) l)).

Section Turbo.
Variable FO : fops.
Notation F := (F FO).
(** The two decoders: any objects with a state.  Simplified: only the three entries of the answer that are used. *)
Context {S1 S2 : Type}.
Variable first_decoder : S1 -> list F -> S1 * res (list Z * list F * bool).
Variable second_decoder : S2 -> list F -> S2 * res (list Z * list F * bool).

(** [llr - channel_word - prior]; decoders/turbo.py:41, 47. *)
Definition new_prior (llr channel_word prior : list F) : res (list F) :=
  do! d <- broadcast (fsub FO) llr channel_word in broadcast (fsub FO) d prior.

(** The loop of TurboDecoder.decode_buffer and what follows it; decoders/turbo.py:36-57.  [last] holds estimate2, llr2,
    decode_success2 and err2 once a round is over; UnboundLocalError when there was none. *)
Fixpoint turbo_loop (fuel : nat) (debug : bool) (channel_word : list F) (error_idx : list Z) (s1 : S1) (s2 : S2)
  (first_prior : list F) (last : option (list Z * list F * bool * nat))
  : S1 * S2 * res (list Z * list F * bool * nat * nat) :=
  match fuel with
  | O => (s1, s2, match last with
                  | None => Err UnboundLocal
                  | Some (e, l, ok, err) => Ok (e, l, ok, 2, if debug then err else 0)
                  end)
  | S f =>
      match broadcast (fadd FO) channel_word first_prior with
      | Err e => (s1, s2, Err e)
      | Ok in1 =>
          match first_decoder s1 in1 with
          | (s1, Err e) => (s1, s2, Err e)
          | (s1, Ok (e1, l1, ok1)) =>
              if ok1 then (s1, s2, Ok (e1, l1, ok1, 1, 0))
              else
                match (do! second_prior <- new_prior l1 channel_word first_prior in
                       do! in2 <- broadcast (fadd FO) second_prior channel_word in Ok (second_prior, in2)) with
                | Err e => (s1, s2, Err e)
                | Ok (second_prior, in2) =>
                    match second_decoder s2 in2 with
                    | (s2, Err e) => (s1, s2, Err e)
                    | (s2, Ok (e2, l2, ok2)) =>
                        if ok2 then (s1, s2, Ok (e2, l2, ok2, 2, 0))
                        else
                          match (do! first_prior <- new_prior l2 channel_word second_prior in
                                 if debug
                                 then let rx := map (fun x => if flt FO x (fz FO 0) then 1%Z else 0%Z) channel_word in
                                      do! _ <- track_errors error_idx rx (map (fun b => b mod 256)%Z e1) in
                                      do! err2 <- track_errors error_idx rx (map (fun b => b mod 256)%Z e2) in
                                      Ok (first_prior, err2)
                                 else Ok (first_prior, 0)) with
                          | Err e => (s1, s2, Err e)
                          | Ok (first_prior, err2) => turbo_loop f debug channel_word error_idx s1 s2 first_prior (Some (e2, l2, ok2, err2))
                          end
                    end
                end
          end
      end
  end.

(** TurboDecoder.decode_buffer; decoders/turbo.py:25-57. *)
Definition turbo_decode (max_iter : Z) (debug : bool) (s1 : S1) (s2 : S2) (channel_word : list F) (error_idx : list Z)
  : S1 * S2 * res (list Z * list F * bool * nat * nat) :=
  turbo_loop (Z.to_nat max_iter) debug channel_word error_idx s1 s2 (map (fun _ => fz FO 0) channel_word) None.
End Turbo.
