(** Model of threads that send on one MAVLink object: mavlink_utils/HC_dialect.py:8649-8657, statement by statement.
    Simplified: every read and every write of an attribute is one step, self.file.write appends a whole buffer in one step, packing reads self.seq
    once and is one step (pack works on the message and on the unchanging srcSystem and srcComponent only), there is no send_callback, and an exception of pack ends
    the thread.  The threads send different message objects. *)
From Coq Require Import List ZArith.
From Verif.Model Require Import Py Struct Mavlink.
Import ListNotations.
Local Open Scope Z_scope.

(** Where a thread is within send, with its local values: the buffer or its length, and what it has read of an attribute;
    mavlink_utils/HC_dialect.py:8651-8655. *)
Inductive place :=
| AtPack                                    (* before mavmsg.pack, or between two sends *)
| AtWrite (buf : bytes)                     (* before self.file.write(buf) *)
| AtSeq (len : Z)                           (* before the read of self.seq *)
| AtSetSeq (len q : Z)                      (* before the write of self.seq *)
| AtPackets (len : Z)                       (* before the read of self.total_packets_sent *)
| AtSetPackets (len k : Z)
| AtBytes (len : Z)
| AtSetBytes (len k : Z)
| Failed (e : exn).
(** A thread: the messages it has yet to pack, and its place; mavlink_utils/HC_dialect.py:8649-8657. *)
Record thread := Thread { th_todo : list message; th_place : place }.

(** One step of a thread; mavlink_utils/HC_dialect.py:8651-8655. *)
Definition thread_step (s : mav) (t : thread) : mav * thread :=
  let at_ p := Thread (th_todo t) p in
  match th_place t with
  | AtPack => match th_todo t with
              | [] => (s, t)
              | m :: rest => match message_pack m (mav_seq s) (mav_sys s) (mav_comp s) with
                             | Ok buf => (s, Thread rest (AtWrite buf))
                             | Err e => (s, Thread rest (Failed e))
                             end
              end
  | AtWrite buf => (Mav (mav_seq s) (mav_sys s) (mav_comp s) (mav_file s ++ buf) (mav_packets s) (mav_bytes s), at_ (AtSeq (Z.of_nat (length buf))))
  | AtSeq n => (s, at_ (AtSetSeq n (mav_seq s)))
  | AtSetSeq n q => (Mav ((q + 1) mod 256) (mav_sys s) (mav_comp s) (mav_file s) (mav_packets s) (mav_bytes s), at_ (AtPackets n))
  | AtPackets n => (s, at_ (AtSetPackets n (mav_packets s)))
  | AtSetPackets n k => (Mav (mav_seq s) (mav_sys s) (mav_comp s) (mav_file s) (k + 1) (mav_bytes s), at_ (AtBytes n))
  | AtBytes n => (s, at_ (AtSetBytes n (mav_bytes s)))
  | AtSetBytes n k => (Mav (mav_seq s) (mav_sys s) (mav_comp s) (mav_file s) (mav_packets s) (k + n), at_ AtPack)
  | Failed _ => (s, t)
  end.

(** A schedule names the thread that makes the next step; a number without a thread is skipped. See mavlink_utils/HC_dialect.py:8649-8657. *)
Fixpoint run_threads (schedule : list nat) (s : mav) (ts : list thread) : mav * list thread :=
  match schedule with
  | [] => (s, ts)
  | i :: rest => match nth_error ts i with
                 | None => run_threads rest s ts
                 | Some t => let '(s', t') := thread_step s t in run_threads rest s' (set_nth ts i t')
                 end
  end.
(** Threads before their first send; mavlink_utils/HC_dialect.py:8649-8657. *)
Definition threads (todo : list (list message)) : list thread := map (fun l => Thread l AtPack) todo.
