(** What several threads write on one connection. *)
From Coq Require Import List ZArith.
From Verif.Model Require Import Py Struct Mavlink Threads.
Import ListNotations.

(** A written frame: the thread, its message, the sequence number in the frame, the bytes. *)
Record written := Written { w_thread : nat; w_msg : message; w_seq : Z; w_frame : bytes }.
(** The messages that a thread has written. *)
Definition sent_by (i : nat) (w : list written) : list message := map w_msg (filter (fun x => Nat.eqb (w_thread x) i) w).
(** All threads have returned from all their sends. *)
Definition finished (ts : list thread) : Prop := Forall (fun t => t = Thread [] AtPack) ts.
(** The messages in the order in which whole sends take turns: [picked order todo l]. *)
Inductive picked : list nat -> list (list message) -> list message -> Prop :=
| picked_nil todo : picked [] todo []
| picked_cons i order todo m rest l : nth_error todo i = Some (m :: rest) -> picked order (set_nth todo i rest) l ->
    picked (i :: order) todo (m :: l).
(** A schedule in which every send runs to its end before the next begins. *)
Definition in_turns (order : list nat) : list nat := flat_map (fun i => repeat i 8) order.
