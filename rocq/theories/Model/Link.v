(** Model of a MAVLink object whose callbacks do what they like: set_callback, set_send_callback, send, parse_char and parse_buffer, called by the
    program or by the callbacks themselves; mavlink_utils/HC_dialect.py:8639-8657, 8678-8712, 8761-8772.
    Simplified: one thread, no native parser, no signing of what is sent; RecursionError of callbacks nested too deeply is not modelled. *)
From Coq Require Import List NArith ZArith Bool.
From Verif.Model Require Import Py Mavlink Parser.
Import ListNotations.

Section Link.
Context {D M : Type}.
Variable decode : D -> bytes -> D * res M.

(** A call of the library that waits for a callback to return: parse_char with the message it will return, parse_buffer with the list collected so
    far, send; mavlink_utils/HC_dialect.py:8702-8712, 8761-8772, 8656-8657. *)
Inductive frame := InChar (it : item M) | InBuffer (ret : list (item M)) | InSend.

(** A MAVLink object - the callbacks are numbered, None is none - and the calls that wait, the innermost first;
    mavlink_utils/HC_dialect.py:8599-8637. *)
Record conn := Conn { c_parser : parser D; c_mav : mav; c_callback : option nat; c_send_callback : option nat; c_stack : list frame }.

(** MAVLink(file, srcSystem, srcComponent) with robust_parsing set to [robust]; mavlink_utils/HC_dialect.py:8599-8637. *)
Definition conn_new (robust : bool) (d : D) (sys comp : Z) : conn := Conn (parser_new robust d) (mav_init sys comp) None None [].

(** What the code outside the library - the program or the callback that runs - does next: it calls a method (file.write may raise an exception
    after it has written some bytes), returns or raises an exception; mavlink_utils/HC_dialect.py:8639-8657, 8683-8712, 8761-8772. *)
Inductive action :=
| Feed (c : bytes) | FeedAll (s : bytes) | Send (m : message) (failure : option (nat * exn))
| SetCallback (k : option nat) | SetSendCallback (k : option nat) | Leave | Throw (e : exn).

(** What can be seen: a message was parsed and handed to the callback if there is one, a method returned or raised, the send callback was called;
    mavlink_utils/HC_dialect.py:8649-8657, 8678-8712, 8761-8772. *)
Inductive event :=
| Parsed (callback : option nat) (it : item M) | ReturnedItem (r : option (item M)) | ReturnedList (r : option (list (item M)))
| SendCalled (callback : nat) (m : message) | SendReturned | Raised (e : exn).

(** The object with another state of the parser; mavlink_utils/HC_dialect.py:8683-8712. *)
Definition with_parser (c : conn) (p : parser D) : conn := Conn p (c_mav c) (c_callback c) (c_send_callback c) (c_stack c).
(** The object with other calls waiting; see Python itself, used for mavlink_utils/HC_dialect.py:8678-8681. *)
Definition with_stack (c : conn) (st : list frame) : conn := Conn (c_parser c) (c_mav c) (c_callback c) (c_send_callback c) st.

(** The loop of parse_buffer until it returns or a callback is called; mavlink_utils/HC_dialect.py:8766-8772, 8702-8704.  Every round uses up a byte,
    so that [fuel] above the number of bytes is never used up. *)
Fixpoint loop (fuel : nat) (c : conn) (ret : list (item M)) : conn * list event :=
  match fuel with
  | O => (c, [Raised RuntimeError])
  | S f =>
      let '(p, r) := parse_char decode (c_parser c) [] in
      let c := with_parser c p in
      match r with
      | Err e => (c, [Raised e])
      | Ok None => (c, [ReturnedList (Some ret)])
      | Ok (Some it) =>
          match c_callback c with
          | Some k => (with_stack c (InBuffer (ret ++ [it]) :: c_stack c), [Parsed (Some k) it])
          | None => let '(c, ev) := loop f c (ret ++ [it]) in (c, Parsed None it :: ev)
          end
      end
  end.

(** parse_buffer goes on after its first message or after a callback has returned; mavlink_utils/HC_dialect.py:8766-8772. *)
Definition go_on (c : conn) (ret : list (item M)) : conn * list event := loop (S (length (p_buf (c_parser c)))) c ret.

(** parse_char; mavlink_utils/HC_dialect.py:8678-8712. *)
Definition do_feed (c : conn) (b : bytes) : conn * list event :=
  let '(p, r) := parse_char decode (c_parser c) b in
  let c := with_parser c p in
  match r with
  | Err e => (c, [Raised e])
  | Ok None => (c, [ReturnedItem None])
  | Ok (Some it) =>
      match c_callback c with
      | Some k => (with_stack c (InChar it :: c_stack c), [Parsed (Some k) it])
      | None => (c, [Parsed None it; ReturnedItem (Some it)])
      end
  end.

(** parse_buffer; mavlink_utils/HC_dialect.py:8761-8772. *)
Definition do_feed_all (c : conn) (b : bytes) : conn * list event :=
  let '(p, r) := parse_char decode (c_parser c) b in
  let c := with_parser c p in
  match r with
  | Err e => (c, [Raised e])
  | Ok None => (c, [ReturnedList None])
  | Ok (Some it) =>
      match c_callback c with
      | Some k => (with_stack c (InBuffer [it] :: c_stack c), [Parsed (Some k) it])
      | None => let '(c, ev) := go_on c [it] in (c, Parsed None it :: ev)
      end
  end.

(** send; mavlink_utils/HC_dialect.py:8649-8657. *)
Definition do_send (c : conn) (m : message) (failure : option (nat * exn)) : conn * list event :=
  let s := c_mav c in
  let with_mav s := Conn (c_parser c) s (c_callback c) (c_send_callback c) (c_stack c) in
  match message_pack m (mav_seq s) (mav_sys s) (mav_comp s) with
  | Err e => (c, [Raised e])
  | Ok buf =>
      match failure with
      | Some (n, e) =>
          (with_mav (Mav (mav_seq s) (mav_sys s) (mav_comp s) (mav_file s ++ firstn n buf) (mav_packets s) (mav_bytes s)), [Raised e])
      | None =>
          let c := with_mav (Mav ((mav_seq s + 1) mod 256) (mav_sys s) (mav_comp s) (mav_file s ++ buf) (mav_packets s + 1)
                                 (mav_bytes s + Z.of_nat (length buf))) in
          match c_send_callback c with
          | Some k => (with_stack c (InSend :: c_stack c), [SendCalled k m])
          | None => (c, [SendReturned])
          end
      end
  end.

(** The code outside the library takes one step, and the library runs until such code runs again; mavlink_utils/HC_dialect.py:8639-8657, 8678-8712,
    8761-8772.  A program that returns or raises ends; here nothing happens then. *)
Definition step (c : conn) (a : action) : conn * list event :=
  match a with
  | Feed b => do_feed c b
  | FeedAll b => do_feed_all c b
  | Send m failure => do_send c m failure
  | SetCallback k => (Conn (c_parser c) (c_mav c) k (c_send_callback c) (c_stack c), [])
  | SetSendCallback k => (Conn (c_parser c) (c_mav c) (c_callback c) k (c_stack c), [])
  | Leave =>
      match c_stack c with
      | [] => (c, [])
      | InChar it :: st => (with_stack c st, [ReturnedItem (Some it)])
      | InBuffer ret :: st => go_on (with_stack c st) ret
      | InSend :: st => (with_stack c st, [SendReturned])
      end
  | Throw e =>
      match c_stack c with
      | [] => (c, [])
      | _ :: st => (with_stack c st, [Raised e])
      end
  end.

(** A history: the steps in order, and all that was seen; mavlink_utils/HC_dialect.py:8639-8657, 8678-8712, 8761-8772. *)
Fixpoint run (c : conn) (l : list action) : conn * list event :=
  match l with
  | [] => (c, [])
  | a :: t => let '(c, ev) := step c a in let '(c, ev') := run c t in (c, ev ++ ev')
  end.
End Link.
Arguments frame M : clear implicits.
Arguments conn D M : clear implicits.
Arguments event M : clear implicits.
