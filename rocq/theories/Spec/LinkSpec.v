(** Specification for histories of a connection: what was fed, sent, parsed, returned. *)
From Coq Require Import List NArith ZArith Bool.
From Verif.Model Require Import Py Dialect Mavlink Parser Link.
From Verif.Spec Require Import Header Frame StreamSpec.
Import ListNotations.

(** All bytes handed to the parser, in the order of the calls, by whomever. *)
Definition fed (l : list action) : bytes := concat (map (fun a => match a with Feed c => c | FeedAll s => s | _ => [] end) l).

(** All messages handed to send, in the order of the calls, by whomever; [Some n]: writing failed after n bytes. *)
Definition attempts (l : list action) : list (message * option nat) :=
  concat (map (fun a => match a with Send m None => [(m, None)] | Send m (Some (n, _)) => [(m, Some n)] | _ => [] end) l).

Section Events.
Context {M : Type}.
(** The messages (and bad data) found in the stream, in order. *)
Definition parsed (l : list (event M)) : list (item M) := concat (map (fun e => match e with Parsed _ it => [it] | _ => [] end) l).
(** Those which the callback [k] was called with. *)
Definition called_with (k : nat) (l : list (event M)) : list (item M) :=
  concat (map (fun e => match e with Parsed (Some j) it => if Nat.eqb j k then [it] else [] | _ => [] end) l).
(** Those which calls of parse_char and parse_buffer returned. *)
Definition returned (l : list (event M)) : list (item M) :=
  concat (map (fun e => match e with ReturnedItem (Some it) => [it] | ReturnedList (Some r) => r | _ => [] end) l).
(** The messages which the send callback [k] was called with. *)
Definition confirmed (k : nat) (l : list (event M)) : list message :=
  concat (map (fun e => match e with SendCalled j m => if Nat.eqb j k then [m] else [] | _ => [] end) l).
(** Those which calls that wait for a callback will return. *)
Definition held (l : list (frame M)) : list (item M) :=
  concat (map (fun f => match f with InChar it => [it] | InBuffer r => r | InSend => [] end) l).
Definition is_list_returned (e : event M) : Prop := match e with ReturnedList _ => True | _ => False end.
End Events.

Definition is_throw (a : action) : Prop := match a with Throw _ => True | _ => False end.
Definition sets_callback (a : action) : Prop := match a with SetCallback _ => True | _ => False end.
Definition sets_send_callback (a : action) : Prop := match a with SetSendCallback _ => True | _ => False end.

(** A message can be packed with the number [k]. *)
Definition frame_of (sys comp : Z) (k : nat) (m : message) : option bytes :=
  match message_pack m (Z.of_nat k mod 256) sys comp with Ok f => Some f | Err _ => None end.

(** What is written when [k] messages have been sent before: message after message, each with the next number; a message that cannot be packed is
    left out, one whose writing failed is cut off, and neither uses up a number. *)
Fixpoint written (sys comp : Z) (k : nat) (l : list (message * option nat)) : bytes :=
  match l with
  | [] => []
  | (m, failure) :: t =>
      match frame_of sys comp k m, failure with
      | None, _ => written sys comp k t
      | Some f, None => f ++ written sys comp (S k) t
      | Some f, Some n => firstn n f ++ written sys comp k t
      end
  end.
(** The messages that were sent. *)
Fixpoint delivered (sys comp : Z) (k : nat) (l : list (message * option nat)) : list message :=
  match l with
  | [] => []
  | (m, failure) :: t =>
      match frame_of sys comp k m, failure with
      | Some f, None => m :: delivered sys comp (S k) t
      | _, _ => delivered sys comp k t
      end
  end.
(** Their bytes. *)
Fixpoint delivered_bytes (sys comp : Z) (k : nat) (l : list (message * option nat)) : nat :=
  match l with
  | [] => 0
  | (m, failure) :: t =>
      match frame_of sys comp k m, failure with
      | Some f, None => length f + delivered_bytes sys comp (S k) t
      | _, _ => delivered_bytes sys comp k t
      end
  end.
(** The code outside the library never calls the parser while a callback runs. *)
Fixpoint no_nesting {D M} (decode : D -> bytes -> D * res M) (c : conn D M) (l : list action) : Prop :=
  match l with
  | [] => True
  | a :: t =>
      (match a with Feed _ | FeedAll _ => c_stack c = [] | _ => True end) /\ no_nesting decode (fst (step decode c a)) t
  end.

(** The messages as they are numbered from [k] on. *)
Fixpoint numbered (sys comp : Z) (k : nat) (ms : list message) : list sending :=
  match ms with
  | [] => []
  | m :: t => Sending (m_class m) (m_fields m) (Z.of_nat k mod 256) sys comp :: numbered sys comp (S k) t
  end.
(** A message of the dialect with values that fit; if writing it failed, no byte of it was written. *)
Definition well_sent (x : message * option nat) : Prop :=
  In (m_class (fst x)) mavlink_classes /\ fits_all (m_class (fst x)) (m_fields (fst x)) /\ (snd x = None \/ snd x = Some 0).
