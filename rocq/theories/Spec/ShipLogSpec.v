(** Specification of the reader of the ship's logs. *)
From Coq Require Import String List ZArith NArith Bool.
From Verif.Model Require Import Py ShipLog.
Import ListNotations.

(** Where a pattern occurs in a text. *)
Definition occurs (p s : list N) (k : nat) : Prop := exists u v, s = u ++ p ++ v /\ length u = k.
Definition absent (p s : list N) : Prop := forall k, ~ occurs p s k.
Definition first_at (p s : list N) (k : nat) : Prop := occurs p s k /\ forall j, occurs p s j -> k <= j.

(** The text of a decimal number: blanks, a sign or none, digits with single underscores between them, blanks. *)
Definition digit_value (ds : list N) : Z := fold_left (fun a c => (10 * a + (Z.of_N c - 48))%Z) ds 0%Z.
Definition blank (c : N) : Prop := (9 <= c <= 13 \/ 28 <= c <= 32)%N.
Definition a_digit (c : N) : Prop := (48 <= c <= 57)%N.
(** A numeral and its digits. *)
Inductive numeral : list N -> list N -> Prop :=
| nu_one d : a_digit d -> numeral [d] [d]
| nu_digit d t ds : a_digit d -> numeral t ds -> numeral (d :: t) (d :: ds)
| nu_underscore d t ds : a_digit d -> numeral t ds -> numeral (d :: 95%N :: t) (d :: ds).
Definition writes (txt : list N) (v : Z) : Prop :=
  exists w sign num w' ds, txt = w ++ sign ++ num ++ w' /\ Forall blank w /\ Forall blank w' /\ numeral num ds /\
    (sign = ascii "-" /\ v = (- digit_value ds)%Z \/ (sign = ascii "+" \/ sign = []) /\ v = digit_value ds).

(** An entry of the log behind "Aquisition ": anything, the time up to the end of the line, anything, the size, whether it was a success (one
    digit and two more bytes), the payload. *)
Record entry := Entry { n_before : list N; n_time : list N; n_between : list N; n_size : list N; n_success : N; n_eol : list N; n_payload : list N }.
Definition head_text (e : entry) : list N := n_before e ++ ascii "time: " ++ n_time e ++ crlf ++ n_between e ++ ascii "data size: " ++ n_size e.
Definition entry_text (e : entry) : list N := head_text e ++ ascii "data success: " ++ [n_success e] ++ n_eol e ++ n_payload e.

(** The markers can be told from the rest: each occurs first where it is meant, and those that end something do not occur in the payload. *)
Definition readable (e : entry) : Prop :=
  first_at (ascii "time: ") (entry_text e) (length (n_before e)) /\
  first_at crlf (entry_text e) (length (n_before e ++ ascii "time: " ++ n_time e)) /\
  first_at (ascii "data size: ") (entry_text e) (length (n_before e ++ ascii "time: " ++ n_time e ++ crlf ++ n_between e)) /\
  first_at (ascii "data success") (entry_text e) (length (head_text e)) /\
  absent (ascii "data success: ") ([n_success e] ++ n_eol e ++ n_payload e) /\ absent (ascii "Aquisition ") (entry_text e) /\
  length (n_eol e) = 2 /\ (48 <= n_success e <= 57)%N.

(** A log: something before the first entry, then entries, and other text that is taken for an entry but has no time. *)
Inductive item := Read (e : entry) | Junk (b : list N).
Definition item_text (i : item) : list N := match i with Read e => entry_text e | Junk b => b end.
Definition log_text (before : list N) (is : list item) : list N := before ++ concat (map (fun i => ascii "Aquisition " ++ item_text i) is).
Definition junk (b : list N) : Prop := absent (ascii "time: ") b /\ absent (ascii "Aquisition ") b.
(** What is to be read of a log, given how times are read. *)
Inductive to_read {T} (strptime : list N -> res T) : list item -> list (acquisition T) -> Prop :=
| tr_nil : to_read strptime [] []
| tr_junk : forall b is l, junk b -> to_read strptime is l -> to_read strptime (Junk b :: is) l
| tr_read : forall e is l t v, readable e -> strptime (ascii " " ++ n_time e) = Ok t -> writes (n_size e) v -> to_read strptime is l ->
    to_read strptime (Read e :: is) (Acquisition t v (Z.of_N (n_success e) - 48) (firstn 123 (n_payload e)) :: l).
