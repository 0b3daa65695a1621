(** What the XML definitions say of the enumerations. *)
From Coq Require Import String List NArith.
From Verif.Model Require Import EnumTable.
Import ListNotations.
Local Open Scope N_scope.

(** The entries with their values: an entry without a value gets one more than the highest value before it. *)
Fixpoint numbered (highest : N) (l : list xentry) : list (N * xentry) :=
  match l with
  | [] => []
  | x :: t => let v := match xe_value x with Some v => v | None => highest + 1 end in (v, x) :: numbered (N.max highest v) t
  end.
(** The highest value of an enumeration. *)
Definition highest (l : list xentry) : N := fold_right N.max 0 (map fst (numbered 0 l)).
(** The parameters of an entry: the entries of enumerations named MAV_CMD... have the seven parameters of a command, described or not; the others have those
    that the file describes. *)
Definition parameters (e : xenum) (x : xentry) : list N := if prefix "MAV_CMD" (xn_name e) then [1; 2; 3; 4; 5; 6; 7] else xe_params x.
(** [defined xs e v n ps]: enumeration e has the value v, under the name n, with the parameters ps; one more than the highest value is the end. *)
Inductive defined (xs : list xenum) : string -> N -> string -> list N -> Prop :=
| def_entry e v x : In e xs -> In (v, x) (numbered 0 (xn_entries e)) -> defined xs (xn_name e) v (xe_name x) (parameters e x)
| def_end e : In e xs -> defined xs (xn_name e) (highest (xn_entries e) + 1) (xn_name e ++ "_ENUM_END") [].
