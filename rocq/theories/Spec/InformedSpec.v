(** Specification of the experiments whose decoder is told where the received word is wrong. *)
From Coq Require Import List Arith ZArith Bool.
From Verif.Model Require Import Py Float DecoderBase Simulation.
From Verif.Spec Require Import SimulationSpec.
Import ListNotations.

(** The wrong positions of a received word, if the sent word is known. *)
Definition wrong_positions (t h : list Z) : list Z := map Z.of_nat (differences t h).
Definition told_always (t h : list Z) : list Z := if is_known t then wrong_positions t h else [].
Definition told_known (t h : list Z) : option (list Z) := if is_known t then Some (wrong_positions t h) else None.

(** The report of a run (as in C80) with the answers [la], [aa]: answers of [ml] and [ma] items, while the tables expect 6 and [columns - 1]. *)
Definition reports (FO : fops) (columns n k : nat) (tx : list (list Z)) (rx : list (list (F FO))) (la aa : list answer) (ml ma : nat) (r : res (experiment FO)) : Prop :=
  (ml <> 6 \/ S ma <> columns -> r = Err ValueError) /\
  (ml = 6 -> S ma = columns -> known_words tx = 0 -> r = Err ZeroDivision) /\
  (ml = 6 -> S ma = columns -> known_words tx <> 0 ->
   exists ex, r = Ok ex /\
    length (ex_data FO ex) = length tx /\
    (forall i, i < length tx ->
       let t := nth i tx [] in let r := nth i rx [] in let d := differences t (hard FO r) in
       nth_error (ex_data FO ex) i = Some
         (if is_known t
          then ExpRow FO t r (map (fun p => if (nth p t 0 =? nth p (hard FO r) 0)%Z then 0%Z else 1%Z) (seq 0 n))
                 (Z.of_nat (length (filter (fun p => Nat.ltb p k) d))) (Z.of_nat (length (filter (fun p => negb (Nat.ltb p k)) d)))
                 (fdiv FO (fz FO (Z.of_nat (length d))) (fz FO (Z.of_nat n)))
          else ExpRow FO t r (repeat 2%Z n) (-1) (-1) (fz FO (-1)))) /\
    map fst (ex_ldpc FO ex) = la /\ map snd (ex_ldpc FO ex) = judged tx la /\
    map fst (ex_aided FO ex) = aa /\ map snd (ex_aided FO ex) = judged tx aa /\
    ex_ldpc_rate FO ex = fdiv FO (fz FO (Z.of_nat (claims la))) (fz FO (Z.of_nat (length tx))) /\
    ex_aided_rate FO ex = fdiv FO (fz FO (Z.of_nat (claims aa))) (fz FO (Z.of_nat (length tx))) /\
    ex_ldpc_ber FO ex = fdiv FO (fz FO (Z.of_nat (known_wrong tx la))) (fz FO (Z.of_nat (n * known_words tx))) /\
    ex_aided_ber FO ex = fdiv FO (fz FO (Z.of_nat (known_wrong tx aa))) (fz FO (Z.of_nat (n * known_words tx)))).

(** Positions of bits of a word of [n] bits. *)
Definition positions (n : nat) (l : list Z) : Prop := Forall (fun e => 0 <= e < Z.of_nat n)%Z l.
