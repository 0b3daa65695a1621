(** What is left of a run whose steps ended in any order and that may have been stopped at any moment. *)
From Coq Require Import String Ascii List ZArith NArith Bool Permutation Sorted.
From Verif.Model Require Import Py ShipLog Cmd Unify.
Import ListNotations.

(** The order of the unified results: by time, then by name. *)
Inductive text_lt : text -> text -> Prop :=
| lt_nil c b : text_lt [] (c :: b)
| lt_head x y a b : (x < y)%N -> text_lt (x :: a) (y :: b)
| lt_tail x a b : text_lt a b -> text_lt (x :: a) (x :: b).
Definition earlier {V} (a b : file V) : Prop := (f_time a < f_time b)%Z \/ f_time a = f_time b /\ text_lt (f_name a) (f_name b).

(** Runs: steps with names of their own open and write their files in any order.  [open] are the names of the files that are not complete,
    [done] those that are. *)
Inductive run_history {V} : list text -> list (file V) -> list (event V) -> Prop :=
| rh_start : run_history [] [] []
| rh_begin op dn es n t : run_history op dn es -> ~ In n op -> ~ In n (map f_name dn) -> run_history (n :: op) dn (es ++ [Begin n t])
| rh_end op1 op2 dn es n t r : run_history (op1 ++ n :: op2) dn es ->
    run_history (op1 ++ op2) (dn ++ [File n t (Whole r)]) (es ++ [End n t r]).

Definition is_pickle {V} (f : file V) : Prop := exists s, f_name f = s ++ ascii ".pickle".
Definition keys : list string := ["raw_ber"; "ldpc_decoder_ber"; "entropy_decoder_ber"; "ldpc_buffer_success_rate"; "entropy_buffer_success_rate"]%string.
Definition has_keys {V} (d : dict V) : Prop := forall k, In k keys -> exists v, lookup V k d = Ok v.
(** The summary of the results [ds]: five columns in their order, and the raw BER of the first of them as args.minflip. *)
Definition summary_of {V} (ds : list (dict V)) (s : summary V) : Prop :=
  Forall2 (fun d v => lookup V "raw_ber" d = Ok v) ds (u_raw V s) /\
  Forall2 (fun d v => lookup V "ldpc_decoder_ber" d = Ok v) ds (u_ldpc V s) /\
  Forall2 (fun d v => lookup V "entropy_decoder_ber" d = Ok v) ds (u_entropy V s) /\
  Forall2 (fun d v => lookup V "ldpc_buffer_success_rate" d = Ok v) ds (u_ldpc_rate V s) /\
  Forall2 (fun d v => lookup V "entropy_buffer_success_rate" d = Ok v) ds (u_entropy_rate V s) /\
  exists d, hd_error ds = Some d /\ lookup V "raw_ber" d = Ok (u_minflip V s).
