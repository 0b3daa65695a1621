(** Specification of C116: what imports of the code lead to. *)
From Coq Require Import String List Bool.
From Verif Require Import Model.Imports Model.ImportsTable.
Import ListNotations.
Local Open Scope string_scope.
Local Open Scope list_scope.

(** The names the text of a file binds. *)
Definition stmt_names (x : istmt) : list string := match x with Other xs => xs | Import _ x => [x] | From _ xs => map snd xs end.
Definition provides (e : modl) : list string := concat (map stmt_names (m_body e)).

(** The modules inside a package, which are attributes of it once they are imported. *)
Definition submodules (m : string) : list string :=
  map m_last (filter (fun e => match m_parent e with Some p => String.eqb p m | None => false end) modules).

(** The modules of the code. *)
Definition module_names : list string := map m_name modules.

(** A process in which modules were imported, in any order and with any failures; those to come are others. *)
Definition process (fuel : nat) (ms : list string) (before later : list bool) : istate :=
  let s := fst (session modules fuel ms (fresh before)) in {| mods := mods s; begun := begun s; faults := later |}.

(** The scripts which cannot start, with the package and the name it does not have. *)
Definition broken_scripts : list (string * (string * string)) :=
  [("runs/HC_eilat_July_2018/simulated_data_entropy_bitwise_decoder_predefined_model.py", ("decoders", "EntropyBitwiseDecoder"));
   ("runs/HC_eilat_July_2018/simulated_data_entropy_bitwise_decoder_script.py", ("decoders", "EntropyBitwiseDecoder"));
   ("runs/HC_eilat_July_2018/simulated_data_entropy_bitwise_decoder_script_mp.py", ("decoders", "EntropyBitwiseDecoder"));
   ("runs/HC_eilat_July_2018/simulated_data_entropy_bitwise_decoder_weighted_model.py", ("decoders", "EntropyBitwiseWeightedDecoder"));
   ("runs/HC_eilat_July_2018/simulated_data_entropy_bitwise_decoder_weighted_model_averaged.py", ("decoders", "EntropyBitwiseWeightedDecoder"))].

(** How a script gets past its imports, if no other statement fails. *)
Definition expected (script : string) : ires :=
  match find (fun e => String.eqb (fst e) script) broken_scripts with Some (_, (m, x)) => IMissing m x | None => IDone end.
