(** What a run repeated from its recorded command gets: option by option, from the script's name and the values of the first run. *)
From Coq Require Import String Ascii List ZArith NArith Bool.
From Verif.Model Require Import Py ShipLog Cmd.
Import ListNotations.
Local Open Scope string_scope.

(** Characters a shell leaves alone: letters, digits and + , - . / : = @ _ *)
Definition plain_char (c : N) : Prop :=
  ((43 <= c <= 58) \/ (64 <= c <= 90) \/ (97 <= c <= 122) \/ c = 61 \/ c = 95)%N.
Definition plain (t : text) : Prop := t <> [] /\ Forall plain_char t.
(** Texts argparse takes for the value of an option: those without a leading '-', and -d, -d.d, -.d for digits d. *)
Definition a_digit (c : N) : Prop := (48 <= c <= 57)%N.
Definition digits_only (t : text) : Prop := t <> [] /\ Forall a_digit t.
Definition argument (t : text) : Prop :=
  (forall c u, t = c :: u -> c <> 45%N) \/
  exists u, t = 45%N :: u /\ (digits_only u \/ exists v w, u = (v ++ 46%N :: w)%list /\ Forall a_digit v /\ digits_only w).

(** What becomes of an option. *)
Inductive fate :=
| Same               (* its value is recorded *)
| Lost               (* it is not recorded: the default *)
| Floor              (* recorded if positive, and as 0 otherwise *)
| IfPositive         (* recorded if positive: else the default *)
| WordCount          (* if positive, the number of words of the run is recorded: else the default *)
| IfBoth.            (* recorded if it and N are positive: else the default *)

Definition fate_of (file option : string) : fate :=
  if option =? "N" then WordCount
  else if option =? "processes" then
    (if file =? "runs/HC_eilat_July_2018/simulated_data_entropy_bitwise_decoder_weighted_model.py" then IfBoth else IfPositive)
  else if option =? "window_len" then
    (if existsb (String.eqb file)
          ["runs/HC_eilat_July_2018/simulated_data_entropy_bitwise_decoder_script.py";
           "runs/HC_eilat_July_2018/simulated_data_entropy_bitwise_decoder_script_mp.py";
           "runs/HC_eilat_July_2018/simulated_data_entropy_bitwise_decoder_weighted_model_averaged.py"] then IfPositive else Floor)
  else if option =? "multiply_data" then
    (if file =? "runs/HC_eilat_July_2018/simulated_data_entropy_bitwise_decoder_weighted_model_averaged.py" then IfPositive else Same)
  else if option =? "cluster" then
    (if existsb (String.eqb file) ["runs/Feb_2022/experimental_data_unified_decoder.py"; "runs/Feb_2023/experimental_data_unified_decoder.py"]
     then Lost else Same)
  else if option =? "separate_models" then
    (if existsb (String.eqb file) ["runs/Feb_2023/experimental_data_run_feb_23.py"; "runs/Feb_2023/experimental_mavlink_based.py"]
     then Lost else Same)
  else Same.

Section Spec.
Variable F : Type.
Variable literal : string -> F.
Variable of_int : Z -> F.

(** A float option whose default is an int is read back as a float. *)
Definition reread (ty : otype) (v : value F) : value F := match ty, v with TFloat, VInt z => VFloat (of_int z) | _, _ => v end.

Definition expected_value (s : script) (ns : namespace F) (n : Z) (o : opt) : value F :=
  let d := default_value F literal (o_default o) in
  let v := match get ns (o_name o) with Some v => reread (o_type o) v | None => d end in
  let p := positive ns (o_name o) in
  match fate_of (s_file s) (o_name o) with
  | Same => v
  | Lost => d
  | Floor => if p then v else VInt 0
  | IfPositive => if p then v else d
  | WordCount => if p then VInt n else d
  | IfBoth => if (p && positive ns "N")%bool then v else d
  end.
Definition expected (s : script) (ns : namespace F) (n : Z) : namespace F :=
  map (fun o => (o_name o, expected_value s ns n o)) (s_options s).

(** Values whose text a shell leaves alone and argparse takes for a value; every int is one. *)
Definition printable (show_float : F -> text) (v : value F) : Prop :=
  match v with VInt _ => True | VFloat x => plain (show_float x) /\ argument (show_float x) | VStr t => plain t /\ argument t end.

(** Whether argparse accepts the command. *)
Definition accepted (s : script) (ns : namespace F) : bool :=
  if existsb (String.eqb (s_file s))
       ["runs/HC_eilat_July_2018/classifying_entropy_decoder_over_awgn_channel.py"; "runs/HC_eilat_July_2018/simulated_data_pretrained_model.py"]
  then false
  else if s_file s =? "runs/Feb_2022/experimental_mavlink_based.py" then positive ns "window_len"
  else true.
End Spec.

(** Buffers a run with the option N takes of those available, and the words it makes of them: each is split into [split] words, and the list
    is doubled [m] times. *)
Definition buffers (n available : Z) : Z := if (0 <? n)%Z then Z.min n available else available.
Definition words_of (split m taken : Z) : Z := (split * taken * 2 ^ Z.max 0 m)%Z.

(** Values the scripts do not tell apart: the same (an int default read back as a float is the same number), or two ints that are not
    positive. *)
Definition same_setting {F} (of_int : Z -> F) (a b : option (value F)) : Prop :=
  a = b \/ (exists z, a = Some (VInt z) /\ b = Some (VFloat (of_int z))) \/
  (exists x y, a = Some (VInt x) /\ b = Some (VInt y) /\ (x <= 0)%Z /\ (y <= 0)%Z).
(** Scripts that repeat a run from its command, apart from N. *)
Definition repeatable (file : string) : Prop :=
  ~ In file ["runs/HC_eilat_July_2018/classifying_entropy_decoder_over_awgn_channel.py";
             "runs/HC_eilat_July_2018/simulated_data_pretrained_model.py";
             "runs/Feb_2022/experimental_mavlink_based.py";
             "runs/Feb_2022/experimental_data_unified_decoder.py"; "runs/Feb_2023/experimental_data_unified_decoder.py";
             "runs/Feb_2023/experimental_data_run_feb_23.py"; "runs/Feb_2023/experimental_mavlink_based.py";
             "runs/HC_eilat_July_2018/simulated_data_entropy_bitwise_decoder_weighted_model.py";
             "runs/HC_eilat_July_2018/simulated_data_entropy_bitwise_decoder_weighted_model_averaged.py"].

(** An option given on a command line: the option, the text of its value, and whether it is written --name=value or --name value. *)
Definition given_text (g : opt * text * bool) : list text :=
  let '(o, v, explicit) := g in if explicit then [(long o ++ 61%N :: v)%list] else [long o; v].
(** The last value given for a name. *)
Fixpoint last_given (x : string) (l : list (opt * text * bool)) : option text :=
  match l with
  | (o, v, _) :: l => match last_given x l with Some w => Some w | None => if o_name o =? x then Some v else None end
  | [] => None
  end.
