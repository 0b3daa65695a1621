(** The commands the scripts record in cmd.txt, and what running such a command again makes of the options.  The commands and the options of
    the scripts are in Commands.v; here are their f-strings, the words of a shell command and argparse. *)
From Coq Require Import String Ascii List ZArith NArith Bool.
From Verif.Model Require Import Py ShipLog.
Import ListNotations.

(** str: code points; runs/HC_eilat_July_2018/simulated_data_combined_decoder.py:283-299. *)
Definition text := list N.
(** Equality of str; runs/HC_eilat_July_2018/simulated_data_combined_decoder.py:51. *)
Fixpoint text_eqb (a b : text) : bool :=
  match a, b with [], [] => true | x :: a, y :: b => N.eqb x y && text_eqb a b | _, _ => false end.

(** str of an int: the sign and the decimal digits. See runs/HC_eilat_July_2018/simulated_data_combined_decoder.py:283-299. *)
Fixpoint show_digits (d : Decimal.uint) : text :=
  match d with
  | Decimal.Nil => []
  | Decimal.D0 d => 48%N :: show_digits d | Decimal.D1 d => 49%N :: show_digits d | Decimal.D2 d => 50%N :: show_digits d
  | Decimal.D3 d => 51%N :: show_digits d | Decimal.D4 d => 52%N :: show_digits d | Decimal.D5 d => 53%N :: show_digits d
  | Decimal.D6 d => 54%N :: show_digits d | Decimal.D7 d => 55%N :: show_digits d | Decimal.D8 d => 56%N :: show_digits d
  | Decimal.D9 d => 57%N :: show_digits d
  end.
(** The sign; runs/HC_eilat_July_2018/simulated_data_combined_decoder.py:283-299. *)
Definition show_int (z : Z) : text :=
  match z with Zneg p => 45%N :: show_digits (N.to_uint (Npos p)) | _ => show_digits (N.to_uint (Z.to_N z)) end.

(** parser.add_argument("--name", default=..., type=...): the scripts use no other keywords than these and help.
    See runs/HC_eilat_July_2018/simulated_data_combined_decoder.py:24-49. *)
Inductive otype := TInt | TFloat | TStr.
(** A default is an int, a float (its literal in the source) or a string. See runs/HC_eilat_July_2018/simulated_data_combined_decoder.py:24-49. *)
Inductive odefault := DInt (z : Z) | DFloat (s : string) | DStr (s : string).
(** One option; runs/HC_eilat_July_2018/simulated_data_combined_decoder.py:24-49. *)
Record opt := Opt { o_name : string; o_type : otype; o_default : odefault }.
(** "--name"; runs/HC_eilat_July_2018/simulated_data_combined_decoder.py:24-49. *)
Definition long (o : opt) : text := ascii "--" ++ ascii (o_name o).

(** The pieces of a recorded command: literal text, an option [args.x], the local variable [args.x if args.x > 0 else None] (window_len,
    processes), the number n of words, __file__; and [if args.x > 0] or, for those locals, [if x is not None], which is the same test.
    See runs/HC_eilat_July_2018/simulated_data_combined_decoder.py:283-299. *)
Inductive source := Arg (x : string) | Pos (x : string) | Count | File.
(** A piece of the f-string; runs/HC_eilat_July_2018/simulated_data_combined_decoder.py:283-299. *)
Inductive item := Lit (s : string) | Val (e : source) | If (x : string) (yes no : list item).
(** A script: its path, its options, whether it sets args.classifier_train = 0 if args.n_clusters == 1, and the command it records.
    See runs/HC_eilat_July_2018/simulated_data_combined_decoder.py:24-51, 68-70, 283-299. *)
Record script := Script { s_file : string; s_options : list opt; s_single : bool; s_command : list item }.

(** argparse, _negative_number_matcher: '^-\d+$|^-\d*\.\d+$'.  Simplified: ASCII digits only.
    See argparse is called in runs/HC_eilat_July_2018/simulated_data_combined_decoder.py:51. *)
Fixpoint drop_digits (s : text) : text := match s with c :: t => if is_digit c then drop_digits t else s | [] => [] end.
(** A word of digits; argparse is called in runs/HC_eilat_July_2018/simulated_data_combined_decoder.py:51. *)
Definition all_digits (s : text) : bool := match s, drop_digits s with _ :: _, [] => true | _, _ => false end.
(** What that expression matches; argparse is called in runs/HC_eilat_July_2018/simulated_data_combined_decoder.py:51. *)
Definition negative_number (s : text) : bool :=
  match s with
  | c :: t => (c =? 45)%N && (all_digits t || match drop_digits t with d :: u => (d =? 46)%N && all_digits u | [] => false end)
  | [] => false
  end.
(** c in s; argparse is called in runs/HC_eilat_July_2018/simulated_data_combined_decoder.py:51. *)
Definition member (c : N) (s : text) : bool := existsb (N.eqb c) s.
(** The text before the first '=', and what follows it. See argparse is called in runs/HC_eilat_July_2018/simulated_data_combined_decoder.py:51. *)
Fixpoint before_eq (s : text) : text := match s with c :: t => if (c =? 61)%N then [] else c :: before_eq t | [] => [] end.
(** The text after the first "=", if there is one; argparse is called in runs/HC_eilat_July_2018/simulated_data_combined_decoder.py:51. *)
Fixpoint after_eq (s : text) : option text := match s with c :: t => if (c =? 61)%N then Some t else after_eq t | [] => None end.

(** What argparse takes a word for; argparse is called in runs/HC_eilat_July_2018/simulated_data_combined_decoder.py:51. *)
Inductive kind := Positional | Named (o : opt) (explicit : option text) | Refused.
(** An option of that name; argparse is called in runs/HC_eilat_July_2018/simulated_data_combined_decoder.py:51. *)
Definition find_long (opts : list opt) (a : text) : option opt := find (fun o => text_eqb (long o) a) opts.
(** argparse, _parse_optional with _get_option_tuples, for a parser with long options only, besides -h and --help; Refused is any exit:
    help, an ambiguous prefix or an option that does not exist.  Simplified: the argument '--' is Refused.
    See argparse is called in runs/HC_eilat_July_2018/simulated_data_combined_decoder.py:51. *)
Definition classify (opts : list opt) (a : text) : kind :=
  match a with
  | [] => Positional
  | c :: t =>
      if negb (c =? 45)%N then Positional
      else if text_eqb a (ascii "-h") || text_eqb a (ascii "--help") then Refused
      else match find_long opts a with
           | Some o => Named o None
           | None =>
               match t with
               | [] => Positional
               | _ =>
                   match (match after_eq a with Some e => option_map (fun o => (o, e)) (find_long opts (before_eq a)) | None => None end) with
                   | Some (o, e) => Named o (Some e)
                   | None =>
                       let p := before_eq a in
                       let found := if starts (ascii "--") a then filter (fun o => starts p (long o)) opts else [] in
                       let help := if starts (ascii "--") a then starts p (ascii "--help") else starts (ascii "-h") a in
                       match found, help with
                       | [o], false => Named o (after_eq a)
                       | [], false => if negative_number a || member 32 a then Positional else Refused
                       | _, _ => Refused
                       end
                   end
               end
           end
  end.

Section Cmd.
(** Floats: str, float() and the values of the literals in the source are parameters. *)
Variable F : Type.
Variable show_float : F -> text.
Variable read_float : text -> option F.
Variable literal : string -> F.

(** The value of an option; runs/HC_eilat_July_2018/simulated_data_combined_decoder.py:24-51. *)
Inductive value := VInt (z : Z) | VFloat (x : F) | VStr (s : text).
(** f'{v}'. See runs/HC_eilat_July_2018/simulated_data_combined_decoder.py:283-299. *)
Definition show (v : value) : text := match v with VInt z => show_int z | VFloat x => show_float x | VStr s => s end.
(** type(s); None is a ValueError, which argparse turns into an exit. See runs/HC_eilat_July_2018/simulated_data_combined_decoder.py:24-51. *)
Definition convert (ty : otype) (s : text) : option value :=
  match ty with
  | TInt => match py_int s with Ok z => Some (VInt z) | Err _ => None end
  | TFloat => option_map VFloat (read_float s)
  | TStr => Some (VStr s)
  end.
(** The value of a default; runs/HC_eilat_July_2018/simulated_data_combined_decoder.py:24-49. *)
Definition default_value (d : odefault) : value := match d with DInt z => VInt z | DFloat s => VFloat (literal s) | DStr s => VStr (ascii s) end.

(** argparse.Namespace. See runs/HC_eilat_July_2018/simulated_data_combined_decoder.py:51. *)
Definition namespace := list (string * value).
(** args.x; runs/HC_eilat_July_2018/simulated_data_combined_decoder.py:51. *)
Fixpoint get (ns : namespace) (x : string) : option value :=
  match ns with (y, v) :: t => if String.eqb y x then Some v else get t x | [] => None end.
(** args.x = v; runs/HC_eilat_July_2018/simulated_data_combined_decoder.py:51. *)
Definition set (x : string) (v : value) (ns : namespace) : namespace := map (fun p => if String.eqb (fst p) x then (fst p, v) else p) ns.
(** The values before any option is read; runs/HC_eilat_July_2018/simulated_data_combined_decoder.py:24-51. *)
Definition defaults (opts : list opt) : namespace := map (fun o => (o_name o, default_value (o_default o))) opts.

(** parser.parse_args: an option takes the one argument after it, which must not look like an option; later ones replace earlier ones;
    anything else exits (None). See runs/HC_eilat_July_2018/simulated_data_combined_decoder.py:51. *)
Fixpoint parse_from (opts : list opt) (ns : namespace) (argv : list text) : option namespace :=
  match argv with
  | [] => Some ns
  | a :: rest =>
      match classify opts a with
      | Named o (Some e) =>
          match convert (o_type o) e with Some v => parse_from opts (set (o_name o) v ns) rest | None => None end
      | Named o None =>
          match rest with
          | b :: rest' =>
              match classify opts b with
              | Positional => match convert (o_type o) b with Some v => parse_from opts (set (o_name o) v ns) rest' | None => None end
              | _ => None
              end
          | [] => None
          end
      | _ => None
      end
  end.
(** parser.parse_args(); runs/HC_eilat_July_2018/simulated_data_combined_decoder.py:51. *)
Definition parse_args (opts : list opt) (argv : list text) : option namespace := parse_from opts (defaults opts) argv.

(** [if args.n_clusters == 1: args.classifier_train = 0]; e.g. simulated_data_combined_decoder.py:68-70. *)
Definition in_force (s : script) (ns : namespace) : namespace :=
  match s_single s, get ns "n_clusters" with true, Some (VInt 1) => set "classifier_train" (VInt 0) ns | _, _ => ns end.

(** args.x > 0. See runs/HC_eilat_July_2018/simulated_data_combined_decoder.py:283-299. *)
Definition positive (ns : namespace) (x : string) : bool := match get ns x with Some (VInt z) => (0 <? z)%Z | _ => false end.
(** f'{args.x}'; runs/HC_eilat_July_2018/simulated_data_combined_decoder.py:283-299. *)
Definition show_arg (ns : namespace) (x : string) : text := match get ns x with Some v => show v | None => [] end.
(** The command of a run with the options [ns], [n] words and the path [file] of the script.
    See runs/HC_eilat_July_2018/simulated_data_combined_decoder.py:283-299. *)
Definition show_source (ns : namespace) (n : Z) (file : text) (e : source) : text :=
  match e with
  | Arg x => show_arg ns x
  | Pos x => if positive ns x then show_arg ns x else ascii "None"
  | Count => show_int n
  | File => file
  end.
(** The text of a piece; runs/HC_eilat_July_2018/simulated_data_combined_decoder.py:283-299. *)
Fixpoint render_item (ns : namespace) (n : Z) (file : text) (i : item) : text :=
  match i with
  | Lit s => ascii s
  | Val e => show_source ns n file e
  | If x yes no =>
      let fix all (l : list item) : text := match l with i :: l => render_item ns n file i ++ all l | [] => [] end in
      if positive ns x then all yes else all no
  end.
(** The command that is recorded; runs/HC_eilat_July_2018/simulated_data_combined_decoder.py:283-299. *)
Definition record (s : script) (ns : namespace) (n : Z) (file : text) : text := flat_map (render_item (in_force s ns) n file) (s_command s).

(** The words of a shell command.  Simplified: nothing but blanks is special; the theorems are about words of plain characters.
    See the commands of e.g. runs/HC_eilat_July_2018/simulated_data_combined_decoder.py:283-299. *)
Fixpoint words_from (acc : text) (s : text) : list text :=
  match s with
  | [] => match acc with [] => [] | _ => [rev acc] end
  | c :: t => if (c =? 32)%N then match acc with [] => words_from [] t | _ => rev acc :: words_from [] t end else words_from (c :: acc) t
  end.
(** All of them; the commands of e.g. runs/HC_eilat_July_2018/simulated_data_combined_decoder.py:283-299. *)
Definition words (s : text) : list text := words_from [] s.

(** Running the recorded command again: the file the interpreter runs and, if it is that script, what argparse makes of the rest.
    See runs/HC_eilat_July_2018/simulated_data_combined_decoder.py:51, 283-299. *)
Definition replay (s : script) (cmd : text) : option (text * option namespace) :=
  match words cmd with
  | p :: f :: argv => if text_eqb p (ascii "python") then Some (f, parse_args (s_options s) argv) else None
  | _ => None
  end.
End Cmd.
Arguments VInt {F}.
Arguments VFloat {F}.
Arguments VStr {F}.
Arguments get {F}.
Arguments positive {F}.
