(** The text of a saved model: json.dump(..., indent=4, sort_keys=True) as called by BufferModel.save (inference/statistical_models.py:290-296)
    and scripts/train_estimator.py:63-64, and json.load as called by BufferModel.load (inference/statistical_models.py:299-301) and
    runs/HC_eilat_July_2018/simulated_data_pretrained_model.py:71-72, on the file on the disk. *)
From Coq Require Import String Ascii List ZArith NArith Bool.
From Verif.Model Require Import Py Float Struct ShipLog StatModels.
From Verif.Model Require Cmd.
Import ListNotations.
Local Open Scope N_scope.

(** A text is a list of code points (Model/Cmd.v); [ascii] is Model/ShipLog.v's. *)
Notation text := Cmd.text.

(** What json.load gives, and what json.dump is given once the default hook has replaced the objects. See inference/statistical_models.py:299-319. *)
Inductive jdoc (A : Type) :=
| TNull | TBool (b : bool) | TInt (z : Z) | TFloat (x : A) | TStr (s : text) | TArr (l : list (jdoc A)) | TObj (l : list (text * jdoc A)).
Arguments TNull {A}. Arguments TBool {A} b. Arguments TInt {A} z. Arguments TFloat {A} x. Arguments TStr {A} s.
Arguments TArr {A} l. Arguments TObj {A} l.

(** The library's ESCAPE_ASCII and ESCAPE_DCT (ensure_ascii is the default). See inference/statistical_models.py:290-296. *)
Definition hexd (n : N) : N := if n <? 10 then 48 + n else 87 + n.
(** Four hex digits; inference/statistical_models.py:290-296. *)
Definition hex4 (n : N) : text := [hexd (n / 4096 mod 16); hexd (n / 256 mod 16); hexd (n / 16 mod 16); hexd (n mod 16)].
(** An escape \\uXXXX; inference/statistical_models.py:290-296. *)
Definition u_escape (n : N) : text :=
  if n <? 65536 then 92 :: 117 :: hex4 n
  else let v := n - 65536 in (92 :: 117 :: hex4 (55296 + v / 1024)) ++ (92 :: 117 :: hex4 (56320 + v mod 1024)).
(** One character of a string; inference/statistical_models.py:290-296. *)
Definition quote_char (n : N) : text :=
  if n =? 34 then [92; 34] else if n =? 92 then [92; 92] else if n =? 10 then [92; 110] else if n =? 13 then [92; 114]
  else if n =? 9 then [92; 116] else if n =? 12 then [92; 102] else if n =? 8 then [92; 98]
  else if (32 <=? n) && (n <=? 126) then [n] else u_escape n.
(** A string; inference/statistical_models.py:290-296. *)
Definition quote (s : text) : text := 34 :: flat_map quote_char s ++ [34].

(** newline_indent for indent=4. See inference/statistical_models.py:290-296. *)
Definition newline (lvl : nat) : text := 10 :: repeat 32 (4 * lvl).

Section Dump.
Context {A : Type}.
(** float.__repr__, NaN, Infinity and -Infinity (the library). *)
Variable show_float : A -> text.

(** json.encoder._make_iterencode with indent=4, hence the separators ',' and ': '.  The items of an object come in the order in which they
    are written (sort_keys is applied by the caller: Model/StatModels.v, save). See inference/statistical_models.py:290-296. *)
Fixpoint dump (lvl : nat) (d : jdoc A) : text :=
  match d with
  | TNull => ascii "null"
  | TBool b => ascii (if b then "true" else "false")
  | TInt z => Cmd.show_int z
  | TFloat x => show_float x
  | TStr s => quote s
  | TArr [] => ascii "[]"
  | TArr (d :: l) =>
      ascii "[" ++ newline (S lvl) ++ dump (S lvl) d ++
      (fix rest l := match l with [] => [] | d :: l => ascii "," ++ newline (S lvl) ++ dump (S lvl) d ++ rest l end) l ++
      newline lvl ++ ascii "]"
  | TObj [] => ascii "{}"
  | TObj ((k, d) :: l) =>
      ascii "{" ++ newline (S lvl) ++ quote k ++ ascii ": " ++ dump (S lvl) d ++
      (fix rest l := match l with
                     | [] => []
                     | (k, d) :: l => ascii "," ++ newline (S lvl) ++ quote k ++ ascii ": " ++ dump (S lvl) d ++ rest l
                     end) l ++
      newline lvl ++ ascii "}"
  end.
(** json.dumps; inference/statistical_models.py:290-296. *)
Definition dumps (d : jdoc A) : text := dump 0 d.
End Dump.

(** json.JSONDecodeError is JBad; JFuel never happens (loads_total in Proofs/JsonP.v).  Simplified: RecursionError on deep documents is not
    modelled. See inference/statistical_models.py:299-319. *)
Inductive jres (X : Type) := JOk (x : X) | JBad | JFuel.
Arguments JOk {X} x. Arguments JBad {X}. Arguments JFuel {X}.
(** Sequencing; inference/statistical_models.py:299-319. *)
Definition jbind {X Y} (r : jres X) (f : X -> jres Y) : jres Y := match r with JOk x => f x | JBad => JBad | JFuel => JFuel end.

(** WHITESPACE = [ \t\n\r]*. See inference/statistical_models.py:299-319. *)
Definition is_ws (c : N) : bool := (c =? 32) || (c =? 9) || (c =? 10) || (c =? 13).
(** Spaces are skipped; inference/statistical_models.py:299-319. *)
Fixpoint skip_ws (t : text) : text := match t with c :: r => if is_ws c then skip_ws r else t | [] => [] end.

(** The library's scanstring, after the opening quote, strict. See inference/statistical_models.py:299-319. *)
Definition unhex (c : N) : option N :=
  if (48 <=? c) && (c <=? 57) then Some (c - 48) else if (97 <=? c) && (c <=? 102) then Some (c - 87)
  else if (65 <=? c) && (c <=? 70) then Some (c - 55) else None.
(** Four hex digits; inference/statistical_models.py:299-319. *)
Definition unhex4 (a b c d : N) : option N :=
  match unhex a, unhex b, unhex c, unhex d with
  | Some a, Some b, Some c, Some d => Some (4096 * a + 256 * b + 16 * c + d)
  | _, _, _, _ => None
  end.
(** A high surrogate; inference/statistical_models.py:299-319. *)
Definition is_high (n : N) : bool := (55296 <=? n) && (n <=? 56319).
(** A low surrogate; inference/statistical_models.py:299-319. *)
Definition is_low (n : N) : bool := (56320 <=? n) && (n <=? 57343).
(** A character after a backslash; inference/statistical_models.py:299-319. *)
Definition unescape (e : N) : option N :=
  if (e =? 34) || (e =? 92) || (e =? 47) then Some e
  else if e =? 98 then Some 8 else if e =? 102 then Some 12 else if e =? 110 then Some 10
  else if e =? 114 then Some 13 else if e =? 116 then Some 9 else None.
(** A character added to what was read; inference/statistical_models.py:299-319. *)
Definition put (c : N) (r : jres (text * text)) : jres (text * text) := jbind r (fun x => JOk (c :: fst x, snd x)).
(** The characters of a string; inference/statistical_models.py:299-319. *)
Fixpoint scan (t : text) : jres (text * text) :=
  match t with
  | [] => JBad
  | c :: r =>
      if c =? 34 then JOk ([], r)
      else if c <? 32 then JBad
      else if c =? 92 then
        match r with
        | [] => JBad
        | e :: r1 =>
            if e =? 117 then
              match r1 with
              | a :: b :: c :: d :: r2 =>
                  match unhex4 a b c d with
                  | None => JBad
                  | Some hi =>
                      match r2 with
                      | x :: y :: a :: b :: c :: d :: r3 =>
                          if (x =? 92) && (y =? 117) && is_high hi then
                            match unhex4 a b c d with
                            | Some lo => if is_low lo then put (65536 + 1024 * (hi - 55296) + (lo - 56320)) (scan r3) else put hi (scan r2)
                            | None => put hi (scan r2)
                            end
                          else put hi (scan r2)
                      | _ => put hi (scan r2)
                      end
                  end
              | _ => JBad
              end
            else match unescape e with Some k => put k (scan r1) | None => JBad end
        end
      else put c (scan r)
  end.

(** NUMBER_RE = (-?(?:0|[1-9]\d* ))(\.\d+)?([eE][-+]?\d+)? with ASCII digits, as in the C scanner: the token, whether it is an integer, and
    what follows. See inference/statistical_models.py:299-319. *)
Fixpoint span_digits (t : text) : text * text :=
  match t with
  | c :: r => if is_digit c then let '(a, b) := span_digits r in (c :: a, b) else ([], t)
  | [] => ([], [])
  end.
(** An optional minus; inference/statistical_models.py:299-319. *)
Definition take_sign (t : text) : text * text := match t with c :: r => if c =? 45 then ([c], r) else ([], t) | [] => ([], []) end.
(** The integer part; inference/statistical_models.py:299-319. *)
Definition take_int (t : text) : text * text := match t with c :: r => if c =? 48 then ([c], r) else span_digits t | [] => ([], []) end.
(** The fraction; inference/statistical_models.py:299-319. *)
Definition take_frac (t : text) : text * text :=
  match t with
  | c :: r => if c =? 46 then let '(ds, r') := span_digits r in match ds with [] => ([], t) | _ => (c :: ds, r') end else ([], t)
  | [] => ([], [])
  end.
(** The sign of an exponent; inference/statistical_models.py:299-319. *)
Definition take_exp_sign (t : text) : text * text := match t with c :: r => if (c =? 45) || (c =? 43) then ([c], r) else ([], t) | [] => ([], []) end.
(** The exponent; inference/statistical_models.py:299-319. *)
Definition take_exp (t : text) : text * text :=
  match t with
  | c :: r =>
      if (c =? 101) || (c =? 69) then
        let '(sg, r1) := take_exp_sign r in
        let '(ds, r2) := span_digits r1 in match ds with [] => ([], t) | _ => (c :: sg ++ ds, r2) end
      else ([], t)
  | [] => ([], [])
  end.
(** A number; inference/statistical_models.py:299-319. *)
Definition number (t : text) : option (bool * text * text) :=
  let '(sg, r) := take_sign t in
  let '(ip, r) := take_int r in
  match ip with
  | [] => None
  | _ => let '(fp, r) := take_frac r in
         let '(ep, r) := take_exp r in
         Some (match fp, ep with [], [] => true | _, _ => false end, sg ++ ip ++ fp ++ ep, r)
  end.

(** text.startswith. See inference/statistical_models.py:299-319. *)
Fixpoint after_prefix (p t : text) : option text :=
  match p, t with
  | [], _ => Some t
  | a :: p, b :: t => if a =? b then after_prefix p t else None
  | _, [] => None
  end.

Section Load.
Context {A : Type}.
(** float(token), and float('nan'), float('inf'), float('-inf') (the library). *)
Variable read_float : text -> A.

(** dict(pairs). See inference/statistical_models.py:299-319. *)
Definition dict_of (l : list (text * jdoc A)) : list (text * jdoc A) :=
  fold_left (fun d kv => dict_set Cmd.text_eqb d (fst kv) (snd kv)) l [].

(** null, true and false; inference/statistical_models.py:299-319. *)
Definition literal (t : text) : option (jdoc A * text) :=
  match after_prefix (ascii "null") t with Some r => Some (TNull, r) | None =>
  match after_prefix (ascii "true") t with Some r => Some (TBool true, r) | None =>
  match after_prefix (ascii "false") t with Some r => Some (TBool false, r) | None =>
  match after_prefix (ascii "NaN") t with Some r => Some (TFloat (read_float (ascii "NaN")), r) | None =>
  match after_prefix (ascii "Infinity") t with Some r => Some (TFloat (read_float (ascii "Infinity")), r) | None =>
  match after_prefix (ascii "-Infinity") t with Some r => Some (TFloat (read_float (ascii "-Infinity")), r) | None => None
  end end end end end end.
(** Anything but arrays and objects; inference/statistical_models.py:299-319. *)
Definition scalar (t : text) : jres (jdoc A * text) :=
  match literal t with
  | Some x => JOk x
  | None =>
      match number t with
      | Some (true, tok, r) => match py_int tok with Ok z => JOk (TInt z, r) | Err _ => JBad end
      | Some (false, tok, r) => JOk (TFloat (read_float tok), r)
      | None => JBad
      end
  end.

(** scan_once; elements and members are the loops of JSONArray and JSONObject, at the first character that is no white space.
    See inference/statistical_models.py:299-319. *)
Fixpoint value (fuel : nat) (t : text) : jres (jdoc A * text) :=
  match fuel with
  | O => JFuel
  | S f =>
      match t with
      | [] => JBad
      | c :: r =>
          if c =? 34 then jbind (scan r) (fun x => JOk (TStr (fst x), snd x))
          else if c =? 123 then
            match skip_ws r with
            | c' :: r' => if c' =? 125 then JOk (TObj [], r') else jbind (members f (c' :: r')) (fun x => JOk (TObj (dict_of (fst x)), snd x))
            | [] => JBad
            end
          else if c =? 91 then
            match skip_ws r with
            | c' :: r' => if c' =? 93 then JOk (TArr [], r') else jbind (elements f (c' :: r')) (fun x => JOk (TArr (fst x), snd x))
            | [] => JBad
            end
          else scalar t
      end
  end
(** The elements of an array; inference/statistical_models.py:299-319. *)
with elements (fuel : nat) (t : text) : jres (list (jdoc A) * text) :=
  match fuel with
  | O => JFuel
  | S f =>
      jbind (value f t) (fun x =>
      match skip_ws (snd x) with
      | c :: r =>
          if c =? 93 then JOk ([fst x], r)
          else if c =? 44 then jbind (elements f (skip_ws r)) (fun y => JOk (fst x :: fst y, snd y))
          else JBad
      | [] => JBad
      end)
  end
(** The members of an object; inference/statistical_models.py:299-319. *)
with members (fuel : nat) (t : text) : jres (list (text * jdoc A) * text) :=
  match fuel with
  | O => JFuel
  | S f =>
      match t with
      | q :: r =>
          if q =? 34 then
            jbind (scan r) (fun k =>
            match skip_ws (snd k) with
            | c :: r =>
                if c =? 58 then
                  jbind (value f (skip_ws r)) (fun x =>
                  match skip_ws (snd x) with
                  | c :: r =>
                      if c =? 125 then JOk ([(fst k, fst x)], r)
                      else if c =? 44 then jbind (members f (skip_ws r)) (fun y => JOk ((fst k, fst x) :: fst y, snd y))
                      else JBad
                  | [] => JBad
                  end)
                else JBad
            | [] => JBad
            end)
          else JBad
      | [] => JBad
      end
  end.

(** json.loads: a byte order mark is refused, then the value, then nothing but white space. See inference/statistical_models.py:299-319. *)
Definition loads (t : text) : jres (jdoc A) :=
  match t with
  | 65279%N :: _ => JBad
  | _ => jbind (value (2 * length t + 2) (skip_ws t)) (fun x => match skip_ws (snd x) with [] => JOk (fst x) | _ => JBad end)
  end.
End Load.

(** The objects of a model document, as the default hook writes them (bytes.hex, inference/statistical_models.py:296). *)
Section Doc.
Variable FO : fops.
(** Characters read back; inference/statistical_models.py:299-319. *)
Definition uncodes (t : text) : string := string_of_list_ascii (map ascii_of_N t).
(** A sample; inference/statistical_models.py:290-296. *)
Definition doc_sample (v : pyval) : jdoc (F FO) :=
  match v with VInt z => TInt z | VF32 p => TFloat (f32val FO p) | VBytes b => TStr (ascii (hex_of b)) end.
(** A JSON value as a document; inference/statistical_models.py:290-296. *)
Fixpoint doc_of (j : json FO) : jdoc (F FO) :=
  match j with
  | JNull _ => TNull
  | JBool _ b => TBool b
  | JInt _ z => TInt z
  | JFloat _ x => TFloat x
  | JSample _ v => doc_sample v
  | JStr _ s => TStr (ascii s)
  | JArr _ l => TArr (map doc_of l)
  | JObj _ l => TObj (map (fun kv => (ascii (fst kv), doc_of (snd kv))) l)
  end.

(** The document that BufferModel.load goes through (Model/StatModels.v), from what json.load gives: the items of a list "samples" are the
    samples of a field, ints and floats (a float is kept as the pattern of the binary32 value it was unpacked from).  Simplified: a sample that is
    neither is a JStr or a JNull, which load refuses like any value that is not a number. *)
Variable f32_of : F FO -> N.
(** A sample read back; inference/statistical_models.py:299-319. *)
Definition undoc_sample (d : jdoc (F FO)) : json FO :=
  match d with
  | TInt z => JSample FO (VInt z)
  | TFloat x => JSample FO (VF32 (f32_of x))
  | TStr s => JStr FO (uncodes s)
  | _ => JNull FO
  end.
(** Samples read back; inference/statistical_models.py:299-319. *)
Definition undoc_samples (d : jdoc (F FO)) (other : json FO) : json FO :=
  match d with TArr l => JArr FO (map undoc_sample l) | _ => other end.
(** A document as a JSON value; inference/statistical_models.py:299-319. *)
Fixpoint undoc (d : jdoc (F FO)) : json FO :=
  match d with
  | TNull => JNull FO
  | TBool b => JBool FO b
  | TInt z => JInt FO z
  | TFloat x => JFloat FO x
  | TStr s => JStr FO (uncodes s)
  | TArr l => JArr FO (map undoc l)
  | TObj l =>
      JObj FO (map (fun kv => (uncodes (fst kv),
                               if Cmd.text_eqb (fst kv) (ascii "samples") then undoc_samples (snd kv) (undoc (snd kv)) else undoc (snd kv))) l)
  end.

Variable show_float : F FO -> text.
Variable read_float : text -> F FO.

(** The file a model is saved in: absent, or its contents. See inference/statistical_models.py:299-319. *)
Inductive file := Absent | Contents (t : text).
(** Where the process stops: before the file is opened, or, the file having been opened (and emptied) for writing, once [k] characters are
    on the disk.  [k] beyond the length of the text is a save that ended. See inference/statistical_models.py:299-319. *)
Inductive stop := BeforeOpen | Written (k : nat).
(** BufferModel.save; inference/statistical_models.py:290-296.  An exception of an _update comes before open. *)
Definition save_file (m : buffer_model FO) (old : file) (s : stop) : file :=
  match save FO m with
  | Err _ => old
  | Ok (_, doc) => match s with BeforeOpen => old | Written k => Contents (firstn k (dumps show_float (doc_of doc))) end
  end.
(** BufferModel.load; inference/statistical_models.py:299-319: FileNotFoundError, JSONDecodeError, or what load makes of the document. *)
Inductive loaded := NoFile | Undecodable | Loaded (r : res (buffer_model FO)).
(** load, from the text of the file; inference/statistical_models.py:299-319. *)
Definition load_file (f : file) : loaded :=
  match f with
  | Absent => NoFile
  | Contents t => match loads read_float t with JOk d => Loaded (load FO (undoc d)) | _ => Undecodable end
  end.
End Doc.
