(** Model of inference/statistical_models.py. *)
From Coq Require Import String Ascii List NArith ZArith Bool.
From Verif.Model Require Import Py Float Dialect ProtocolMeta Struct Segmentation.
Import ListNotations.
Local Open Scope string_scope.
Local Open Scope list_scope.

Section Stat.
Variable FO : fops.
Notation F := (F FO).

(** struct.pack('<f', x): the nearest binary32 pattern, or OverflowError (external). *)
Variable f32_pack : F -> res N.
(** scipy.special.erf (external). *)
Variable erf : F -> F.

(** The arguments of num2bits: a number, a str or bytes object of length one (its code), anything of another length. See inference/statistical_models.py:14-26. *)
Inductive numarg := NNum (x : F) | NChr (c : N) | NStr.

(** num2bits; inference/statistical_models.py:14-26.  ord(number) and ord of a longer string are TypeErrors; after ord the
    '<c' format gets an int, which is a struct.error.  str >= 0 and round(str) are TypeErrors, struct.pack('<f', str) a
    struct.error. *)
Definition num2bits (num : numarg) (field_type : string) : res (list bool) :=
  let fmt := match dict_get String.eqb format_strings field_type with Some f => Ok f | None => Err KeyError end in
  do! b <-
    (if String.eqb field_type "char" then
       match num with NChr c => do! f <- fmt in struct_pack f [VInt (Z.of_N c)] | _ => Err TypeError end
     else if str_contains "uint" field_type then
       match num with
       | NNum x => do! z <- (if fle FO (fz FO 0) x then fround FO x else Ok 0%Z) in do! f <- fmt in struct_pack f [VInt z]
       | _ => Err TypeError
       end
     else if str_contains "int" field_type then
       match num with NNum x => do! z <- fround FO x in do! f <- fmt in struct_pack f [VInt z] | _ => Err TypeError end
     else if negb (String.eqb field_type "float") then Err ValueError
     else do! f <- fmt in
       match num with NNum x => do! p <- f32_pack x in struct_pack f [VF32 p] | _ => Err StructError end) in
  Ok (bytes_bits b).

(** FieldModel objects; inference/statistical_models.py:29-51. *)
Record field_model := FM {
  fm_name : string; fm_type : string; fm_len : nat; fm_mean : F; fm_std : F; fm_samples : list pyval;
  fm_up2date : bool; fm_window : option Z; fm_int : bool; fm_signed : bool }.

(** FieldModel.__init__; inference/statistical_models.py:30-51. *)
Definition fm_init (name field_type : string) (window : option Z) : res field_model :=
  match dict_get String.eqb field_lengths field_type with
  | None => Err ValueError
  | Some len =>
      let mk i s := Ok (FM name field_type len (fz FO 0) (fz FO 0) [] false window i s) in
      if (str_contains "uint" field_type || str_contains "char" field_type)%bool then mk true false
      else if str_contains "int" field_type then mk true true
      else if str_contains "float" field_type then mk false true
      else Err ValueError
  end.

(** The argument of add_sample: one sample or a Python list of samples. See inference/statistical_models.py:53-60. *)
Inductive sample_arg := SOne (v : pyval) | SList (l : list pyval).

(** FieldModel.add_sample; inference/statistical_models.py:53-60. *)
Definition fm_add_sample (m : field_model) (s : sample_arg) : field_model :=
  let samples := match s with SList l => fm_samples m ++ l | SOne v => fm_samples m ++ [v] end in
  let samples := match fm_window m with
                 | Some w => if (w <? Z.of_nat (length samples))%Z then slice_from samples (- w) else samples
                 | None => samples
                 end in
  FM (fm_name m) (fm_type m) (fm_len m) (fm_mean m) (fm_std m) samples false (fm_window m) (fm_int m) (fm_signed m).

(** The number that a sample is in float arithmetic.  scipy's norm.fit raises ValueError on a non-finite sample and
    TypeError on bytes. See inference/statistical_models.py:74-77. *)
Definition sample_num (v : pyval) : res F :=
  match v with
  | VInt z => Ok (fz FO z)
  | VF32 p => if f32_finite p then Ok (f32val FO p) else Err ValueError
  | VBytes _ => Err TypeError
  end.

(** scipy.stats.norm.fit (not in /repo; maximum likelihood: mean and population standard deviation). See inference/statistical_models.py:74-77. *)
Definition norm_fit (l : list pyval) : res (F * F) :=
  do! xs <- map_res sample_num l in
  let loc := fmean FO xs in
  let scale := fsqrt FO (fmean FO (map (fun x => let d := fsub FO x loc in fmul FO d d) xs)) in
  Ok (loc, scale).

(** FieldModel._update; inference/statistical_models.py:74-77. *)
Definition fm_update (m : field_model) : res field_model :=
  match fm_samples m with
  | [] => Ok m
  | _ => do! ms <- norm_fit (fm_samples m) in
         Ok (FM (fm_name m) (fm_type m) (fm_len m) (fst ms) (snd ms) (fm_samples m) true (fm_window m) (fm_int m) (fm_signed m))
  end.

(** [if not self._up2date: self._update()]. See inference/statistical_models.py:62-72. *)
Definition fm_refresh (m : field_model) : res field_model := if negb (fm_up2date m) then fm_update m else Ok m.

(** FieldModel.mean, FieldModel.std; inference/statistical_models.py:62-72.  The object after the read and the value. *)
Definition fm_get_mean (m : field_model) : res (field_model * F) := do! m <- fm_refresh m in Ok (m, fm_mean m).
(** std; inference/statistical_models.py:68-72. *)
Definition fm_get_std (m : field_model) : res (field_model * F) := do! m <- fm_refresh m in Ok (m, fm_std m).

(** FieldModel.classify_value; inference/statistical_models.py:89-96.  bytes == number is False, number - bytes is a
    TypeError.  Simplified: a non-finite float value (nan or inf) is treated as the number of its bit pattern. *)
Definition value_num (v : pyval) : option F :=
  match v with VInt z => Some (fz FO z) | VF32 p => Some (f32val FO p) | VBytes _ => None end.
(** classify_value; inference/statistical_models.py:89-96. *)
Definition fm_classify_value (m : field_model) (value : pyval) : res (field_model * (F * F)) :=
  do! m <- fm_refresh m in
  if fle FO (fm_std m) (fz FO 0)
  then Ok (m, if match value_num value with Some x => feq FO x (fm_mean m) | None => false end
              then (fz FO 1, fz FO 0) else (fz FO 0, fz FO 0))
  else match value_num value with
       | None => Err TypeError
       | Some x =>
           let d := fdiv FO (fabs FO (fsub FO (fm_mean m) x)) (fm_std m) in
           Ok (m, (fsub FO (fz FO 1) (erf (fdiv FO d (fsqrt FO (fz FO 2)))), fm_std m))
       end.

(** FieldModel.model_size; inference/statistical_models.py:127-129. *)
Definition fm_model_size (m : field_model) : nat := length (fm_samples m).

(** FieldModel.bitwise_mean; inference/statistical_models.py:131-134. *)
Definition fm_bitwise_mean (m : field_model) : res (field_model * list bool) :=
  do! m <- fm_refresh m in do! b <- num2bits (NNum (fm_mean m)) (fm_type m) in Ok (m, b).

(** An item of a buffer description: a header (bytes), a string, or a pair field name / type.  Simplified: Python tuples and
    lists are not distinguished. See inference/statistical_models.py:137-143. *)
Inductive descr_item := BHeader (b : bytes) | BStr (s : string) | BField (name type : string).

(** BufferModel objects; inference/statistical_models.py:137-143. *)
Record buffer_model := BM {
  bm_ordered : option (list string); bm_descr : option (list descr_item); bm_models : list (string * field_model);
  bm_window : option Z; bm_size : Z }.

(** BufferModel.__init__; inference/statistical_models.py:138-143. *)
Definition bm_init (models : list (string * field_model)) (window : option Z) : buffer_model := BM None None models window 0.

(** self.models.get(name); inference/statistical_models.py:145-151. *)
Definition bm_get (m : buffer_model) (name : string) : option field_model := dict_get String.eqb (bm_models m) name.
(** self.models[name] = ...; inference/statistical_models.py:145-154. *)
Definition bm_set (m : buffer_model) (name : string) (f : field_model) : buffer_model :=
  BM (bm_ordered m) (bm_descr m) (dict_set String.eqb (bm_models m) name f) (bm_window m) (bm_size m).

(** BufferModel.add_sample; inference/statistical_models.py:145-148. *)
Definition bm_add_sample (m : buffer_model) (name : string) (s : sample_arg) (field_type : string) : res buffer_model :=
  do! m <- match bm_get m name with
           | Some _ => Ok m
           | None => do! f <- fm_init name field_type (bm_window m) in Ok (bm_set m name f)
           end in
  match bm_get m name with
  | Some f => Ok (bm_set m name (fm_add_sample f s))
  | None => Err KeyError
  end.

(** BufferModel.set_buffer_description; inference/statistical_models.py:168-175. *)
Definition bm_set_description (m : buffer_model) (d : list descr_item) : buffer_model :=
  BM (Some (flat_map (fun it => match it with BField n _ => [n] | _ => [] end) d)) (Some d) (bm_models m) (bm_window m) (bm_size m).

(** The buffer argument of add_buffer, predict and unpack_values: bytes, a numpy array of bits (0/1 elements), or anything
    else. See inference/statistical_models.py:183-186, 215-226. *)
Inductive buf_arg := BBytes (b : bytes) | BBits (l : list bool) | BOther.

(** mavlink_map[msg_id]; KeyError for an unknown id. See inference/statistical_models.py:257-286. *)
Definition map_class (i : N) : res msg_class := match get_class i with Some c => Ok c | None => Err KeyError end.

(** bit_2_val_idx[i:j] = [v] * (j - i): numpy raises ValueError when the slice is shorter than the list. See inference/statistical_models.py:280-285. *)
Definition assign_slice (l : list Z) (i j : nat) (v : Z) : res (list Z) :=
  if Nat.leb j (length l) then Ok (fill l i j v) else Err ValueError.

(** The characters of a string. See inference/statistical_models.py:257-286. *)
Fixpoint chars (s : string) : list ascii := match s with EmptyString => [] | String c t => c :: chars t end.

(** The loop over the payload fields of one message; inference/statistical_models.py:280-285.  A character without an entry
    in inv_format_strings gives None * 8, a TypeError.  State: bit map, field index, start bit. *)
Fixpoint map_fields (cs : list ascii) (st : list Z * nat * nat) : res (list Z * nat * nat) :=
  match cs with
  | [] => Ok st
  | c :: t =>
      let '(bits, field_idx, start) := st in
      do! len <- match dict_get Ascii.eqb inv_format_strings c with
                 | Some ty => match dict_get String.eqb field_lengths ty with Some n => Ok (n * 8) | None => Err TypeError end
                 | None => Err TypeError
                 end in
      do! bits <- assign_slice bits start (start + len) (Z.of_nat field_idx) in
      map_fields t (bits, S field_idx, start + len)
  end.

(** The loop over the header bytes of one message; inference/statistical_models.py:271-276. *)
Fixpoint map_header (n : nat) (st : list Z * nat * nat) : res (list Z * nat * nat) :=
  match n with
  | O => Ok st
  | S n' =>
      let '(bits, field_idx, start) := st in
      do! bits <- assign_slice bits start (start + 8) (Z.of_nat field_idx) in
      map_header n' (bits, S field_idx, start + 8)
  end.

(** One iteration of the loop of unpack_structure; inference/statistical_models.py:257-286.  State: bit map, names, types,
    field index. *)
Definition unpack_step (bitwise : bool) (st : list Z * list string * list string * nat) (kv : nat * N)
  : res (list Z * list string * list string * nat) :=
  let '(bits, names, types, field_idx) := st in
  let '(byte_idx, msg_id) := kv in
  do! c <- map_class msg_id in
  let nm := mc_name c in
  let names := (names ++ ["magic"; (nm ++ "_mlen")%string; "seq"; "srcSystem"; (nm ++ "_srcComponent")%string; (nm ++ "_msgId")%string]) in
  let types := (types ++ ["uint8_t"; "uint8_t"; "uint8_t"; "uint8_t"; "uint8_t"; "uint8_t"]) in
  let names := (names ++ map (fun n => (nm ++ "_" ++ n)%string) (mc_ordered c)) in
  do! tys <- map_res (fun n => do! i <- str_index (mc_fieldnames c) n in index (mc_fieldtypes c) i) (mc_ordered c) in
  let types := (types ++ tys) in
  if bitwise then
    do! st <- map_header header_len (bits, field_idx, byte_idx * 8) in
    do! st <- map_fields (chars (String.substring 1 (String.length (mc_unpacker c) - 1) (mc_unpacker c)))
                         (fst st, (byte_idx + header_len) * 8) in
    Ok (fst (fst st), names, types, snd (fst st))
  else Ok (bits, names, types, field_idx).

(** BufferModel.unpack_structure; inference/statistical_models.py:240-288.  Without [bitwise] the bit map is np.empty([]),
    here []. *)
Definition unpack_structure (bitwise : bool) (buffer_len : nat) (s : structure) : res (list Z * list string * list string) :=
  do! r <- fold_res (unpack_step bitwise) s (if bitwise then repeat (-1)%Z (buffer_len * 8) else [], [], [], 0) in
  Ok (fst r).

(** int(''.join(map(str, buffer[i: i + 8])), 2) for i in range(0, len(buffer), 8); inference/statistical_models.py:223-226. *)
Fixpoint pack_bits (fuel : nat) (l : list bool) : bytes :=
  match fuel, l with
  | S f, _ :: _ => bits_value (firstn 8 l) :: pack_bits f (skipn 8 l)
  | _, _ => []
  end.

(** BufferModel.unpack_values; inference/statistical_models.py:215-237. *)
Definition unpack_values (buffer : buf_arg) (s : structure) : res (list pyval) :=
  do! b <- match buffer with
           | BBytes b => Ok b
           | BBits l => Ok (pack_bits (length l) l)
           | BOther => Err ValueError
           end in
  fold_res (fun vals (kv : nat * N) =>
    let '(byte_idx, msg_id) := kv in
    do! h <- struct_unpack "<BBBBBB" (slice b byte_idx (byte_idx + header_len)) in
    do! c <- map_class msg_id in
    do! len <- match payload_length msg_id with Some n => Ok n | None => Err KeyError end in
    do! p <- struct_unpack (mc_unpacker c) (slice b (byte_idx + header_len) (byte_idx + header_len + len)) in
    Ok (vals ++ h ++ p)) s [].

(** len(buffer) for bytes, buffer.size // 8 for an array; inference/statistical_models.py:194-199, 348-353. *)
Definition buf_length (buffer : buf_arg) : res nat :=
  match buffer with
  | BBytes b => Ok (length b)
  | BBits l => Ok (Nat.div (length l) 8)
  | BOther => Err ValueError
  end.

(** Assignment through a boolean mask [map == idx] of one scalar. See inference/statistical_models.py:207-212. *)
Definition mask_set {A} (bits : list Z) (idx : Z) (v : A) (l : list A) : list A :=
  map (fun bx => if Z.eqb (fst bx) idx then v else snd bx) (combine bits l).

(** Loop of predict; inference/statistical_models.py:207-212. *)
Fixpoint predict_loop (bits : list Z) (field_idx : nat) (names : list string) (vals : list pyval)
  (st : buffer_model * list (option (string * F * F)) * list (option F) * list (option F))
  : res (buffer_model * list (option (string * F * F)) * list (option F) * list (option F)) :=
  match names, vals with
  | name :: names', value :: vals' =>
      let '(m, vf, vb, sd) := st in
      do! st <- match bm_get m name with
                | None => Ok st
                | Some f =>
                    do! r <- fm_classify_value f value in
                    let '(f, (val, std)) := r in
                    Ok (bm_set m name f, set_nth vf field_idx (Some (name, val, std)),
                        mask_set bits (Z.of_nat field_idx) (Some val) vb, mask_set bits (Z.of_nat field_idx) (Some std) sd)
                end in
      predict_loop bits (S field_idx) names' vals' st
  | _, _ => Ok st
  end.

(** BufferModel.predict; inference/statistical_models.py:183-212.  nan entries are None.  The object after the call (the
    cached statistics of the field models are refreshed) and the three results. *)
Definition predict (m : buffer_model) (buffer : buf_arg) (s : structure)
  : res (buffer_model * list (option (string * F * F)) * list (option F) * list (option F)) :=
  do! length_ <- buf_length buffer in
  do! u <- unpack_structure true length_ s in
  let '(bits, names, _) := u in
  do! fields <- unpack_values buffer s in
  predict_loop bits 0 names fields
    (m, repeat None (length fields), repeat None (length bits), repeat None (length bits)).

(** Insertion sort, for np.sort. See inference/statistical_models.py:321-341. *)
Fixpoint insert_z (x : Z) (l : list Z) : list Z :=
  match l with [] => [x] | y :: t => if (x <=? y)%Z then x :: l else y :: insert_z x t end.
(** np.unique sorts; inference/statistical_models.py:321-341. *)
Definition sort_z (l : list Z) : list Z := fold_right insert_z [] l.

(** BufferModel.find_damaged_fields; inference/statistical_models.py:321-341.  None when an IndexError was caught. *)
Definition find_damaged_fields (errors : list Z) (s : structure) (buffer_len : nat) : res (option (list (string * nat))) :=
  do! u <- unpack_structure true buffer_len s in
  let '(bits, names, _) := u in
  let names := combine names (seq 0 (length names)) in
  match fold_res (fun acc error =>
          if (error <? Z.of_nat (length bits))%Z then
            do! i <- index_z bits error in
            if (0 <=? i)%Z then do! x <- index_z names i in Ok (acc ++ [x]) else Ok acc
          else Ok acc) (sort_z errors) [] with
  | Err IndexError => Ok None
  | Err e => Err e
  | Ok l => Ok (Some l)
  end.

(** BufferModel.add_buffer; inference/statistical_models.py:343-361.  The object after the call (also when it raised) and
    whether it raised. *)
Fixpoint add_fields (m : buffer_model) (l : list (string * (pyval * string))) : buffer_model * res unit :=
  match l with
  | [] => (m, Ok tt)
  | (name, (v, ty)) :: t => match bm_add_sample m name (SOne v) ty with
                            | Ok m => add_fields m t
                            | Err e => (m, Err e)
                            end
  end.
(** add_buffer; inference/statistical_models.py:343-361. *)
Definition add_buffer (m : buffer_model) (buffer : buf_arg) (s : structure) : buffer_model * res unit :=
  match (do! n <- buf_length buffer in
         do! u <- unpack_structure false n s in
         do! fields <- unpack_values buffer s in Ok (snd (fst u), snd u, fields)) with
  | Err e => (m, Err e)
  | Ok (names, types, fields) =>
      let size := match bm_window m with
                  | None => (bm_size m + 1)%Z
                  | Some w => if (bm_size m <? w)%Z then (bm_size m + 1)%Z else w
                  end in
      add_fields (BM (bm_ordered m) (bm_descr m) (bm_models m) (bm_window m) size)
                 (combine names (combine fields types))
  end.

(** Assignment of an array through a boolean mask; ValueError unless as many values as selected positions. See inference/statistical_models.py:374-376. *)
Fixpoint mask_fill (bits : list Z) (idx : Z) (l vs : list bool) : res (list bool) :=
  match bits, l with
  | b :: bits', x :: l' =>
      if Z.eqb b idx then match vs with
                          | v :: vs' => do! r <- mask_fill bits' idx l' vs' in Ok (v :: r)
                          | [] => Err ValueError
                          end
      else do! r <- mask_fill bits' idx l' vs in Ok (x :: r)
  | _, _ => match vs with [] => Ok [] | _ => Err ValueError end
  end.

(** Loop of bitwise_model_mean; inference/statistical_models.py:374-376. *)
Fixpoint mean_loop (bits : list Z) (field_idx : nat) (names types : list string) (st : buffer_model * list bool)
  : res (buffer_model * list bool) :=
  match names, types with
  | name :: names', ty :: types' =>
      let '(m, mean_values) := st in
      do! f <- match bm_get m name with Some f => Ok f | None => Err KeyError end in
      do! r <- fm_get_mean f in
      let '(f, mean) := r in
      do! b <- num2bits (NNum mean) ty in
      do! mean_values <- mask_fill bits (Z.of_nat field_idx) mean_values b in
      mean_loop bits (S field_idx) names' types' (bm_set m name f, mean_values)
  | _, _ => Ok st
  end.

(** BufferModel.bitwise_model_mean; inference/statistical_models.py:363-377. *)
Definition bitwise_model_mean (m : buffer_model) (bits_idx : list Z) (buffer_len : nat) (s : structure)
  : res (buffer_model * list bool) :=
  do! u <- unpack_structure true buffer_len s in
  let '(bits, names, types) := u in
  do! r <- mean_loop bits 0 names types (m, repeat false (buffer_len * 8)) in
  do! l <- map_res (index_z (snd r)) bits_idx in
  Ok (fst r, l).

(** JSON documents.  The text layer (json.dump / json.load of a document without custom objects) is in JsonText.v; here it is taken
    to return the document that was written (which C109 proves), with the keys of every object sorted (sort_keys=True).  Samples are kept as
    values, floats as elements of F (Python prints floats so that they are read back exactly). See inference/statistical_models.py:290-301. *)
Inductive json :=
| JNull | JBool (b : bool) | JInt (z : Z) | JFloat (x : F) | JSample (v : pyval) | JStr (s : string)
| JArr (l : list json) | JObj (l : list (string * json)).

(** bytes.hex and bytes.fromhex (which also skips ASCII blanks between the bytes; not modelled: hex never writes any).
    ValueError on anything that is not a sequence of pairs of hexadecimal digits. See inference/statistical_models.py:290-296. *)
Definition hex_digit (n : N) : ascii := ascii_of_N (if N.ltb n 10 then 48 + n else 87 + n).
(** bytes.hex(); inference/statistical_models.py:290-296. *)
Fixpoint hex_of (b : bytes) : string :=
  match b with [] => "" | x :: t => String (hex_digit (N.div x 16)) (String (hex_digit (N.modulo x 16)) (hex_of t)) end.
(** The value of a hex digit; inference/statistical_models.py:313-315. *)
Definition hex_val (a : ascii) : option N :=
  let n := N_of_ascii a in
  if (N.leb 48 n && N.leb n 57)%bool then Some (n - 48)%N
  else if (N.leb 97 n && N.leb n 102)%bool then Some (n - 87)%N
  else if (N.leb 65 n && N.leb n 70)%bool then Some (n - 55)%N
  else None.
(** bytes.fromhex; inference/statistical_models.py:313-315. *)
Fixpoint from_hex (s : string) : res bytes :=
  match s with
  | EmptyString => Ok []
  | String a (String b t) =>
      match hex_val a, hex_val b with
      | Some x, Some y => do! r <- from_hex t in Ok ((16 * x + y)%N :: r)
      | _, _ => Err ValueError
      end
  | _ => Err ValueError
  end.

(** sort_keys=True. See inference/statistical_models.py:290-296. *)
Fixpoint insert_key {A} (kv : string * A) (l : list (string * A)) : list (string * A) :=
  match l with
  | [] => [kv]
  | kv' :: t => if String.leb (fst kv) (fst kv') then kv :: l else kv' :: insert_key kv t
  end.
(** All the keys sorted; inference/statistical_models.py:290-296. *)
Definition sort_keys {A} (l : list (string * A)) : list (string * A) := fold_right insert_key [] l.

(** window_size: an int or null; inference/statistical_models.py:290-296, 33-43. *)
Definition json_window (w : option Z) : json := match w with None => JNull | Some z => JInt z end.

(** FieldModel.__dict__ as written by the default hook; inference/statistical_models.py:296, 33-43. *)
Definition json_field (f : field_model) : json :=
  JObj (sort_keys [("name", JStr (fm_name f)); ("field_type", JStr (fm_type f)); ("field_len", JInt (Z.of_nat (fm_len f)));
        ("_mean", JFloat (fm_mean f)); ("_std", JFloat (fm_std f)); ("samples", JArr (map JSample (fm_samples f)));
        ("_up2date", JBool (fm_up2date f)); ("window_size", json_window (fm_window f));
        ("int_type", JBool (fm_int f)); ("signed", JBool (fm_signed f))]).

(** An item of the description; inference/statistical_models.py:290-296. *)
Definition json_descr (it : descr_item) : json :=
  match it with
  | BHeader b => JStr (hex_of b)
  | BStr s => JStr s
  | BField n t => JArr [JStr n; JStr t]
  end.

(** The loop [for model in self._field_models.values(): model._update()]; inference/statistical_models.py:291-292. *)
Definition update_all (l : list (string * field_model)) : res (list (string * field_model)) :=
  map_res (fun kf : string * field_model => do! f <- fm_update (snd kf) in Ok (fst kf, f)) l.

(** BufferModel.save; inference/statistical_models.py:290-296: the object after the call and the document written.  When an
    _update raises, the file is not opened. *)
Definition save (m : buffer_model) : res (buffer_model * json) :=
  do! l <- update_all (bm_models m) in
  Ok (BM (bm_ordered m) (bm_descr m) l (bm_window m) (bm_size m),
      JObj (sort_keys [("field_models", JObj (sort_keys (map (fun kf => (fst kf, json_field (snd kf))) l)));
            ("buffer_description", match bm_descr m with None => JNull | Some d => JArr (map json_descr d) end);
            ("window_size", json_window (bm_window m)); ("model_size", JInt (bm_size m))])).

(** data.get(key) / vals[key] on a JSON object. See inference/statistical_models.py:307-311. *)
Definition jget (k : string) (j : json) : res json :=
  match j with
  | JObj l => match dict_get String.eqb l k with Some v => Ok v | None => Err KeyError end
  | _ => Err TypeError
  end.
(** window_size read back; inference/statistical_models.py:307-311. *)
Definition jwindow (j : json) : res (option Z) :=
  match j with JNull => Ok None | JInt z => Ok (Some z) | _ => Err TypeError end.
(** A string read back; inference/statistical_models.py:307-311. *)
Definition jstr (j : json) : res string := match j with JStr s => Ok s | _ => Err TypeError end.
(** A sample read back; inference/statistical_models.py:307-311. *)
Definition jsample (j : json) : res pyval := match j with JSample v => Ok v | _ => Err TypeError end.

(** One item of the description; inference/statistical_models.py:313-315. *)
Definition load_descr (j : json) : res descr_item :=
  match j with
  | JStr s => if String.eqb s "crc" then Ok (BStr s) else do! b <- from_hex s in Ok (BHeader b)
  | JArr [JStr n; JStr t] => Ok (BField n t)
  | _ => Err TypeError
  end.

(** One field model; inference/statistical_models.py:307-311. *)
Definition load_field (name : string) (vals : json) : res field_model :=
  do! ty <- jget "field_type" vals in do! ty <- jstr ty in
  do! w <- jget "window_size" vals in do! w <- jwindow w in
  do! f <- fm_init name ty w in
  do! s <- jget "samples" vals in
  do! l <- match s with JArr l => map_res jsample l | _ => Err TypeError end in
  fm_update (fm_add_sample f (SList l)).

(** BufferModel.load; inference/statistical_models.py:299-319. *)
Definition load (data : json) : res buffer_model :=
  do! models <- jget "field_models" data in
  do! models <- match models with JObj l => Ok l | _ => Err AttributeError end in
  do! descr <- jget "buffer_description" data in
  do! w <- jget "window_size" data in do! w <- jwindow w in
  do! size <- jget "model_size" data in
  do! size <- match size with JInt z => Ok z | _ => Err TypeError end in
  do! obj <- fold_res (fun obj (kv : string * json) => do! f <- load_field (fst kv) (snd kv) in Ok (bm_set obj (fst kv) f))
               models (bm_init [] None) in
  do! obj <- match descr with
             | JNull => Ok obj
             | JArr l => do! d <- map_res load_descr l in Ok (bm_set_description obj d)
             | _ => Err TypeError
             end in
  Ok (BM (bm_ordered obj) (bm_descr obj) (bm_models obj) w size).
End Stat.

Arguments NNum {FO} x.
Arguments NChr {FO} c.
Arguments NStr {FO}.
