(** Specification vocabulary for the statistical models. *)
From Coq Require Import String Ascii List NArith ZArith Bool Reals.
From Verif.Model Require Import Py Float Dialect Struct Mavlink Segmentation StatModels.
From Verif.Spec Require Import Bytes Bits Header Frame Segment Describe RealOps.
Import ListNotations.

(** The last [n] elements of a list. *)
Definition last_n {A} (n : nat) (l : list A) : list A := skipn (length l - n) l.

(** What a window keeps: everything without a window, the last [w] elements for a positive window; window 0 keeps everything. *)
Definition windowed {A} (w : option Z) (l : list A) : list A :=
  match w with None => l | Some z => if (z <=? 0)%Z then l else last_n (Z.to_nat z) l end.

(** A window as the API means it. *)
Definition window_ok (w : option Z) : Prop := match w with None => True | Some z => (0 <= z)%Z end.

(** The samples handed over by one call of add_sample. *)
Definition arg_samples (s : sample_arg) : list pyval := match s with SOne v => [v] | SList l => l end.

(** Integer types of fields. *)
Definition integer_type (ty : string) (sz : nat) : Prop := exists ch, ctype ty sz ch /\ ty <> "float"%string /\ ty <> "char"%string.

(** Operations on a FieldModel: additions and reads. *)
Inductive fm_event := EAdd (s : sample_arg) | EMean | EStd | EClassify (v : pyval) | EBits.
Definition added (h : list fm_event) : list pyval := flat_map (fun e => match e with EAdd s => arg_samples s | _ => [] end) h.

Section Run.
Variable FO : fops.
Variable pack : F FO -> res N.
Variable erf : F FO -> F FO.

(** The object after an operation; a read that raises leaves it unchanged. *)
Definition fm_event_step (m : field_model FO) (e : fm_event) : field_model FO :=
  match e with
  | EAdd s => fm_add_sample FO m s
  | EMean => match fm_get_mean FO m with Ok (m, _) => m | Err _ => m end
  | EStd => match fm_get_std FO m with Ok (m, _) => m | Err _ => m end
  | EClassify v => match fm_classify_value FO erf m v with Ok (m, _) => m | Err _ => m end
  | EBits => match fm_bitwise_mean FO pack m with Ok (m, _) => m | Err _ => m end
  end.
Definition fm_run (m : field_model FO) (h : list fm_event) : field_model FO := fold_left fm_event_step h m.

(** What a read returns, without the new state of the object. *)
Definition value_of {A B} (r : res (A * B)) : res B := match r with Ok (_, v) => Ok v | Err e => Err e end.

(** The statistics of a list of samples: (0, 0) when there are none, else the fit. *)
Definition stats_of (l : list pyval) : res (F FO * F FO) :=
  match l with [] => Ok (fz FO 0, fz FO 0) | _ => norm_fit FO l end.
End Run.

(** One field of a buffer: a header byte or a payload field of a message. *)
Record slot := Slot { s_name : string; s_type : string; s_first : nat; s_width : nat }.

(** The fields of a message of class [c] that starts at byte [k], in transmission order. *)
Definition msg_slots (k : nat) (c : msg_class) : list slot :=
  [Slot "magic" "uint8_t" k 1; Slot (mc_name c ++ "_mlen") "uint8_t" (k + 1) 1; Slot "seq" "uint8_t" (k + 2) 1;
   Slot "srcSystem" "uint8_t" (k + 3) 1; Slot (mc_name c ++ "_srcComponent") "uint8_t" (k + 4) 1;
   Slot (mc_name c ++ "_msgId") "uint8_t" (k + 5) 1] ++
  map (fun j => let i := field_at_wire c j in Slot (full_name c i) (f_type c i) (k + 6 + f_offset c i) (f_width c i))
      (seq 0 (f_count c)).

(** [sl] is the list of all fields of a structure. *)
Inductive layout : structure -> list slot -> Prop :=
| lay_nil : layout [] []
| lay_cons k i c s sl : is_msg i c -> layout s sl -> layout ((k, i) :: s) (msg_slots k c ++ sl).

(** A message of a structure that lies, without its checksum, within [n] bytes and has no arrays. *)
Definition plain_in (n : nat) (ki : nat * N) : Prop :=
  exists c, is_msg (snd ki) c /\ no_arrays c /\ fst ki + 6 + wire_size c <= n.

(** Messages that do not overlap (checksums aside). *)
Definition apart (ki kj : nat * N) : Prop :=
  forall c d, is_msg (snd ki) c -> is_msg (snd kj) d ->
    fst ki + 6 + wire_size c <= fst kj \/ fst kj + 6 + wire_size d <= fst ki.
Definition disjoint_structure (s : structure) : Prop := ForallOrdPairs apart s.

(** Bit [p] belongs to the field. *)
Definition bit_in (sl : slot) (p : nat) : Prop := 8 * s_first sl <= p < 8 * (s_first sl + s_width sl).

(** The owner of a bit: the last field that covers it, -1 if none does. *)
Definition owner (sl : list slot) (p : nat) (q : Z) : Prop :=
  (q = (-1)%Z /\ forall x, In x sl -> ~ bit_in x p) \/
  (exists pre x post, sl = pre ++ x :: post /\ q = Z.of_nat (length pre) /\ bit_in x p /\ forall y, In y post -> ~ bit_in y p).

(** The value of a field in a buffer. *)
Definition slot_value (b : bytes) (x : slot) : pyval := c_scalar (s_type x) (firstn (s_width x) (skipn (s_first x) b)).

(** A buffer argument that holds the bytes [b]: the bytes, or their bits, most significant first. *)
Inductive holds : buf_arg -> bytes -> Prop :=
| h_bytes b : is_bytes b -> holds (BBytes b) b
| h_bits l b : is_bytes b -> length l = 8 * length b -> (forall p, p < 8 * length b -> nth p l false = bit_of b p) -> holds (BBits l) b.

(** Operations on a BufferModel. *)
Inductive bm_event :=
| VAdd (a : buf_arg) (s : structure) | VPredict (a : buf_arg) (s : structure)
| VMean (idx : list Z) (n : nat) (s : structure) | VSave | VDescribe (d : list descr_item).

Section BRun.
Variable FO : fops.
Variable pack : F FO -> res N.
Variable erf : F FO -> F FO.

(** The object after an operation.  A read that raises is taken to leave the object as it was (it may have refreshed the
    statistics of some fields, which is not observable). *)
Definition bm_event_step (m : buffer_model FO) (e : bm_event) : buffer_model FO :=
  match e with
  | VAdd a s => fst (add_buffer FO m a s)
  | VPredict a s => match predict FO erf m a s with Ok (m, _, _, _) => m | Err _ => m end
  | VMean idx n s => match bitwise_model_mean FO pack m idx n s with Ok (m, _) => m | Err _ => m end
  | VSave => match save FO m with Ok (m, _) => m | Err _ => m end
  | VDescribe d => bm_set_description FO m d
  end.
Definition bm_run (m : buffer_model FO) (h : list bm_event) : buffer_model FO := fold_left bm_event_step h m.
End BRun.

(** A field of a buffer with its value and type. *)
Definition slot_sample (b : bytes) (x : slot) : string * (pyval * string) := (s_name x, (slot_value b x, s_type x)).

(** What an operation adds: the fields of an accepted buffer, None if it was rejected or is no addition. *)
Inductive outcome : bm_event -> option (list (string * (pyval * string))) -> Prop :=
| oc_accepted a b s sl : holds a b -> Forall (plain_in (length b)) s -> layout s sl -> outcome (VAdd a s) (Some (map (slot_sample b) sl))
| oc_rejected a b s : holds a b -> ~ Forall (plain_in (length b)) s -> outcome (VAdd a s) None
| oc_no_buffer s : outcome (VAdd BOther s) None
| oc_read e : (forall a s, e <> VAdd a s) -> outcome e None.

(** The fields added, in order; the accepted buffers; the values and the types recorded under a name. *)
Definition recorded (os : list (option (list (string * (pyval * string))))) : list (string * (pyval * string)) :=
  flat_map (fun o => match o with Some l => l | None => [] end) os.
Definition accepted (os : list (option (list (string * (pyval * string))))) : nat :=
  length (filter (fun o => match o with Some _ => true | None => false end) os).
Definition under (nm : string) (l : list (string * (pyval * string))) : list (pyval * string) :=
  map snd (filter (fun x => String.eqb (fst x) nm) l).
Definition values_under (nm : string) (l : list (string * (pyval * string))) : list pyval := map fst (under nm l).

(** The number of buffers a model reports. *)
Definition saturated (w : option Z) (n : nat) : Z := match w with None => Z.of_nat n | Some z => Z.min (Z.of_nat n) z end.

(** The fields that an error at position [e] of an [n] byte buffer damages: none beyond the buffer or outside all fields, else
    the field that owns the bit.  A negative position counts from the end. *)
Definition damage (n : nat) (sl : list slot) (e : Z) (l : list (string * nat)) : Prop :=
  (8 * Z.of_nat n <= e /\ l = [])%Z \/
  exists p, p < 8 * n /\ (e = Z.of_nat p \/ (e = Z.of_nat p - 8 * Z.of_nat n)%Z) /\
    (owner sl p (-1)%Z /\ l = [] \/ exists j x, nth_error sl j = Some x /\ owner sl p (Z.of_nat j) /\ l = [(s_name x, j)]).

(** The real number that a sample is; non-finite floats and bytes are no numbers. *)
Inductive is_number : pyval -> R -> Prop :=
| num_int z : is_number (VInt z) (IZR z)
| num_float p : f32_finite p = true -> is_number (VF32 p) (f32_real p).

(** Mean and population standard deviation. *)
Definition mean_of (xs : list R) : R := (Rsum xs / INR (length xs))%R.
Definition std_of (xs : list R) : R := sqrt (Rsum (map (fun x => (x - mean_of xs) * (x - mean_of xs)) xs) / INR (length xs))%R.

(** What is used of the error function. *)
Definition erf_like (erf : R -> R) : Prop :=
  erf 0%R = 0%R /\ (forall x y, 0 <= x <= y -> erf x <= erf y)%R /\ (forall x, erf x <= 1)%R.

(** The integer that num2bits encodes for a number: negative numbers of unsigned types count as 0. *)
Definition wire_integer (ty : string) (x : R) (z : Z) : Prop :=
  (c_signed ty = false /\ (x < 0)%R /\ z = 0%Z) \/ ((c_signed ty = true \/ (0 <= x)%R) /\ rounds_to x z).

Section Entries.
Variable FO : fops.
Variable pack : F FO -> res N.
Variable erf : F FO -> F FO.

(** [m] is what a new BufferModel with window [w] has become after operations with the outcomes [os]. *)
Definition reachable (w : option Z) (os : list (option (list (string * (pyval * string))))) (m : buffer_model FO) : Prop :=
  exists h, Forall2 outcome h os /\ m = bm_run FO pack erf (bm_init FO [] w) h.

(** What the model says about a value of a field: nothing if it has no such field, else what the field's classify_value says. *)
Definition field_entry (m : buffer_model FO) (nv : string * pyval) : res (option (F FO * F FO)) :=
  match bm_get FO m (fst nv) with
  | None => Ok None
  | Some f => do! r <- value_of (fm_classify_value FO erf f (snd nv)) in Ok (Some r)
  end.

(** The bits of the mean of a field; KeyError if the model has no such field. *)
Definition field_mean_bits (m : buffer_model FO) (x : slot) : res (list bool) :=
  match bm_get FO m (s_name x) with
  | None => Err KeyError
  | Some f => do! mu <- value_of (fm_get_mean FO f) in num2bits FO pack (NNum mu) (s_type x)
  end.
End Entries.

(** The results of predict without the new state of the model. *)
Definition results_of {A B C D} (r : res (A * B * C * D)) : res (B * C * D) := do! x <- r in Ok (snd (fst (fst x)), snd (fst x), snd x).

(** Descriptions as the segmentation writes them: headers, pairs and the mark "crc". *)
Definition written_item (it : descr_item) : Prop :=
  match it with BHeader b => is_bytes b | BStr s => s = "crc"%string | BField _ _ => True end.
Definition written_event (e : bm_event) : Prop := match e with VDescribe d => Forall written_item d | _ => True end.
