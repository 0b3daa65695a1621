(** The example of segmentation and statistical models: scripts/buffer_segmentation_example.py. *)
From Coq Require Import String Ascii List NArith ZArith Bool.
From Verif.Model Require Import Py Float Dialect Struct Mavlink Segmentation StatModels.
Import ListNotations.

(** good_buffer and bad_buffer; scripts/buffer_segmentation_example.py:9-13. *)
Definition good_buffer : bytes :=
  [254; 19; 0; 1; 0; 212; 146; 1; 75; 22; 43; 71; 192; 68; 43; 244; 10; 63; 0; 0; 128; 63; 60; 9; 1; 137; 54; 254; 10; 1; 1; 0; 218;
   146; 1; 75; 22; 90; 12; 62; 16; 1; 100; 208; 245; 254; 44; 2; 2; 0; 33; 209; 255; 74; 22; 18; 63; 151; 17; 179; 34; 210; 20; 0; 0;
   200; 66; 0; 0; 200; 66; 0; 0; 200; 66; 239; 250; 16; 64; 190; 27; 94; 62; 177; 212; 218; 62; 5; 157; 184; 61; 68; 11; 125; 66; 90; 185; 254; 12;
   3; 1; 200; 234; 0; 0; 0; 0; 0; 0; 0; 0; 0; 0; 0; 0; 182; 114]%N.
(** bad_buffer; scripts/buffer_segmentation_example.py:9-13. *)
Definition bad_buffer : bytes := slice good_buffer 0 20 ++ [1%N] ++ skipn 21 good_buffer.

Section Script.
Variable FO : fops.
Variable erf : F FO -> F FO.
Variable text : bytes -> list N.

(** A value of the dictionary of fields as an argument of add_sample: a list is a list of samples (statistical_models.py:54-57).
    Simplified: a str is represented by its code points. *)
Definition sample_of (v : fieldval) : sample_arg := match v with FOne v => SOne v | FMany l => SList l | FText t => SOne (VBytes t) end.

(** The loop over the fields of a buffer; scripts/buffer_segmentation_example.py:20-21 and 51-52.  The model after the loop, also
    when it raised. *)
Fixpoint add_msg_fields (m : buffer_model FO) (fields : list (string * (fieldval * string))) : buffer_model FO * res unit :=
  match fields with
  | [] => (m, Ok tt)
  | (fieldname, vals) :: t => match bm_add_sample FO m fieldname (sample_of (fst vals)) (snd vals) with
                              | Ok m => add_msg_fields m t
                              | Err e => (m, Err e)
                              end
  end.

(** [msg_fields, buffer_description = bs.get_msg_fields(buffer)]; scripts/buffer_segmentation_example.py:18 and 50: two names
    cannot be assigned from an empty dictionary. *)
Definition two_names (r : fields_result) : res (list (string * (fieldval * string)) * list desc_item) :=
  match r with BareDict => Err ValueError | FieldsAndDescription f d => Ok (f, d) end.

(** "One way is to add a whole buffer to the buffer model given a structure"; scripts/buffer_segmentation_example.py:42-45. *)
Fixpoint add_all (m : buffer_model FO) (structure_ : structure) (l : list bytes) : buffer_model FO * res unit :=
  match l with
  | [] => (m, Ok tt)
  | tx :: t => match add_buffer FO m (BBytes tx) structure_ with
               | (m, Ok _) => add_all m structure_ t
               | (m, Err e) => (m, Err e)
               end
  end.
(** The loop over the buffers; scripts/buffer_segmentation_example.py:42-45. *)
Definition train_by_buffers (window : option Z) (hc_bin_data : list bytes) : buffer_model FO * res unit :=
  let m := bm_init FO [] window in
  match (do! b0 <- index hc_bin_data 0 in segment_buffer (decode text) b0) with
  | Err e => (m, Err e)
  | Ok seg => add_all m (snd seg) hc_bin_data
  end.

(** "Another way is to segment first and then add samples to each field model"; scripts/buffer_segmentation_example.py:47-52. *)
Fixpoint by_fields_loop (m : buffer_model FO) (l : list bytes) : buffer_model FO * res unit :=
  match l with
  | [] => (m, Ok tt)
  | tx :: t =>
      match (do! _ <- segment_buffer (decode text) tx in do! r <- get_msg_fields text (decode text) tx in two_names r) with
      | Err e => (m, Err e)
      | Ok (msg_fields, _) => match add_msg_fields m msg_fields with
                              | (m, Ok _) => by_fields_loop m t
                              | (m, Err e) => (m, Err e)
                              end
      end
  end.
(** The loop over the fields; scripts/buffer_segmentation_example.py:47-52. *)
Definition train_by_fields (window : option Z) (hc_bin_data : list bytes) : buffer_model FO * res unit :=
  by_fields_loop (bm_init FO [] window) hc_bin_data.

(** The items of a description as set_buffer_description stores them. See inference/statistical_models.py:168-175. *)
Definition stored_item (d : desc_item) : descr_item :=
  match d with DHeader b => BHeader b | DField n t => BField n t | DCrc => BStr "crc" end.

(** [field_prediction, bitwise_prediction = ...predict(...)]; scripts/buffer_segmentation_example.py:30: two names cannot be
    assigned from a tuple of three. *)
Definition two_of_three {A B C} (_ : A * B * C) : res (A * B) := Err ValueError.

(** The script; scripts/buffer_segmentation_example.py.  The files it writes, in order, with their contents, and how it ends.
    [rest] is everything from line 32 on, given the files written so far. *)
Variable rest : list (string * json FO) -> list (string * json FO) * res unit.
(** All of it; scripts/buffer_segmentation_example.py:1-60. *)
Definition example_script : list (string * json FO) * res unit :=
  match (do! _ <- segment_buffer (decode text) bad_buffer in
         do! seg <- segment_buffer (decode text) good_buffer in
         do! r <- get_msg_fields text (decode text) good_buffer in
         do! fd <- two_names r in
         match add_msg_fields (bm_init FO [] None) (fst fd) with
         | (_, Err e) => Err e
         | (m, Ok _) => do! md <- save FO (bm_set_description FO m (map stored_item (snd fd))) in Ok (snd seg, snd md)
         end) with
  | Err e => ([], Err e)
  | Ok (buffer_structure, doc) =>
      let files := [("test_fields_collection.json"%string, doc)] in
      match (do! m2 <- load FO doc in
             do! r <- predict FO erf m2 (BBits (flat_map (fun x => map (fun k => N.testbit x (N.of_nat k)) [7; 6; 5; 4; 3; 2; 1; 0]) good_buffer)) buffer_structure in
             let '(_, vf, vb, sd) := r in two_of_three (vf, vb, sd)) with
      | Err e => (files, Err e)
      | Ok _ => rest files
      end
  end.
End Script.
