(** Model of the unit tests of the repository and of data_generation/random_test_data_generation.py: a test is a function of the
    values that it draws; it is [true] when no assertion fails and nothing is raised outside of pytest.raises.
    Left out: tests/test_mavlink_decoder.py (all of it is commented out), test_bitstring and test_repr of tests/test_msg_header.py and
    test_str of tests/test_buffer_structure.py (the texts of Bits, bytes and dict belong to the libraries), and the isinstance
    assertions on numpy arrays. *)
From Coq Require Import String Ascii List NArith ZArith Bool.
From Verif.Model Require Import Py Dialect ProtocolMeta BitOps MsgHeader Struct Mavlink Segmentation Float InfoTheory DecoderBase.
Import ListNotations.
Local Open Scope list_scope.
Local Notation length := List.length.

(** Equality of exception classes; the classes that pytest.raises tells apart, e.g. tests/test_msg_header.py:16-27. *)
Definition exn_eqb (a b : exn) : bool :=
  match a, b with
  | TypeError, TypeError | ValueError, ValueError | HeaderLength, HeaderLength | NonExistentMsdId, NonExistentMsdId
  | NonUint8, NonUint8 | UnsupportedDtype, UnsupportedDtype => true
  | ValueError, CreationError => true        (* a subclass of ValueError *)
  | _, _ => false
  end.
(** with pytest.raises(e): ...; e.g. tests/test_msg_header.py:16-27. *)
Definition raises {A} (e : exn) (r : res A) : bool := match r with Err e' => exn_eqb e e' | Ok _ => false end.
(** An expression and the assertion on its value; e.g. tests/test_bit_operations.py:13-14. *)
Definition check {A} (r : res A) (p : A -> bool) : bool := match r with Ok a => p a | Err _ => false end.
(** assert hamming_distance(a, b) == d; tests/test_bit_operations.py:13-14, 23, 28, 33. *)
Definition distance_is (a b : hd_arg) (d : nat) : bool := check (hamming_distance a b 8) (Nat.eqb d).

(** * tests/test_bit_operations.py *)

(** rand_bitstring: the bits drawn as a text of zeros and ones; data_generation/random_test_data_generation.py:17-21. *)
Definition rand_bitstring (ls : list Z) : list bool := map (fun z => Z.eqb z 1) ls.
(** BitArray.invert(pos) (the library): IndexError beyond the end. See tests/test_bit_operations.py:20-22. *)
Definition invert (b : list bool) (pos : nat) : res (list bool) :=
  if Nat.ltb pos (length b) then Ok (set_nth b pos (negb (nth pos b false))) else Err IndexError.

(** test_same_bitstrings, for the draws of its rounds; tests/test_bit_operations.py:10-14. *)
Definition t_same_bitstrings (rounds : list (list Z)) : bool :=
  forallb (fun ls => let a := rand_bitstring ls in distance_is (HBits a) (HBits a) 0) rounds.
(** test_different_bitsrings: nine bit strings in every round; tests/test_bit_operations.py:16-23. *)
Definition t_different_bitstrings (rounds : list (list (list Z))) : bool :=
  forallb (fun round => forallb (fun p : nat * list Z =>
             let a := rand_bitstring (snd p) in
             check (fold_res (fun b pos => invert b (pos * pos)) (seq 0 (fst p)) a) (fun b => distance_is (HBits a) (HBits b) (fst p)))
           (combine (seq 1 9) round)) rounds.
(** test_byte_args; tests/test_bit_operations.py:25-28. *)
Definition t_byte_args (a : bytes) : bool := distance_is (HBytes a) (HBits (bytes_bits a)) 0.
(** test_uint8_args; tests/test_bit_operations.py:30-33. *)
Definition t_uint8_args (a : Z) : bool := check (uint_bits a 8) (fun b => distance_is (HInt a) (HBits b) 0).
(** test_wrong_types; tests/test_bit_operations.py:35-39. *)
Definition t_wrong_types : bool := raises TypeError (hamming_distance HOther (HBits [false; false; true; true; false; false]) 8).

(** * tests/test_msg_header.py *)

(** meta.msg_ids; protocol_meta/protocol_meta.py:14, 27. *)
Definition msg_ids : list Z := map (fun p => Z.of_N (fst p)) msgs_payload_length.
(** list.remove (the library): the first occurrence goes, ValueError when there is none. See tests/test_msg_header.py:21-23. *)
Fixpoint list_remove (i : Z) (l : list Z) : res (list Z) :=
  match l with
  | [] => Err ValueError
  | x :: l' => if Z.eqb i x then Ok l' else match list_remove i l' with Ok r => Ok (x :: r) | Err e => Err e end
  end.
(** possible_ids of test_wrong_msg_id; tests/test_msg_header.py:21-23, 99-101. *)
Definition possible_ids : res (list Z) := fold_res (fun l i => list_remove i l) msg_ids (map Z.of_nat (seq 0 256)).
(** The arguments of a FrameHeader that a test draws: rand_msg and three times rand_uint8; data_generation/random_test_data_generation.py:7-14. *)
Record drawn := Drawn { dr_msg : Z; dr_sys : Z; dr_comp : Z; dr_seq : Z }.
(** FrameHeader(rand_msg(), rand_uint8(), rand_uint8(), rand_uint8()); e.g. tests/test_msg_header.py:56. *)
Definition frame (d : drawn) : res frame_header := frame_header_init (dr_msg d) (dr_sys d) (dr_comp d) (dr_seq d).

(** test_wrong_msg_id; tests/test_msg_header.py:13-27.  Every call draws its last three numbers; the message ids of the draws are not used. *)
Definition t_wrong_msg_id (d1 d2 d3 : drawn) : bool :=
  (raises NonUint8 (frame_header_init (-1) (dr_sys d1) (dr_comp d1) (dr_seq d1)) &&
   raises NonUint8 (frame_header_init 256 (dr_sys d2) (dr_comp d2) (dr_seq d2)) &&
   check possible_ids (fun ids => match ids with [] => true | i :: _ => raises NonExistentMsdId (frame_header_init i (dr_sys d3) (dr_comp d3) (dr_seq d3)) end))%bool.
(** test_wrong_sys_id; tests/test_msg_header.py:29-35. *)
Definition t_wrong_sys_id (d1 d2 : drawn) : bool :=
  (raises NonUint8 (frame_header_init (dr_msg d1) (-1) (dr_comp d1) (dr_seq d1)) &&
   raises NonUint8 (frame_header_init (dr_msg d2) 256 (dr_comp d2) (dr_seq d2)))%bool.
(** test_wrong_comp_id; tests/test_msg_header.py:37-43. *)
Definition t_wrong_comp_id (d1 d2 : drawn) : bool :=
  (raises NonUint8 (frame_header_init (dr_msg d1) (dr_sys d1) (-1) (dr_seq d1)) &&
   raises NonUint8 (frame_header_init (dr_msg d2) (dr_sys d2) 256 (dr_seq d2)))%bool.
(** test_wrong_seq; tests/test_msg_header.py:45-51. *)
Definition t_wrong_seq (d1 d2 : drawn) : bool :=
  (raises NonUint8 (frame_header_init (dr_msg d1) (dr_sys d1) (dr_comp d1) (-1)) &&
   raises NonUint8 (frame_header_init (dr_msg d2) (dr_sys d2) (dr_comp d2) 256))%bool.
(** bytes([z]): ValueError unless z fits a byte (the library). See tests/test_msg_header.py:58, 94, 104, 110. *)
Definition to_byte (z : Z) : res bytes := if ((0 <=? z) && (z <? 256))%Z%bool then Ok [Z.to_N z] else Err ValueError.
(** test_hamming, for the draws of its rounds; tests/test_msg_header.py:53-61.  The mask of round i has its i+1 low bits set. *)
Definition t_hamming (ds : list drawn) : bool :=
  forallb (fun p : nat * drawn =>
    let i := fst p in
    check (frame (snd p)) (fun h =>
      let buffer := fh_buffer h in
      check (to_byte (Z.lxor (Z.of_N (nth i buffer 0%N)) (2 ^ Z.of_nat (i + 1) - 1))) (fun x =>
        check (fh_hamming_distance h (firstn i buffer ++ x ++ skipn (i + 1) buffer)) (Nat.eqb (i + 1)))))
    (combine (seq 0 6) ds).
(** test_hamming_wrong_length; tests/test_msg_header.py:63-66. *)
Definition t_hamming_wrong_length (d : drawn) : bool :=
  check (frame d) (fun h => raises HeaderLength (fh_hamming_distance h (fh_buffer h ++ [49%N]))).
(** test_length; tests/test_msg_header.py:68-70. *)
Definition t_length (d : drawn) : bool :=
  check (frame d) (fun h => match payload_length (fh_msg_id h) with Some n => N.eqb (fh_length h) (N.of_nat n) | None => false end).
(** Equality of byte strings; tests/test_msg_header.py:85. *)
Fixpoint bytes_eqb (a b : bytes) : bool :=
  match a, b with [], [] => true | x :: a', y :: b' => (N.eqb x y && bytes_eqb a' b')%bool | _, _ => false end.
(** test_class_method; tests/test_msg_header.py:82-88. *)
Definition t_class_method (s c q : Z) : bool :=
  check (frame_header_init (nth 0 msg_ids 0%Z) s c q) (fun h =>
    let buffer := fh_buffer h in
    (check (from_buffer buffer None) (fun g => bytes_eqb (fh_buffer g) buffer) &&
     raises HeaderLength (from_buffer (firstn 2 buffer) None) &&
     check (from_buffer buffer (Some (nth 1 msg_ids 0%Z))) (fun g => Z.eqb (Z.of_N (fh_msg_id g)) (nth 1 msg_ids 0%Z)))%bool).

(** test_wrong_stx; tests/test_msg_header.py:92-96. *)
Definition t_wrong_stx (d : drawn) : bool :=
  check (frame d) (fun h => check (to_byte (Z.shiftr (Z.of_N (nth 0 (fh_buffer h) 0%N)) 1)) (fun x =>
    negb (is_valid_header (x ++ skipn 1 (fh_buffer h))))).
(** test_non_existent_msg_id; tests/test_msg_header.py:98-106. *)
Definition t_non_existent_msg_id (d : drawn) : bool :=
  check possible_ids (fun ids => match ids with
  | [] => true
  | i :: _ => check (frame d) (fun h => check (to_byte i) (fun x => negb (is_valid_header (firstn 5 (fh_buffer h) ++ x))))
  end).
(** test_wrong_msg_length; tests/test_msg_header.py:108-112. *)
Definition t_wrong_msg_length (d : drawn) : bool :=
  check (frame d) (fun h => check (to_byte (Z.shiftl (Z.of_N (nth 1 (fh_buffer h) 0%N)) 1)) (fun x =>
    negb (is_valid_header (firstn 1 (fh_buffer h) ++ x ++ skipn 2 (fh_buffer h))))).
(** bytes(range(n)) (the library); tests/test_msg_header.py:115, 117, 183, 186. *)
Definition byte_range (n : nat) : bytes := map N.of_nat (seq 0 n).
(** test_wrong_buffer_length of TestIsValidHeader; tests/test_msg_header.py:114-118. *)
Definition t_valid_wrong_length : bool := (negb (is_valid_header (byte_range 3)) && negb (is_valid_header (byte_range 10)))%bool.

(** test_valid_headers: three numbers are drawn for every id; tests/test_msg_header.py:122-127. *)
Definition t_valid_headers (draw : Z -> Z * Z * Z) : bool :=
  forallb (fun i => let '(s, c, q) := draw i in
    check (frame_header_init i s c q) (fun h => check (hamming_distance_2_valid_header (fh_buffer h) None) (fun r =>
      (Z.eqb (fst r) 0 && Z.eqb i (snd r))%bool))) msg_ids.
(** The body of the loops of test_corrupted_msg_id, test_corrupted_len and test_corrupted_stx: [corrupt] gives the corrupted buffer, [claim]
    is the last assertion on (dist, dist_to_origin, chosen_msg, msg); tests/test_msg_header.py:131-144, 148-161, 165-180. *)
Definition corrupted (d : drawn) (corrupt : bytes -> bytes) (claim : Z -> nat -> Z -> bool) : bool :=
  check (frame d) (fun h =>
    let buffer := fh_buffer h in
    let bad := corrupt buffer in
    check (hamming_distance (HBytes buffer) (HBytes bad) 8) (fun dist_to_origin =>
      check (hamming_distance_2_valid_header bad None) (fun r =>
        check (frame_header_init (snd r) (Z.of_N (fh_sys_id h)) (Z.of_N (fh_comp_id h)) (Z.of_N (fh_sequence h))) (fun g =>
          check (fh_hamming_distance g bad) (fun dist_chosen =>
            (Z.eqb (Z.of_nat dist_chosen) (fst r) && claim (fst r) dist_to_origin (snd r))%bool))))).
(** test_corrupted_msg_id; tests/test_msg_header.py:129-144. *)
Definition t_corrupted_msg_id (rounds : list (drawn * Z)) : bool :=
  forallb (fun p => corrupted (fst p) (fun b => firstn 5 b ++ [Z.to_N (snd p)]) (fun dist orig _ => Z.leb dist (Z.of_nat orig))) rounds.
(** test_corrupted_len; tests/test_msg_header.py:146-161. *)
Definition t_corrupted_len (rounds : list (drawn * Z)) : bool :=
  forallb (fun p => corrupted (fst p) (fun b => [nth 0 b 0%N; Z.to_N (snd p)] ++ skipn 2 b) (fun dist orig _ => Z.leb dist (Z.of_nat orig))) rounds.
(** test_corrupted_stx; tests/test_msg_header.py:163-180. *)
Definition t_corrupted_stx (rounds : list (drawn * Z)) : bool :=
  forallb (fun p => corrupted (fst p) (fun b => [Z.to_N (snd p)] ++ skipn 1 b)
    (fun dist orig chosen => (Z.eqb dist (Z.of_nat orig) && Z.eqb chosen (dr_msg (fst p)))%bool)) rounds.
(** test_wrong_buffer_length of TestDistanceToValidHeader; tests/test_msg_header.py:182-188. *)
Definition t_distance_wrong_length : bool :=
  (raises HeaderLength (hamming_distance_2_valid_header (byte_range 3) None) &&
   raises HeaderLength (hamming_distance_2_valid_header (byte_range 10) None))%bool.

(** * tests/test_buffer_segmentation.py, tests/test_buffer_structure.py *)

(** good_buffer and buffer1; tests/test_buffer_segmentation.py:7-10, tests/test_buffer_structure.py:6-9. *)
Definition good_buffer : bytes := [254; 19; 0; 1; 0; 212; 146; 1; 75; 22; 43; 71; 192; 68; 43; 244; 10; 63; 0; 0; 128; 63; 60; 9; 1; 137; 54; 254; 10; 1; 1; 0; 218;
  146; 1; 75; 22; 90; 12; 62; 16; 1; 100; 208; 245; 254; 44; 2; 2; 0; 33; 209; 255; 74; 22; 18; 63; 151; 17; 179; 34; 210; 20; 0; 0;
  200; 66; 0; 0; 200; 66; 0; 0; 200; 66; 239; 250; 16; 64; 190; 27; 94; 62; 177; 212; 218; 62; 5; 157; 184; 61; 68; 11; 125; 66; 90;
  185; 254; 12; 3; 1; 200; 234; 0; 0; 0; 0; 0; 0; 0; 0; 0; 0; 0; 0; 182; 114]%N.
(** buffer2; tests/test_buffer_structure.py:10-13. *)
Definition buffer2 : bytes := [254; 19; 10; 1; 0; 212; 106; 103; 215; 22; 13; 74; 192; 68; 81; 156; 61; 63; 0; 0; 64; 64; 63; 9; 1; 209; 219; 254; 10; 11; 1; 0;
  218; 106; 103; 215; 22; 99; 12; 48; 16; 1; 100; 54; 220; 254; 44; 12; 2; 0; 33; 10; 101; 215; 22; 133; 56; 151; 17; 113; 16; 210;
  20; 0; 0; 200; 66; 0; 0; 200; 66; 0; 0; 200; 66; 85; 145; 69; 64; 0; 172; 90; 62; 232; 116; 251; 62; 139; 245; 220; 61; 6; 65;
  135; 66; 86; 37; 254; 12; 13; 1; 200; 234; 0; 0; 0; 0; 0; 0; 0; 0; 0; 0; 0; 0; 236; 146]%N.
(** bad_buffer; tests/test_buffer_segmentation.py:11. *)
Definition bad_buffer : bytes := firstn 27 good_buffer ++ [1%N] ++ skipn 28 good_buffer.
(** The structure that the tests expect; tests/test_buffer_segmentation.py:20, tests/test_buffer_structure.py:18. *)
Definition the_structure : structure := [(0, 212%N); (27, 218%N); (45, 33%N); (97, 234%N)].
(** assert_array_equal of integers; tests/test_buffer_segmentation.py:21-30. *)
Fixpoint zs_eqb (a b : list Z) : bool :=
  match a, b with [], [] => true | x :: a', y :: b' => (Z.eqb x y && zs_eqb a' b')%bool | _, _ => false end.

Section Text.
Variable text : bytes -> list N.

(** test_segment_buffer; tests/test_buffer_segmentation.py:15-30. *)
Definition t_segment_buffer : bool :=
  (check (segment_buffer (decode text) good_buffer) (fun r => let '(parts, valid, s) := r in
     negb (existsb is_unknown parts) && dict_eqb s the_structure && zs_eqb valid (repeat 1%Z (length good_buffer * 8))) &&
   check (segment_buffer (decode text) bad_buffer) (fun r => let '(parts, valid, _) := r in
     negb (existsb is_unknown (firstn 27 parts)) && forallb is_unknown (slice parts 27 45) && Nat.eqb (length (slice parts 27 45)) 18 &&
     negb (existsb is_unknown (skipn 45 parts)) && zs_eqb (firstn (27 * 8) valid) (repeat 1%Z (27 * 8)) &&
     zs_eqb (slice valid (27 * 8) (45 * 8)) (repeat 0%Z (18 * 8)) && zs_eqb (skipn (45 * 8) valid) (repeat 1%Z (72 * 8))))%bool.
(** test_bad_buffer_parts; tests/test_buffer_segmentation.py:32-36. *)
Definition t_bad_buffer_parts : bool :=
  check (segment_buffer (decode text) bad_buffer) (fun r =>
    check (bad_buffer_parts bad_buffer (fst (fst r))) (fun l =>
      match l with [(k, b)] => (Nat.eqb k 27 && bytes_eqb b (slice bad_buffer 27 45))%bool | _ => false end)).
(** test_bad_buffer_idx; tests/test_buffer_segmentation.py:38-42. *)
Definition t_bad_buffer_idx : bool :=
  check (segment_buffer (decode text) bad_buffer) (fun r =>
    check (bad_buffer_idx bad_buffer (fst (fst r))) (fun o => match o with Some [(a, b)] => (Nat.eqb a 27 && Nat.eqb b 45)%bool | _ => false end)).
End Text.

(** test_equality; tests/test_buffer_structure.py:17-26.  first_structure != 1 holds because __eq__ answers False for a number. *)
Definition t_equality : bool :=
  let '(a, ra) := register_buffer (bs_init the_structure) good_buffer in
  let '(b, rb) := register_buffer (bs_init the_structure) buffer2 in
  (is_ok ra && is_ok rb && bs_eqb a b && negb (bs_eqb a (bs_init (firstn 3 the_structure))) && dict_eqb (bs_structure a) the_structure)%bool.
(** test_register_buffer; tests/test_buffer_structure.py:28-34. *)
Definition t_register_buffer : bool :=
  let '(a, r) := register_buffer (bs_init the_structure) good_buffer in
  (is_ok r && Nat.eqb (bs_count a) 1 && raises ValueError (snd (register_buffer a (rev good_buffer))))%bool.
(** test_adheres_to_structure; tests/test_buffer_structure.py:36-40. *)
Definition t_adheres : bool :=
  (check (adheres_to_structure (bs_init the_structure) good_buffer) (fun b => b) &&
   check (adheres_to_structure (bs_init (firstn 3 the_structure ++ [(97, 235%N)])) good_buffer) negb)%bool.
(** test_len; tests/test_buffer_structure.py:46-48. *)
Definition t_len : bool := Nat.eqb (bs_len (bs_init the_structure)) 4.

(** * tests/test_information_theory.py *)
Section Info.
Variable FO : fops.
Notation F := (F FO).

(** a == pytest.approx(b, abs=tol) (the library); tests/test_information_theory.py:31-32.  Literals such as 0.2 and 1e-3 are quotients of ints, which
    round to the same numbers. *)
Definition close (a b tol : F) : bool := fle FO (fabs FO (fsub FO a b)) tol.
(** a == pytest.approx(b): relative tolerance 1e-6; tests/test_information_theory.py:57, 63-64. *)
Definition approx (a b : F) : bool := close a b (fmul FO (fdiv FO (fz FO 1) (fz FO 1000000)) (fabs FO b)).

(** test_unsupported_dtype; tests/test_information_theory.py:10-13. *)
Definition t_unsupported_dtype : bool := raises UnsupportedDtype (prob FO DFloat).
(** test_multi_dimension; tests/test_information_theory.py:15-18. *)
Definition t_multi_dimension (rows : list (list Z)) : bool :=
  check (prob FO (DMat rows 10)) (fun p => match p with FMat r => Nat.eqb 10 (length r) | _ => false end).
(** test_one_dimension; tests/test_information_theory.py:20-23. *)
Definition t_one_dimension (l : list Z) : bool := check (prob FO (DVec l)) (fun p => match p with FVec _ => true | _ => false end).
(** test_probability; tests/test_information_theory.py:25-32. *)
Definition t_probability (l : list Z) : bool :=
  check (prob FO (DVec l)) (fun p => match p with
    | FVec p => check (pymin FO p) (fun mn => check (pymax FO p) (fun mx =>
        (close (fdiv FO (fz FO 1) (fz FO 5)) mn (fdiv FO (fz FO 1) (fz FO 1000)) &&
         close (fdiv FO (fz FO 1) (fz FO 5)) mx (fdiv FO (fz FO 1) (fz FO 1000)))%bool))
    | _ => false end).
(** test_incompatible_dim of both classes; tests/test_information_theory.py:34-37, 82-85. *)
Definition t_incompatible_dim : bool := (raises ValueError (prob FO DOther) && raises ValueError (entropy FO FOther 2))%bool.
(** test_gaps_in_alphabet_2d and test_return_alphabet; tests/test_information_theory.py:39-50. *)
Definition t_alphabet : bool :=
  let r1 := [5; 6; 7; 8; 9; 10]%Z in
  let r2 := [15; 16; 17; 18; 19; 20]%Z in
  (check (prob_with_alphabet FO (DMat [r1; r2] 6)) (fun r => zs_eqb (snd r) (r1 ++ r2)) &&
   check (prob_with_alphabet FO (DVec r1)) (fun r => zs_eqb (snd r) r1))%bool.
(** test_1d_array and test_2d_array; tests/test_information_theory.py:54-65. *)
Definition t_entropy : bool :=
  let p := repeat (fdiv FO (fz FO 1) (fz FO 10)) 10 in
  (check (entropy FO (FVec p) 2) (fun e => match e with [h] => approx h (flog2 FO (fz FO 10)) | _ => false end) &&
   check (entropy FO (FMat [p; p]) 2) (fun e => match e with [g; h] => approx g (flog2 FO (fz FO 10)) && approx h (flog2 FO (fz FO 10)) | _ => false end))%bool.
(** test_zero_mass_probability_1d and _2d; tests/test_information_theory.py:67-80. *)
Definition t_zero_mass : bool :=
  let p := repeat (fdiv FO (fz FO 1) (fz FO 9)) 9 ++ [fz FO 0] in
  (check (entropy FO (FVec p) 2) (fun e => match e with [h] => approx h (flog2 FO (fz FO 9)) | _ => false end) &&
   check (entropy FO (FMat [p; p]) 2) (fun e => match e with [g; h] => approx g (flog2 FO (fz FO 9)) && approx h (flog2 FO (fz FO 9)) | _ => false end))%bool.
(** test_illegal_arguments and test_no_data; eps is 1e-5 by default; tests/test_information_theory.py:89-97. *)
Definition t_illegal : bool :=
  let eps := fdiv FO (fz FO 1) (fz FO 100000) in
  (raises ValueError (typical_set_cardinality FO 0 None (Some (fdiv FO (fz FO 1) (fz FO 10))) eps) &&
   raises ValueError (typical_set_cardinality FO 2 None (Some (fdiv FO (fz FO 1) (fz FO 10))) (fz FO 0)) &&
   raises ValueError (typical_set_cardinality FO 2 None None eps))%bool.
(** test_entropy_provided and test_dist_provided; tests/test_information_theory.py:99-107. *)
Definition t_cardinality : bool :=
  let eps := fdiv FO (fz FO 1) (fz FO 1000000000000000) in
  let tol := fdiv FO (fz FO 1) (fz FO 100000) in
  let four (r : F * F) := (close (fst r) (fz FO 4) tol && close (snd r) (fz FO 4) tol)%bool in
  let half := fdiv FO (fz FO 1) (fz FO 2) in
  (check (typical_set_cardinality FO 2 None (Some (fz FO 1)) eps) four &&
   check (typical_set_cardinality FO 2 (Some [half; half]) None eps) four)%bool.
End Info.
