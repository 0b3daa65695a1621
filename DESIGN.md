# Formal model of NR_telemetry_ECC — design

Everything lives in `rocq/theories` (logical name `Verif`), Coq 8.16.1, standard library only
(no mathcomp/std++/Iris import is needed).  `properties.jsonl` lists the properties, `MANIFEST.json` maps
them to theorems, `seeded/LOG.jsonl` logs the experiments with deliberately wrong models.

## Layout

* `Model/*.v`  — the model, function by function, every definition citing `/repo` file:lines.  No proofs.
* `Spec/*.v`   — small specifications used in theorem statements, written without the model's helpers.
* `Proofs/*.v` — lemmas.
* `Props/*.v`  — property theorems only (`exact lemma`), `Print Assumptions` beneath each, plus `Example`s that
  instantiate the hypotheses with concrete non-trivial data.

## Modelling decisions

* Python exceptions are values: `res A := Ok a | Err exn`.  A function that can raise returns `res`.
* bytes are `list N` with the predicate `is_bytes` (all < 256); positions are `nat`; Python ints that may be
  negative or huge are `Z`.  dicts are association lists in insertion order.  Slices/negative indices follow Python.
* Floating point: functions whose *control flow* matters are polymorphic in a record of float operations `FOps`
  (any carrier, any operations, any boolean comparisons), so control-flow theorems hold for IEEE doubles including NaN.
  Theorems about *values* instantiate it with the real numbers (`Rops`), without rounding, or (C97 on) with IEEE binary64 as formalised
  in Flocq (`Bops`), with rounding to nearest even.  Exact counts use `Q`/`Z`.
* External code is a parameter of the model and universally quantified in the theorems: the LDPC decoder
  (`ldpc` package), the protocol parser handler where the API takes one, `random`, JSON text encoding.
  pymavlink's `x25crc` (imported by HC_dialect.py, not vendored) is modelled by its published algorithm.
* The dialect (155 messages) is extracted by `tools/gen_dialect.py` from `/repo/mavlink_utils/HC_dialect.py` into
  `Model/Dialect.v`; theorems about "every message of the dialect" are proved by computation over this finite table.

## Plan per property

| id | modelled | proof idea |
|----|----------|------------|
| C01 | `hamming_distance` on bits/bytes/ints/arrays | induction on bit lists; spec = count of differing positions |
| C02,C03 | `FrameHeader`, accessors, `from_buffer`, `is_valid_header` | case analysis; lookup lemmas |
| C04,C05 | `hamming_distance_2_valid_header` loop | fold invariant (running first minimum); reduction of the minimum over all valid headers to the table; refutation by computation |
| C06 | `MavlinkDialectMeta` tables, struct format sizes | `forallb` sweep over the finite table |
| C07 | x25 checksum | 256-entry sweep plus linearity |
| C08,C09 | `MAVLink.decode`, `MAVLink_message.pack` | case analysis; little-endian round trip; table sweep for lengths |
| C10 | as above | linearity of the CRC; bit-serial register is invertible; parity polynomial; order of x modulo the polynomial by computation |
| C11-C13 | `segment_buffer` | loop invariant over the scan position |
| C14-C16 | + `pack`, `send` | greedy uniqueness (C12) + C09 |
| C17,C18 | `bad_buffer_idx`, `bad_buffer_parts` | loop invariant on (index, run length) |
| C19 | `BufferStructure` | induction on histories |
| C20 | `num2bits`, struct pack/unpack | little-endian arithmetic |
| C21,C22,C24 | `FieldModel`, `BufferModel` as state machines | invariants over histories |
| C23 | `classify_value` over R, erf abstract (odd, monotone, bounded) | real analysis |
| C25-C29 | `unpack_structure`, `unpack_values`, `predict`, ... | induction over the structure; table sweep for format/type agreement |
| C30 | `save`/`load` on an abstract JSON tree | structural |
| C31-C34 | `prob`, `entropy`, ... over Z/Q/R | counting; Jensen/Gibbs inequality; Cauchy-Schwarz |
| C35 | `ber` with wrap-around option | induction |
| C36-C38 | `Cluster`, `BufferClassifier` | invariants over histories, polymorphic floats |
| C39-C42 | `OnlineDude`, `DUDE` | history invariants; 2x2 real algebra |
| C43-C45 | `EMLE` | history invariants; real analysis |
| C46 | EM step of `BMM` over R | finite sums |
| C47-C50,C52-C55 | decoders as state machines over an LDPC oracle | history invariants |
| C51 | `TurboDecoder` over stateful decoder oracles | induction on the iteration bound |
| C56-C58 | `relabel`, `encode_data`, `generate_markov_samples` | induction; witnesses |
| C59,C60 | `Dude` denoising positions; `get_msg_fields` | induction on the buffer |
| C61 | `stats` over R, with nan | case analysis on empty rows/columns |
| C62-C65 | flipping, weighted and classifying entropy decoders | history invariants over an LDPC oracle; real algebra |
| C66 | `ClassifyingDudeDecoder` | a call is a function of the received history per label |
| C67 | `classifier_analysis`, `forcing_analysis` | counting lemmas over index lists |
| C68 | `CombinedUnifiedDecoder` | as C55, with the learned windows as invariant |
| C69-C72 | `parse_char`, `parse_buffer`, `bytes_needed` over any `decode` | unique cut of the stream into pieces; simulation of the parser by the cut |
| C73,C74 | `MAVLinkSigning`, `check_signature`, `decode` with a key, over any hash function | full case analysis of one call; invariants over histories of frames |
| C75 | `sign_packet`, `pack` with sign_outgoing | C09 plus length argument |
| C76 | all generated constructors, `*_encode` and `*_send` methods as a table (`tools/gen_api.py`) and an interpreter of their bodies | sweep that each body names its fields in the right order, then C09 |
| C77 | `__eq__`, `__ne__`, `to_dict`, `format_attr` of message objects; decode followed by pack | case analysis; injectivity of the fields' encodings and coverage of the payload by the fields |
| C78 | `msg_creator.py` (selection of rows, packing, sequence numbers, times), cutting of buffers into words | field order checked against the dialect by computation once per message; pack/decode (C09) and segmentation (C14); induction over times and delays |
| C79 | `simulation_step` over both channels: received words, tables, rates; decoders and draws are parameters | induction over the words with the decoder's memory; counting of differences |
| C80 | the loop and the tables of the runs on experimental data | same, with known and unknown rows; witnesses by computation |
| C81 | characterization of the classifier and of forcing, the loop over words | the sets are filters of 0..n-1, hence the tables; the loop by simulation of models with equal samples, so that refreshing caches does not matter |
| C82 | stored probability of EMLE; the formula of the analysis script | the likelihood is a^k b^(n-k) in the arriving probability; strict monotonicity on both sides of k/n, then clipping |
| C83 | bias and mean square error of both estimates; the row of results | expectation by recursion over the bits; first two moments of the number of ones by induction |
| C84 | search, split, int, break_down, the loop over files, the days | search by induction on the text; split pieces by induction on the fuel; a marker whose first byte occurs once cannot overlap itself |
| C85 | table generated from minimal_dialect.py, its decode | the table lookup agrees with the full one on six numbers; streams through the cut of C69 for both decoders |
| C86 | ClusterAnalysis.v models the cutting, padding, errors, order of the split, classification, relabelling and rounding of the mean; generators and the order of sklearn's split are parameters; the Bernoulli mixture is the subject of C46. | c86_words, c86_ragged, c86_noise, c86_clean_tests, c86_labels, c86_analyze (using C36, C56), c86_mean, c86_mean_refuted. |
| C87 | TrainModels.v models the three scripts up to saving; the table, the random padding and the encoder's words are given. | c87_model, c87_spells, c87_arrays, c87_unknown_first, c87_garbage_refuted, c87_dist, c87_dist_sum, c87_dist_errors, c87_dist_wraps_refuted, c87_words, c87_words_errors (using C11, C24, C60). |
| C88 | Model of the loop over words with a list of decoders with memory and of the tables; the script differences (columns, logs, counts, errors) are parameters or small functions | Induction over the words: a loop with d :: ds splits into the loops with [d] and with ds; feeds relation of C79 for what the decoders answer |
| C89 | Pool.map as chunks of tasks given to workers named by a schedule, each worker a state threaded through its chunks; the steps with generator and iterations as state | Induction over chunks and tasks: a task-level run with one state per worker; memory as a fold over the earlier tasks of the same worker; real arithmetic for the nested errors |
| C90 | The loop with what is told as a parameter; the models of the two decoders plugged in; the structure of the first sent row | Induction over the words; two runs with different positions in step; success of the analyses does not depend on the positions; a relation between decoder states that differ in the statistics |
| C91 | The structures found by the scripts and the segmentation of the information bits of a word, on top of C78 and C14. | One frame in front of any bytes: the segments of the whole are the frame and the moved segments of the rest (uniqueness of the segmentation); induction over the frames; the layout of the words by computation; frames of nine bytes by the table of payload lengths. |
| C92 | capacity, modified capacity, the plotted lists, the entropies with and without flips | Gibbs' inequality gives monotonicity and concavity of the entropy of a bit without derivatives; chain rule for the joint entropy; the crossings by the intermediate value theorem and rational bounds of logarithms |
| C93 | decode and segment_buffer of C08 and C11; counting as duplicate-free complete lists of byte strings | a frame is determined by its header bytes, id and payload (bijection with products of all byte strings); a union over positions and messages for the bound |
| C94 | compare_denoisers column by column on the models of C39-C45 and C35, with the kind of the array; a section of the example as a function of the state of the denoisers | refinement to the denoisers run alone; induction on the rows for EMLE; counting identities by induction on the three sequences; constant sources by the sign of the log ratio |
| C95 | the options and f-strings of all the scripts (extracted by tools/gen_cmd.py), the words of a shell command, argparse | the f-strings are split and parsed symbolically for every outcome of their tests (computed), and the symbolic run is proved to be the real one |
| C96 | The directory as a list of named files with times; the opening and the completion of a file as events of any schedule; sorting by name and by time; loading; the five columns | Invariant of the histories: the files are a permutation of the open and the finished ones; the two stable sorts give the only list strictly sorted by time and name; case analysis of loading and columns |
| C97 | The same models, instantiated with Flocq's binary64 operations, round to nearest even; exp and log of the library as parameters with stated bounds; np.linspace and int(n * p) | Monotonicity of rounding and exactness of small integers and scaled integers; relative error bounds; sqrt(fl(x x)) = x; fl(x) + fl(1 - x) rounds to 1; invariants of the running sums; counterexamples by computation; a correctly rounded library meets the bounds |
| C98 | The models of C43-C45, C50 and C53, instantiated with Flocq's binary64 operations; exp and log of the library as parameters with stated bounds | Rounding is monotone, exact on 0, 1/2 and 1 and commutes with halving, so quotients compare with 1/2 as the exact ones; the spacing of doubles bounds 1 - 2 f and nonzero estimates from below; error bounds of the four operations; the generic invariant of the state; induction over histories |
| C99 | Loop over the words with the decoders of C47 and C62 on a library that returns a tuple of any number of items; the count of zeros raises TypeError for an array of several elements; the pool of C89 | The decoders' unpacking of six items forces the sixth item of the row to be the array, so the count fails for the first row; induction over the words gives an equivalence between a report and independent runs of the three decoders |
| C100 | Trials.v: parts of a transmission, inversion of drawn bits, fold of classify, strided counts | induction on the words from the end; the stride is characterised by positions modulo the number of classes; labels by C36 |
| C101 | Logging.v: loggers by name with level and handlers; setup_logger and messages as steps of a process | induction on the history: each logger's level and handlers as functions of the calls; counting over the names above |
| C102 | Clustering.v with the operations of IeeeOps.v | error bounds of the sum of logarithms; a Hellinger distance is 0 just for equal distributions; merging of copies by the pigeonhole principle; induction on the history |
| C103 | ExampleScript.v: both ways of training and the script up to its exception | invariant of the model per field name (as for C24); all field names of the dialect are different and none is a header name (computed); the script by computation with an arbitrary continuation |
| C104 | FieldMethods.v: the remaining methods of FieldModel and BufferModel | real arithmetic on top of the invariant of C22; the distribution function, its density and ceil are parameters with the properties used; induction over the sequence of additions for the container |
| C105 | the script with the draws as a parameter, its arrays as lists, linspace as in numpy | closed form of linspace over the reals, concatenated arrays as functions of the message number, case analysis over the pieces |
| C106 | the model of the denoisers with the operations of IEEE 754 binary64 (Flocq); the inverse as computed is a parameter near the exact one | monotonicity of rounding; forward error analysis of the counts, weights and quotients; case analysis of the smoothing |
| C107 | the model of the mixture with the operations of IEEE 754 binary64 (Flocq), with nan and infinities; exp and log are parameters | an invariant of the loop: parameters in [0,1] with a positive weight; bounds of the rounded sums by monotonicity of rounding; propagation of nan from an empty component to the log likelihood; accumulation of the rounding errors through the sums, logsumexp and the shares for the accuracy |
| C108 | the model of the statistical models with the operations of IEEE 754 binary64 (Flocq); erf and struct.pack('<f') are parameters | monotonicity of rounding for the bounds; a mean of whole numbers is at least 1/(2n) away from a tie unless it is one, and ties are doubles; sums of equal samples are exact; witnesses by evaluation |
| C109 | json.dump with indent=4 and json.load as functions on texts (encoder, string escapes with surrogate pairs, number grammar, scanner with fuel), the file as absent or contents, and save with a crash point | induction on documents: the scanner reads a printed value and leaves the rest; on a proper beginning it fails or leaves something that is no comma or bracket; fuel suffices for every text; then the document of save is related to the one of load (C30) |
| C110 | the script on steps as dicts whose values are tables, dicts of lists or anything else, and a directory with a number of complete files at which it stops | induction over the steps: one step is split just if it holds the three tables, and its parts have its keys; setting the same files again changes nothing |
| C111 | directories, names, files and their content; the statements of every script which touch files, taken from the text of the scripts by tools/gen_save.py; processes which do one statement at a time, with a given outcome, and the handler of the try | an invariant per run kept by its own statements and framed by those of the others (induction over the schedule); for the shared log who holds the name results/log.log; for one second the owner of the directory |
| C112 | instants in microseconds, the Gregorian calendar day by day, str of dates and numbers, the four readings | the calendar never returns to a date (order of dates), the text is cut at its underscores; the seconds by division with remainder; C111 for runs of one timestamp |
| C113 | the files of steps in the model of C111: directory, template, time and level of every step done before the pool ends or fails | induction over the schedule with the invariant of C111: only simulations change these files; names are cut at the underscores of the timestamp (C112), suffixes of the table compared by computation |
| C114 | where every file binds and reads names, extracted from its text (tools/gen_names.py), and runs in which conditions on options are decided by them and all else is free | an abstract interpretation with sets of bound names for each way to end, proved sound by induction over statements; options are split into the finitely many classes the conditions of a file tell apart, proved to lead to the same runs; then every class of every file is checked by computation; witnesses are runs of the model |
| C115 | where every class sets and reads attributes of its object, extracted from its text (tools/gen_attrs.py) as programs of the language of C114: the constructor, then any methods in any order, each of which may fail | the sound analysis and the classes of options of C114, the options being arguments of constructors that are kept; every class checked by computation; witnesses are runs of one or two calls |
| C116 | sys.modules, packages, incomplete modules and failures as a state machine over the import statements and bound names of every file, extracted from its text (tools/gen_imports.py) | a checker with a stack of incomplete modules and the names each surely has; its soundness by induction on the depth of imports with an invariant of sys.modules; the checker computed for every module and script |
| C117 | pack for version 2.0 with the start marker as a parameter, on top of the models of struct.pack, the checksum and signing (C09, C73, C75) | bytes of the frame from the payload lemma of C09; refusal from the length byte; with the other marker by C08 for version 2 frames, fields not sent counting as zero; signatures by C73 |
| C118 | Histories of steps of the code outside the library; the calls that wait for a callback form a stack (`Model/Link.v`) | invariant: the parser has gone through the first pieces of what was fed (by the lemmas of C69 for one call); accounts of what was found, returned, held and lost; simulation of the sender by a function of the attempts |
| mavlink_utils/HC_dialect.xml:1825-3489; mavlink_utils/minimal_dialect.xml:1825 to its end | `Model/XmlTable.v` | descriptions, enumerations; the generator itself (pymavlink) |
| `tests/*.py`, `data_generation/random_test_data_generation.py` | `Model/RepoTests.v` | test_mavlink_decoder.py (commented out), test_bitstring, test_repr and test_str (library texts), isinstance of numpy arrays; that the generators return these values, and with which probabilities, is numpy's and random's |
| `mavlink_utils/HC_dialect.py` 8649-8657 under threads | `Model/Threads.v` | self.file.write and mavmsg.pack are one step each; send_callback; two threads sending the same message object |
| `mavlink_utils/HC_dialect.py` 259-2030, `mavlink_utils/minimal_dialect.py` 259-2030, `mavlink_utils/*_dialect.xml` enums | `Model/EnumTable.v` (generated by tools/gen_enums.py), `Model/Enums.v` | texts of descriptions and parameters |
| C119 | The definitions as data (`Model/XmlTable.v`, generated from the XML); frames and class attributes as functions of a definition (`Spec/XmlSpec.v`) | the table of classes equals the computed one (by computation); pack by induction over the order of transmission; decode from C08 |
| C120 | every test as a boolean function of its draws, on top of the models of the functions it calls | metric and nearest-header theorems instantiated at the drawn frames; induction over the flipped positions; real inequalities for the tolerances; the five-letter condition from the frequencies summing to one |
| C121 | send as a machine of eight atomic steps per message, a schedule names the thread that steps next | an invariant with the ghost list of written frames and, per thread, what it still owes to the counters; a rank that every step of a thread lowers; the received stream by C70 |
| C122 | the statements of the module and the XML entries as generated tables; the statements executed on dictionaries | lookups in dictionaries without repeated keys are membership; the two sets of rows included in each other by computation; the end above all values by induction |

## Trusted base

* Coq 8.16.1's kernel (all proofs are also checked by `coqchk`), its `vm_compute` for finite sweeps and examples, and the
  OCaml compiler and runtime it was built with.
* The reading of Python and numpy in `Model/Py.v`, `Model/Struct.v`, `Model/Float.v`: slices, negative indices, insertion
  ordered dicts, exceptions as values, `struct` formats, array operations.  An int given for a float field, which `struct` converts, is refused in the
  model, so nothing is claimed about it.  Nothing was run; the model was written by reading the source.
* Flocq's definition of binary64 and its operations, which the claims about rounding are stated with (its proofs are checked; it adds no axioms
  to those of the real numbers).
* pymavlink's `x25crc`, which is not vendored, is modelled by its published algorithm (`Model/Crc.v`).
* `Model/Dialect.v` is generated from the source by `tools/gen_dialect.py`; the script is trusted to copy the table
  faithfully.
* No axioms are declared.  Theorems about values of floating point computations are stated over the real numbers of the
  standard library and inherit its axioms: `ClassicalDedekindReals.sig_forall_dec`, `ClassicalDedekindReals.sig_not_dec`,
  `FunctionalExtensionality.functional_extensionality_dep` and (via real analysis) `Classical_Prop.classic`.

What `Print Assumptions` lists for each theorem (regenerate with `python3 tools/assumptions.py`):

<!-- assumptions -->
679 theorems.

* Closed under the global context (no axioms) — 444 theorems: `c01_hamming_distance_bytes`, `c01_hamming_distance_errors`, `c01_hamming_distance_exact`, `c01_hamming_distance_ints`, `c01_hamming_distance_metric`, `c02_frame_header_accepts`, `c02_frame_header_accessors`, `c02_frame_header_rejects`, `c03_constructed_round_trip`, `c03_from_buffer_exact`, `c03_from_buffer_round_trip`, `c03_header_hamming_distance`, `c03_header_length`, `c03_is_valid_header_exact`, `c04_nearest_header`, `c05_nearest_header_max_len`, `c05_nearest_header_max_len_refuted`, `c05_nearest_header_max_len_stop`, `c06_dialect_ids_distinct`, `c06_dialect_lengths`, `c06_dialect_lengths_refuted`, `c06_msgs_fields_wire_order`, `c06_payload_length_exact`, `c07_crc_affine`, `c07_crc_incremental`, `c07_crc_is_reference`, `c07_crc_range`, `c08_decode_errors`, `c08_decode_v1`, `c08_decode_v2`, `c09_pack_decode`, `c09_pack_needs_bytes`, `c100_any_length`, `c100_order`, `c100_parts`, `c100_result`, `c100_total`, `c100_words`, `c101_append`, `c101_failed`, `c101_last_level`, `c101_message`, `c101_repeated`, `c101_setup`, `c101_threshold`, `c103_by_fields`, `c103_moved_refuted`, `c103_no_message`, `c103_same`, `c103_script`, `c103_twice_refuted`, `c104_attributes`, `c104_bitwise`, `c104_names`, `c109_ascii`, `c109_atomic_refuted`, `c109_cut_short`, `c109_escape`, `c109_failed_save`, `c109_file`, `c109_number_refuted`, `c109_round_trip`, `c109_save_load`, `c109_total`, `c10_burst`, `c10_length_byte`, `c10_odd`, `c10_packed_single_bit`, `c10_single_bit`, `c10_single_bit_refuted`, `c10_two`, `c110_again`, `c110_split`, `c111_alone`, `c111_caught`, `c111_lines`, `c111_names`, `c111_one_completes_refuted`, `c111_overlap`, `c111_overlap_all`, `c111_result_name`, `c111_results`, `c111_same_second`, `c112_apart_refuted`, `c112_at_once`, `c112_calendar`, `c112_late`, `c112_meaning`, `c112_runs`, `c112_same`, `c112_text`, `c113_kept`, `c113_lost_refuted`, `c113_names`, `c113_steps`, `c114_bound`, `c114_calm`, `c114_ends`, `c114_options`, `c114_others`, `c115_denoise`, `c115_others`, `c115_reached`, `c115_set`, `c115_weighted`, `c116_broken`, `c116_complete`, `c116_exports`, `c116_modules`, `c116_once`, `c116_scripts`, `c116_session`, `c116_there`, `c117_forced`, `c117_frame`, `c117_never`, `c117_proven`, `c117_understood`, `c118_callback`, `c118_complete`, `c118_confirmed`, `c118_delivery`, `c118_in_order`, `c118_lost_refuted`, `c118_partial_write_refuted`, `c118_received`, `c118_returned`, `c118_sent`, `c119_decode`, `c119_known`, `c119_minimal`, `c119_pack`, `c119_table`, `c11_exceptions`, `c11_mavlink`, `c11_mavlink_inside`, `c11_mavlink_total`, `c11_segmentation`, `c120_any_arithmetic`, `c120_bits`, `c120_buffers`, `c120_distance`, `c120_frame_header`, `c120_is_valid_header`, `c120_rand_msg`, `c121_alone`, `c121_backwards_refuted`, `c121_not_below`, `c122_end`, `c122_import`, `c122_minimal`, `c122_names`, `c12_complete`, `c12_unique`, `c13_parts`, `c14_send`, `c14_stream`, `c15_junk_without_marker`, `c15_resync`, `c16_arrays_never_found`, `c17_bad_buffer_idx`, `c17_every_unknown_byte`, `c18_bad_buffer_parts`, `c18_empty`, `c19_equality`, `c19_history`, `c19_register`, `c19_register_fails`, `c20_num2bits_char_refuted`, `c20_num2bits_float`, `c20_num2bits_no_number`, `c21_negative_window_refuted`, `c21_types`, `c21_window`, `c21_zero_window_refuted`, `c22_negative_window_refuted`, `c24_add_buffer`, `c24_history`, `c24_one_structure`, `c24_shared_names_refuted`, `c25_names_only`, `c25_owner_disjoint`, `c25_unpack_structure`, `c25_unpack_structure_errors`, `c26_bits_agree`, `c26_unpack_values`, `c26_unpack_values_errors`, `c27_predict`, `c27_predict_rejects`, `c28_find_damaged_fields`, `c29_mean`, `c30_foreign_description_refuted`, `c30_save_load`, `c30_save_works`, `c31_errors`, `c31_prob`, `c34_errors`, `c35_length`, `c36_constant_training_refuted`, `c36_no_training`, `c36_training`, `c37_members`, `c37_members_refuted`, `c39_contexts`, `c39_contexts_refuted`, `c39_first`, `c39_initial_context`, `c39_no_context`, `c39_refused`, `c39_sequence`, `c42_borders`, `c42_denoise_sample_refuted`, `c42_negative`, `c42_outside`, `c43_update`, `c43_window`, `c46_no_components`, `c47_decode`, `c47_given`, `c47_model_bits`, `c47_no_answer`, `c47_recovered`, `c47_wrong_length_refuted`, `c48_short_model_refuted`, `c50_recovered_is_mixed`, `c51_first_raises`, `c51_no_rounds`, `c52_positions_refuted`, `c52_unknown`, `c53_answer`, `c53_count_refuted`, `c53_empty_refuted`, `c53_given`, `c53_history`, `c53_kept`, `c53_label`, `c53_model`, `c53_new`, `c53_no_rounds`, `c53_one_each`, `c53_set_structures`, `c53_training_refuted`, `c54_confusion`, `c54_positives_refuted`, `c55_debug_refuted`, `c55_length_refuted`, `c56_bijection_refuted`, `c56_fails`, `c56_keys`, `c56_perfect`, `c56_succeeds`, `c56_table`, `c57_exact_fit_refuted`, `c57_recover`, `c57_succeeds`, `c57_words`, `c58_chain_refuted`, `c58_exact`, `c58_zero_row`, `c59_send`, `c60_classes`, `c60_get_msg_fields`, `c63_construct`, `c63_update_length`, `c64_scheme_two_refuted`, `c67_answer`, `c67_fields`, `c67_first_call_refuted`, `c67_forcing`, `c67_negatives_refuted`, `c67_no_damage`, `c67_unknown`, `c68_aligned_refuted`, `c69_blocks`, `c69_bytes`, `c69_chunking`, `c69_cut`, `c69_decode`, `c70_blocks`, `c70_bytes`, `c70_dropped_refuted`, `c70_length_refuted`, `c70_none_refuted`, `c70_strict_blocks`, `c71_exceptions`, `c71_strict`, `c72_missing`, `c72_positive`, `c72_prompt`, `c72_v2_refuted`, `c73_accept`, `c73_errors`, `c73_new`, `c73_payload`, `c73_result`, `c73_state`, `c73_stream`, `c74_blocked`, `c74_first`, `c74_forged`, `c74_kept`, `c74_replay`, `c74_replay_refuted`, `c75_rejected`, `c75_signed`, `c75_stream`, `c75_swallowed_refuted`, `c75_unsigned`, `c76_count`, `c76_delivered`, `c76_encode`, `c76_heartbeat`, `c76_methods`, `c76_send`, `c76_short`, `c76_unknown`, `c77_attribute`, `c77_dict`, `c77_eq`, `c77_forward`, `c77_long_refuted`, `c77_nan_refuted`, `c77_new`, `c77_none`, `c77_nul_refuted`, `c77_plain`, `c77_same_bytes`, `c77_sent`, `c77_text_forward`, `c78_buffer`, `c78_late_refuted`, `c78_multiply`, `c78_row`, `c78_run`, `c78_segments`, `c78_words`, `c79_awgn`, `c79_bsc`, `c79_channels_refuted`, `c79_empty`, `c79_received`, `c80_claims_refuted`, `c80_count_refuted`, `c80_run`, `c81_fields`, `c81_label`, `c81_learn`, `c81_run`, `c81_tables`, `c81_unknown`, `c81_word`, `c84_bad_entry`, `c84_day`, `c84_find`, `c84_log`, `c84_logs`, `c84_number`, `c84_payload_refuted`, `c84_split`, `c85_decode`, `c85_exchange`, `c85_same`, `c85_stream`, `c86_clean_tests`, `c86_mean`, `c86_mean_refuted`, `c86_noise`, `c86_ragged`, `c86_words`, `c87_arrays`, `c87_dist_errors`, `c87_garbage_refuted`, `c87_model`, `c87_spells`, `c87_unknown_first`, `c87_words`, `c87_words_errors`, `c88_alone`, `c88_bsc`, `c88_counts`, `c88_gauss`, `c88_logs`, `c88_multiplied`, `c88_nested`, `c88_pretrained`, `c88_successes`, `c89_choice`, `c89_chunks`, `c89_independent`, `c89_iterations`, `c89_memory`, `c89_noise`, `c89_outcome`, `c90_answers`, `c90_first_unknown`, `c90_mavlink_blind`, `c90_mavlink_run`, `c90_model_unused`, `c90_real_run`, `c90_unified_blind`, `c90_unified_run`, `c90_unified_untold`, `c91_filling`, `c91_frames_then`, `c91_known`, `c91_no_phantom`, `c91_one_word`, `c91_other`, `c91_phantom_refuted`, `c91_received`, `c91_run_structures`, `c91_third_word_refuted`, `c91_too_short`, `c93_accepted`, `c93_all`, `c93_damage`, `c93_first`, `c93_one_checksum`, `c93_phantoms`, `c93_position`, `c94_balance`, `c95_command_line`, `c95_count`, `c95_dash`, `c95_dropped`, `c95_faithful`, `c95_lost`, `c95_refused`, `c95_replay`, `c95_space`, `c96_crash`, `c96_listing`, `c96_minflip`, `c96_minflip_refuted`, `c96_order`, `c96_same_name`, `c99_data`, `c99_empty`, `c99_never`, `c99_no_levels`, `c99_pool`, `c99_report`, `c99_type_error`, `c99_words`.
* `ThreadsProps.c121_every_schedule` — 1 theorems: `c121_every_schedule`.
* `ThreadsProps.c121_fair` — 1 theorems: `c121_fair`.
* `ThreadsProps.c121_received` — 1 theorems: `c121_received`.
* `ThreadsProps.c121_in_turns` — 1 theorems: `c121_in_turns`.
* `ThreadsProps.c121_race_refuted` — 1 theorems: `c121_race_refuted`.
* `ClassicalDedekindReals.sig_forall_dec` — 1 theorems: `c51_unique`.
* `ClassicalDedekindReals.sig_forall_dec`, `FunctionalExtensionality.functional_extensionality_dep` — 11 theorems: `c102_clear_winner`, `c105_dive`, `c20_rounding_total`, `c22_cases`, `c31_distribution`, `c41_total_refuted`, `c66_probability`, `c79_rates`, `c83_channel`, `c87_dist_sum`, `c94_rate`.
* `ClassicalDedekindReals.sig_forall_dec`, `ClassicalDedekindReals.sig_not_dec`, `FunctionalExtensionality.functional_extensionality_dep` — 3 theorems: `c105_range`, `c64_normalise_refuted`, `c64_weight_range`.
* `ClassicalDedekindReals.sig_forall_dec`, `ClassicalDedekindReals.sig_not_dec`, `Classical_Prop.classic`, `FunctionalExtensionality.functional_extensionality_dep` — 215 theorems: `c100_digits`, `c100_labels`, `c100_trial`, `c102_fit`, `c102_hamming`, `c102_log_likelihood`, `c102_merging`, `c102_recognised`, `c104_bits`, `c104_distribution`, `c104_no_distribution`, `c104_sign`, `c104_sign_mirrored`, `c104_tails`, `c104_text`, `c105_noise`, `c105_series`, `c106_batch`, `c106_hard`, `c106_majority`, `c106_monotone`, `c106_soft`, `c107_fit`, `c107_lost`, `c107_posterior`, `c107_predict`, `c107_step`, `c108_between`, `c108_bits`, `c108_bits_refuted`, `c108_classify`, `c108_constant`, `c108_constant_refuted`, `c108_equal_samples`, `c108_largest_refuted`, `c120_assertions`, `c120_information`, `c120_probability`, `c120_probability_refuted`, `c20_num2bits_integers`, `c22_bad_sample`, `c22_no_samples`, `c22_statistics`, `c23_classify`, `c23_no_samples`, `c29_equal_samples`, `c31_matrix`, `c31_vector`, `c32_bounds`, `c32_matrix`, `c32_value`, `c33_errors`, `c33_lower_bound`, `c33_lower_bound_refuted`, `c33_order`, `c33_upper_bound`, `c33_value`, `c34_matrix`, `c34_metric`, `c34_triangle`, `c34_value`, `c35_signed`, `c35_uint8`, `c35_uint8_refuted`, `c36_hamming`, `c36_log_likelihood`, `c37_merging`, `c38_hard_bits`, `c38_majority_refuted`, `c40_least_loss`, `c40_threshold`, `c41_probabilities`, `c42_hard`, `c42_soft`, `c44_denoise_hard`, `c44_denoise_soft`, `c44_direction`, `c44_estimates`, `c44_no_model`, `c44_other_length`, `c44_prediction`, `c44_sequence`, `c45_confidence`, `c46_fit`, `c46_fit_monotone`, `c46_monotone`, `c46_predict`, `c47_history`, `c48_direction_refuted`, `c48_effect`, `c48_empty`, `c48_given`, `c48_learned`, `c49_answer`, `c49_construct`, `c49_given`, `c49_history`, `c49_isolated`, `c49_labels`, `c49_progress`, `c49_short_table_refuted`, `c49_soft`, `c49_training`, `c49_window`, `c50_learn`, `c50_plain`, `c51_calls`, `c51_second_raises`, `c51_session`, `c52_factors`, `c52_forced`, `c52_impossible`, `c52_only_if`, `c52_predict_error`, `c52_rectify`, `c52_signs`, `c52_too_long`, `c52_unknown_field`, `c55_answer`, `c55_debug`, `c55_entropies`, `c55_history`, `c55_label`, `c55_length`, `c55_new`, `c55_set_structures`, `c61_absent_class_refuted`, `c61_f1`, `c61_stats`, `c62_given`, `c62_given_refuted`, `c62_learned`, `c63_bayes_always`, `c63_bayes_history`, `c63_bayes_reduction_refuted`, `c63_bayes_update`, `c63_decode`, `c63_history`, `c63_no_answer`, `c63_update`, `c64_others_refuted`, `c64_predict`, `c65_call`, `c65_given`, `c65_no_window_refuted`, `c65_other_cluster_refuted`, `c66_array_refuted`, `c66_call`, `c66_construct`, `c66_isolated`, `c66_noiseless`, `c66_short_table_refuted`, `c68_aligned`, `c68_answer`, `c68_entropies`, `c68_length`, `c68_only_if`, `c68_rectify`, `c82_emle`, `c82_formula`, `c83_better_refuted`, `c83_clipped`, `c83_corrected`, `c83_ignorant`, `c83_no_trials`, `c83_row`, `c86_analyze`, `c86_labels`, `c87_dist`, `c87_dist_wraps_refuted`, `c88_llr`, `c88_recovery`, `c89_same_errors`, `c89_schedule`, `c92_capacity`, `c92_curves`, `c92_curves_fall`, `c92_flips`, `c92_limit`, `c92_measured`, `c92_measured_refuted`, `c92_modified`, `c92_shape`, `c94_blind`, `c94_compare`, `c94_constant`, `c94_floats`, `c94_rate_refuted`, `c94_section`, `c94_sections`, `c94_soft`, `c94_soft_any`, `c97_ber`, `c97_ber_empty`, `c97_constant`, `c97_constant_refuted`, `c97_entropy`, `c97_fit`, `c97_flips`, `c97_fraction`, `c97_fraction_refuted`, `c97_hellinger`, `c97_hellinger_refuted`, `c97_library`, `c97_mean`, `c97_prob`, `c97_sweep`, `c98_agreement`, `c98_confidence`, `c98_estimates`, `c98_learning`, `c98_opinion`, `c98_prediction`, `c98_sequence`, `c98_trust`.
<!-- end assumptions -->

## Modelled

| /repo | model | remarks |
|-------|-------|---------|
| utils/bit_operations.py | BitOps.v | |
| utils/information_theory.py | InfoTheory.v | values over R |
| utils/performance_analysis.py | Perf.v | |
| utils/random_sources.py | Markov.v | random choices are a parameter |
| protocol_meta/*.py | ProtocolMeta.v, MsgHeader.v | |
| mavlink_utils/HC_dialect.py | Dialect.v (messages), Mavlink.v (pack, send, decode), Parser.v, Signing.v, ApiTable.v + Wrappers.v (generated `*_encode`, `*_send`, constructors), Message.v (message objects) | wire protocol 1.0 for sending; floats are bit patterns |
| inference/buffer_segmentation.py | Segmentation.v | |
| inference/statistical_models.py | StatModels.v | erf abstract |
| the remaining methods of FieldModel and BufferModel | FieldMethods.v | scipy's norm.pdf and norm.cdf are parameters; overflow and underflow of num_std * std |
| data_generation/mission_profile.py | Mission.v | the file it opens (nothing is sent), the generator itself; constants are exact |
| inference/dude.py in double precision | Dude.v with Bops of IeeeOps.v | numpy.linalg.inv (any result within 2^-40); products and sums are rounded one by one, numpy's matmul may fuse them |
| inference/bmm.py in double precision | Bmm.v with Bops of IeeeOps.v | sums are rounded one by one from left to right; numpy adds pairwise and its dot product may fuse multiplication and addition |
| inference/statistical_models.py in double precision | StatModels.v with Bops of IeeeOps.v | sums are rounded one by one from left to right (numpy adds pairwise from eight samples on); non-finite values given to classify_value |
| json.dump / json.load as called by inference/statistical_models.py:290-301, scripts/train_estimator.py:63-64 and runs/HC_eilat_July_2018/simulated_data_pretrained_model.py:71-72 | JsonText.v | the float printer and reader (parameters that are inverse to each other); RecursionError on deep documents; the newline translation of Windows; what the disk keeps of a write (any beginning of the text) |
| scripts/fix_results.py:14-37 | FixResults.v | the paths, pickle, lzma and savemat; the index of the tables; aliases among the steps (a pool gives none) |
| the file statements of runs/*/*.py and scripts/classifier_analysis.py (lines listed per script), utils/common_logging.py:4-23 | Saving.v, SaveTable.v | what the results hold (the other files of the model); simulated_data_entropy_bitwise_decoder_weighted_model_averaged.py (a directory in a loop); separators in option values; the log on another device |
| timestamp in the scripts of runs/, scripts/classifier_analysis.py and scripts/unify_results.py (e.g. simulated_data_combined_decoder.py:245-246, 253-254) | Timestamp.v | changes of the UTC offset, clocks set back |
| all .py files but tests and the two generated dialects: where names are bound and read | `Model/Names.v`, `Model/NamesTable.v` (generated) | conditions not on options, numbers of turns and failures are free; calls have locals of their own and do not recurse; attributes and builtins are left out |
| all classes but enumerations, exceptions and dialects: where methods set and read attributes of self | `Model/AttrsTable.v` (generated) | conditions other than on constructor arguments kept unchanged are free; calls of own methods are inlined after their arguments; attributes set from outside the class and attributes of other objects are left out |
| imports of all modules and scripts of the code: sys.modules, packages, what failures leave | `Model/Imports.v`, `Model/ImportsTable.v` (generated) | packages of others either work or make their statement fail; statements other than imports only bind names or fail; del and rebinding of names are left out |
| mavlink_utils/HC_dialect.py:97-104, 221-248 with WIRE_PROTOCOL_VERSION 2.0 (minimal_dialect.py has the same lines) | `Model/Wire2.v` | how the constant came to be changed; the stream parser on such bytes |
| mavlink_utils/HC_dialect.py:8639-8657, 8678-8712, 8761-8772 with callbacks | `Model/Link.v` | threads; RecursionError; signing what is sent; callbacks of parsers without robust_parsing |
| scripts/buffer_segmentation_example.py | ExampleScript.v | the part of the script after line 31 is an arbitrary continuation (it is never reached) |
| inference/clustering.py, bmm.py, dude.py, entropy_mle.py | Clustering.v, Bmm.v, Dude.v, Emle.v | |
| decoders/*.py | DecoderBase.v, EntropyDecoder.v, WeightedDecoder.v, ClassDecoder.v, DudeDecoder.v, Rectify.v, MavlinkDecoder.v, CombinedDecoder.v, Turbo.v | the LDPC decoder is a parameter |
| runs/clsutering_analysis/functions.py, part of runs/HC_eilat_July_2018/ecncoding_data.py | Relabel.v | |
| runs/HC_eilat_July_2018/data/msg_creator.py; cutting into words in scripts/train_estimator.py and the simulations | MsgCreator.v | the .mat file is a parameter |
| simulation_step (simulated_data_classifying_entropy_decoder.py), runs/Feb_2022 and Feb_2023 experimental_data_run | Simulation.v | decoders, draws, noise and the channel model are parameters; all rows of a table are as wide as the widest |
| the experiments with told errors: the loop, the tables, np.where(errors == 1), the structure of the first word, of the four scripts experimental_mavlink_based.py and experimental_data_unified_decoder.py | Informed.v | reading of the files, matrices, logging and saving are not modelled; unified scripts of Feb_2023 use one parity check matrix for all message types |
| the structures handed to set_buffer_structures, segmentation of the information bits of a word | Delivery.v | info_bits of the LDPC library is the string of information bits; the code and the channel are not modelled (the theorems start from a recovered word) |
| bsc_capacity.py, entropy_with_flips.py | Capacity.v | the drawing; nan outside of 0 < p < 1 |
| comparison scripts: compare_denoisers, sections of dude_example | Compare.v | random sources (arguments), stats of sklearn, the printed text |
| commands recorded by the scripts, argparse for their options | Cmd.v, Commands.v | quoting and expansion by the shell, '--', texts of floats (parameters), how the words are counted (only that the list is doubled) |
| scripts/unify_results.py 18-58; simulated_data_entropy_bitwise_decoder_weighted_model.py 194-197 (opening and writing of the file of a step) | Unify.v | the directories and names of the written files, the figures, the args of an earlier summary; a file that is not complete cannot be loaded; two processes writing one file at once leave one of the two contents |
| the double precision operations of all the float code; simulated_data_combined_decoder.py 66, 168 and the same lines of the other simulations (np.linspace, int(n * p)) | Sweep.v, IeeeOps.v | the order in which numpy adds (taken to be left to right; for two numbers there is one order), the bits of exp, log, log2 and pow, float exceptions and warnings, OverflowError of int(inf) (here a ValueError) |
| the double precision operations of entropy_mle.py and of the models of the decoders | Emle.v, DecoderBase.v, ClassDecoder.v | np.clip of nan, which gives nan (in the model a bound); nan does not arise under the hypotheses |
| numbers of accepted byte strings | CountSpec.v (Spec) | no code of its own: the models of decode and segment_buffer |
| simulation_step of the simulations with several decoders (combined, Gallager B, bit flipping, Gaussian noise, pre-trained, DUDE, mavlink), nested errors of the averaged simulation | SimVariants.v | decoders, channel models and random draws are parameters; logging to file and saving of results not modelled, only the computed rates |
| the pool of the simulations: Pool(...).map(simulation_step, ...), the global generator and the global number of iterations | Workers.v | multiprocessing is modelled from its documentation (chunks in a queue, results in order, workers forked with a copy of the memory); the generator is any function |
| the three oldest simulation scripts up to the results of the steps | Legacy.v | printing, plotting, pickling; the values of the items of the library beyond their number and kind |
| the clustering trials and the training of the digits script | Trials.v | saving the words as a file; loading the digits |
| setup_logger and the part of Python's logging it relies on | Logging.v | time stamps, names with empty parts (two dots in a row), other users of logging in the process |
| classifier_analysis.py: classifier_characterization, forcing_characterization, the loop of simulation_step | Characterize.v | a set of field numbers is its ascending list; wrong positions and words are parameters; the log is not modelled |
| analysis/MLE_noisy_Bernoulli.py: one row of results | NoisyMle.v | the drawn samples and noises are parameters; the loops over p1 and f, the data frame and the plots are not modelled |
| runs/Feb_2022/data/ship_log_reader.py | ShipLog.v | decoding and parsing of a time and its day are parameters; int for ASCII only; the search for files and their order not modelled |
| runs/clsutering_analysis/clustering_analysis.py:35-125 | ClusterAnalysis.v | plots, logging and the files of results are not modelled; the split is a given order |
| runs/Feb_2022/train_buffer_model.py, runs/Feb_2023/train_buffer_model.py, scripts/train_estimator.py:22-53 | TrainModels.v | reading of the tables, the histogram and the writing of files are not modelled; the encoder is an external library |
| mavlink_utils/minimal_dialect.py: messages, decode | MinimalTable.v (generated), MinimalDialect.v | generic code that is literally the same as in HC_dialect.py is not copied; generated encode and send methods are not modelled; enumerations: Enums.v |

Each definition's comment cites the lines it models and says what is simplified.

## Not modelled

Plots; the contents of pickles and .mat files beyond what C96, C109 and C110 say of them; the texts that are logged beyond the rates of C88;
the help texts of the command line; multiprocessing beyond C89 (schedules of a pool); the LDPC package, numpy,
scipy, scikit-learn and bitstring, which are parameters or specified where they are used; rounding in the results of the claims up to C96; the native
parser (mavnative), threads that parse on a shared connection, and the stream parser on frames of C117; the texts of descriptions in the dialects.
