{"id": "C01", "title": "hamming_distance counts differing bits and is a metric", "statement": "For two byte strings, two bit arrays, or two ints that fit uint_len, hamming_distance returns the number of bit positions in which they differ; it is symmetric, zero exactly on equal arguments, obeys the triangle inequality and never exceeds the bit length. Arguments of different bit length, ints that do not fit, and unsupported types always raise instead of returning a number.", "quantifier": "all pairs of arguments of every accepted and rejected type, all lengths", "why_tests_cant": "byte strings and bit arrays of every length and content", "anchors": ["utils/bit_operations.py:hamming_distance"]}
{"id": "C02", "title": "FrameHeader construction accepts exactly the legal headers", "statement": "FrameHeader(msg_id, sys_id, comp_id, seq) succeeds iff the three ids are 0..255 and msg_id exists in the dialect; then .buffer is FE, payload length of msg_id, seq, sys, comp, msg_id and every accessor reads back the constructor argument. Otherwise it raises NonUint8 for any out of range value and NonExistentMsdId for an in-range unknown msg_id.", "quantifier": "all integers for each of the four arguments", "why_tests_cant": "four unbounded integer arguments", "anchors": ["protocol_meta/msg_header.py:FrameHeader.__init__", "protocol_meta/msg_header.py:FrameHeader.length", "protocol_meta/msg_header.py:FrameHeader.msg_id"]}
{"id": "C03", "title": "header serialisation round trip", "statement": "Every constructed header passes is_valid_header; from_buffer of its buffer gives an equal header; and for every 6 byte buffer, from_buffer(b).buffer == b iff is_valid_header(b). force_msg_id replaces only the id (and the length that follows from it). Buffers of any other length raise HeaderLength.", "quantifier": "all byte buffers of every length, all forced ids", "why_tests_cant": "2^48 six byte buffers times all lengths", "anchors": ["protocol_meta/msg_header.py:is_valid_header", "protocol_meta/msg_header.py:FrameHeader.from_buffer"]}
{"id": "C04", "title": "hamming_distance_2_valid_header returns the distance to the nearest valid header", "statement": "Without max_len, for every 6 byte buffer the returned distance is the minimum Hamming distance between the buffer and any buffer accepted by is_valid_header, the returned id belongs to a header at that distance, it is the first such id in table order, and the distance is 0 iff the buffer itself is a valid header.", "quantifier": "all 6 byte buffers", "why_tests_cant": "the minimum ranges over 2^24 headers per message for each of 2^48 inputs", "anchors": ["protocol_meta/msg_header.py:hamming_distance_2_valid_header", "protocol_meta/msg_header.py:is_valid_header"]}
{"id": "C05", "title": "max_len restricts the nearest header search", "statement": "With max_len the returned id is the first nearest message whose payload length is at most max_len (id -1 and distance 17+d when there is none), provided no over-long message matches the buffer exactly; when one does, the search stops early and may miss admissible messages (refuted: concrete header for which -1 is returned although an admissible message exists).", "quantifier": "all 6 byte buffers and all max_len", "why_tests_cant": "unbounded max_len and all buffers; the early exit only shows on exact over-long matches", "anchors": ["protocol_meta/msg_header.py:hamming_distance_2_valid_header"]}
{"id": "C06", "title": "dialect length metadata agrees with the wire format exactly for messages without arrays", "statement": "For every message of the dialect, msgs_payload_length equals the byte size of its struct format iff the message has no array field; for array messages it is strictly smaller (defect). Message ids are distinct and fit a byte; msgs_fields lists the fields in wire order with the type whose size the format character has.", "quantifier": "all messages of the dialect", "why_tests_cant": "whole-table consistency between independently written tables", "anchors": ["protocol_meta/protocol_meta.py:MavlinkDialectMeta", "mavlink_utils/HC_dialect.py:mavlink_map"]}
{"id": "C07", "title": "checksum is CRC-16/MCRF4XX", "statement": "The byte-wise checksum used by pack and decode equals the standard bit-serial reflected CRC (poly 0x1021, init 0xFFFF) on every byte string, processes concatenations incrementally, and is affine over GF(2).", "quantifier": "all byte strings", "why_tests_cant": "all lengths and contents", "anchors": ["mavlink_utils/HC_dialect.py:MAVLink_message.pack", "mavlink_utils/HC_dialect.py:MAVLink.decode"]}
{"id": "C08", "title": "decode accepts exactly well formed frames", "statement": "MAVLink.decode on a v1 buffer succeeds iff it is at least a header long, the length byte equals len-8, the id is in the dialect and the checksum over bytes 1..n-3 plus the message's extra byte equals the little-endian trailer; the returned header fields are the header bytes and each field has the value of its little-endian bytes at its wire offset, missing payload bytes counting as zero and excess ones being ignored. v2 buffers (start 0xFD, optional 13 byte signature) likewise. Every other non-empty buffer raises MAVError, the empty one IndexError.", "quantifier": "all byte buffers", "why_tests_cant": "all lengths and contents", "anchors": ["mavlink_utils/HC_dialect.py:MAVLink.decode"]}
{"id": "C09", "title": "pack/decode round trip", "statement": "For every message of the dialect (arrays and strings included), every header value that fits a byte and all field values in range of their types, pack succeeds, the frame has 8 bytes more than the payload and decode returns the same id, sequence, system and component ids and field values (strings truncated or zero padded to the field width, decoded and cut at the first NUL). Header values that do not fit a byte make pack raise.", "quantifier": "all messages of the dialect, all header values, all field values", "why_tests_cant": "all payloads of every message", "anchors": ["mavlink_utils/HC_dialect.py:MAVLink_message.pack", "mavlink_utils/HC_dialect.py:MAVLink.decode"]}
{"id": "C10", "title": "corrupted frames are rejected by decode", "statement": "If decode accepts a v1 frame, it rejects every frame obtained from it by flipping a single bit, with exactly one exception: frames of message 4 or 6 carrying 208 payload bytes (decode does not compare the payload length with the message), where flipping the bit that turns 4 into 6 yields another accepted frame. Frames whose payload has the message's own size are never in the exception. With start marker and id intact, every odd number of flips, every two flips, every burst of at most 16 bits inside the covered bytes or inside the checksum (8 anywhere), and every change of the length byte is rejected.", "quantifier": "all accepted frames, all error patterns of the classes", "why_tests_cant": "all frames times all error patterns", "anchors": ["mavlink_utils/HC_dialect.py:MAVLink.decode", "inference/buffer_segmentation.py:BufferSegmentation.segment_buffer"]}
{"id": "C11", "title": "segmentation is sound", "statement": "Every (index, id) reported by segment_buffer is the start of a frame that lies in the buffer, has a valid header with that id and was accepted by the parser; reported frames are listed in increasing order and never overlap. Parser errors other than MAVError propagate.", "quantifier": "all buffers, all parser behaviours", "why_tests_cant": "all buffers and arbitrary parser", "anchors": ["inference/buffer_segmentation.py:BufferSegmentation.segment_buffer"]}
{"id": "C12", "title": "segmentation is complete and deterministic (greedy leftmost)", "statement": "Every position with a valid header accepted by the parser is either reported or lies inside an earlier reported frame; the reported structure is the only one with that property and C11.", "quantifier": "all buffers, all parser behaviours", "why_tests_cant": "all buffers and arbitrary parser", "anchors": ["inference/buffer_segmentation.py:BufferSegmentation.segment_buffer"]}
{"id": "C13", "title": "byte classification and bit validity agree with the reported structure", "statement": "msg_parts has one entry per byte and bit_validity eight per byte; a byte is HEADER/PAYLOAD/CHECKSUM exactly when it lies in that part of a reported frame, otherwise UNKNOWN; a bit is valid (1) exactly when its byte lies in a reported frame, otherwise 0.", "quantifier": "all buffers, byte and bit indices", "why_tests_cant": "all buffers", "anchors": ["inference/buffer_segmentation.py:BufferSegmentation.segment_buffer", "inference/buffer_segmentation.py:MsgParts"]}
{"id": "C14", "title": "a stream of packed messages is completely recovered", "statement": "The concatenation of any sequence of packed array-free messages (any payloads, ids, sequence numbers) is segmented into exactly these messages at exactly their offsets, no byte is UNKNOWN, bad_buffer_idx is None; this includes everything written by MAVLink.send, whose sequence numbers are the message counter mod 256.", "quantifier": "all finite sequences of array-free messages", "why_tests_cant": "all message sequences of every length", "anchors": ["inference/buffer_segmentation.py:BufferSegmentation.segment_buffer", "mavlink_utils/HC_dialect.py:MAVLink_message.pack", "mavlink_utils/HC_dialect.py:MAVLink.send"]}
{"id": "C15", "title": "segmentation resynchronises after damage", "statement": "If a buffer is valid frames, then a damaged region in which no parser-accepted frame starts, then valid frames, segment_buffer reports exactly the valid frames on both sides and marks exactly the damaged region UNKNOWN.", "quantifier": "all prefixes, damaged regions and suffixes", "why_tests_cant": "all buffers; interplay of scanning position and damage", "anchors": ["inference/buffer_segmentation.py:BufferSegmentation.segment_buffer"]}
{"id": "C16", "title": "array messages are never recognised (defect)", "statement": "A correctly packed message that has an array field is never reported at its start position by segment_buffer, whatever the payload, because the length table ignores array sizes.", "quantifier": "all array messages, payloads and headers", "why_tests_cant": "all payloads", "anchors": ["protocol_meta/protocol_meta.py:MavlinkDialectMeta", "inference/buffer_segmentation.py:BufferSegmentation.segment_buffer"]}
{"id": "C17", "title": "bad_buffer_idx lists exactly the maximal unknown runs", "statement": "For msg_parts of the buffer's length, bad_buffer_idx is None iff no byte is UNKNOWN, else the increasing list of the maximal intervals of UNKNOWN bytes; msg_parts shorter than the buffer raises IndexError when an unknown is present.", "quantifier": "all buffers and classifications", "why_tests_cant": "all classifications of every length", "anchors": ["inference/buffer_segmentation.py:BufferSegmentation.bad_buffer_idx"]}
{"id": "C18", "title": "bad_buffer_parts and bad_buffer_idx describe the same bytes", "statement": "bad_buffer_parts maps exactly the start of each interval of bad_buffer_idx to the buffer bytes of that interval, and is empty iff bad_buffer_idx is None.", "quantifier": "all buffers and classifications", "why_tests_cant": "all classifications of every length", "anchors": ["inference/buffer_segmentation.py:BufferSegmentation.bad_buffer_parts", "inference/buffer_segmentation.py:BufferSegmentation.bad_buffer_idx"]}
{"id": "C19", "title": "BufferStructure registration", "statement": "register_buffer appends the buffer and counts it iff each frame start of the structure carries the expected id, otherwise the object is unchanged and an exception is raised: ValueError if a known but different id is met first, but HeaderLength/NonExistentMsdId escape when a truncated or unknown-id frame is met first (defect: adheres_to_structure does not return False). reception_count always equals the number of stored buffers.", "quantifier": "all structures, buffers and histories of register calls", "why_tests_cant": "all call histories", "anchors": ["inference/buffer_segmentation.py:BufferStructure"]}
{"id": "C20", "title": "num2bits is the wire encoding", "statement": "For integer field types and a number that rounds to an in-range integer v, num2bits yields 8*field_len bits whose bytes unpack (with the type's struct format) to v, negative inputs of unsigned types giving 0; out of range raises struct.error; type char always raises.", "quantifier": "all field types and all rational numbers", "why_tests_cant": "all numbers", "anchors": ["inference/statistical_models.py:num2bits"]}
{"id": "C21", "title": "FieldModel keeps exactly the last window_size samples", "statement": "After any interleaving of add_sample calls (single or list) and reads the stored samples are the last window_size samples ever added, or all when window_size is None. Two exceptions, both with witnesses: window_size 0 keeps everything, a negative window_size drops samples that were just added.", "quantifier": "all histories of add_sample, all windows", "why_tests_cant": "all histories", "anchors": ["inference/statistical_models.py:FieldModel.add_sample"]}
{"id": "C22", "title": "FieldModel statistics are never stale", "statement": "For window_size None or >= 0, in every reachable state mean, std, bitwise_mean and classify_value reflect exactly the samples currently stored (mean and population standard deviation), whatever the interleaving of additions and reads; with no samples they are 0; a stored non-finite or bytes sample makes every read raise. For a negative window_size the cached mean can outlive all samples (witness).", "quantifier": "all interleavings of add_sample and reads", "why_tests_cant": "all histories; lazily cached state", "anchors": ["inference/statistical_models.py:FieldModel.mean", "inference/statistical_models.py:FieldModel._update", "inference/statistical_models.py:FieldModel.classify_value"]}
{"id": "C23", "title": "classify_value is a probability that decreases with distance from the mean", "statement": "For every stored list of numbers the returned value is in [0,1], is 1 at the mean, depends on |value-mean| only and is non-increasing in it; when all samples agree (std 0) it is 1 on that value and 0 elsewhere, otherwise 1-erf(|mean-value|/(std*sqrt 2)); before any sample only the value 0 is accepted.", "quantifier": "all sample sets and values", "why_tests_cant": "all real values", "anchors": ["inference/statistical_models.py:FieldModel.classify_value"]}
{"id": "C24", "title": "BufferModel sample counts after any history of add_buffer", "statement": "After any history of additions and reads model_size is the number of accepted buffers, saturating at window_size, and every field holds the last window_size values recorded under its name; with one structure a field whose name occurs once per buffer holds the values of the last window_size buffers, while names shared by several messages (magic, seq, srcSystem) receive one sample per message, so their window covers fewer buffers (witness). A rejected buffer (truncated, array message, unknown id, wrong type) raises and leaves the model unchanged.", "quantifier": "all histories of add_buffer", "why_tests_cant": "all histories", "anchors": ["inference/statistical_models.py:BufferModel.add_buffer", "inference/statistical_models.py:BufferModel.add_sample"]}
{"id": "C25", "title": "unpack_structure maps every bit to the field covering it", "statement": "The call succeeds exactly for structures of known, array-free messages that lie within the buffer; then the bit map assigns each bit the index of the last field covering it (the only one if messages do not overlap), -1 to all other bits, and the name and type lists give at that index the name and type of that field. The first unknown message raises KeyError, the first too long one ValueError, an array message within the buffer TypeError.", "quantifier": "all structures and buffer lengths", "why_tests_cant": "all structures", "anchors": ["inference/statistical_models.py:BufferModel.unpack_structure"]}
{"id": "C26", "title": "unpack_values agrees for bytes and bit arrays and returns wire values in order", "statement": "For every buffer, unpack_values(bytes) = unpack_values(its bit array); it succeeds exactly when unpack_structure does, and the values are those of the header bytes and of the payload fields in wire order, aligned with unpack_structure; truncated buffers and array messages raise struct.error, unknown ids KeyError.", "quantifier": "all structures and buffers", "why_tests_cant": "all structures and buffers", "anchors": ["inference/statistical_models.py:BufferModel.unpack_values"]}
{"id": "C27", "title": "predict assigns to every bit the validity of its field", "statement": "predict returns one entry per field; bits of a modelled field carry that field's classify_value result and std; bits outside fields or of unmodelled fields are nan and unmodelled fields are None.", "quantifier": "all models, structures and buffers", "why_tests_cant": "all models", "anchors": ["inference/statistical_models.py:BufferModel.predict"]}
{"id": "C28", "title": "find_damaged_fields names the field of every erroneous bit", "statement": "The result lists, for the sorted error positions that lie within some field, the (name, index) of that field, in position order and with multiplicity; positions beyond the buffer are ignored, negative ones count from the end, and a position before the beginning makes the result None.", "quantifier": "all structures and error sets", "why_tests_cant": "all error sets", "anchors": ["inference/statistical_models.py:BufferModel.find_damaged_fields"]}
{"id": "C29", "title": "bitwise_model_mean yields the wire bits of the mean", "statement": "At every bit of a field the returned bit is the corresponding bit of num2bits(mean of that field); when all samples of an integer field are equal it is the bit that every stored buffer had there.", "quantifier": "all models and structures", "why_tests_cant": "all models", "anchors": ["inference/statistical_models.py:BufferModel.bitwise_model_mean"]}
{"id": "C30", "title": "save then load restores the model", "statement": "load(save(m)) has the same fields with the same type, window and samples, the same window_size, model_size and description (header bytes, field tuples, crc marks), hence the same predictions; only the field iteration order changes (sorted by name). save raises exactly when some field holds a sample that is no finite number; a description with other strings than crc is not restored (witnesses).", "quantifier": "all models reachable through the API", "why_tests_cant": "all models", "anchors": ["inference/statistical_models.py:BufferModel.save", "inference/statistical_models.py:BufferModel.load"]}
{"id": "C31", "title": "prob returns the empirical distribution", "statement": "For integer data prob_with_alphabet returns the sorted distinct values as alphabet and for each row the fraction of its samples equal to each; rows are nonnegative and sum to 1. Float data and other shapes raise.", "quantifier": "all integer matrices and vectors", "why_tests_cant": "all data", "anchors": ["utils/information_theory.py:prob_with_alphabet", "utils/information_theory.py:prob"]}
{"id": "C32", "title": "entropy is within [0, log2 n], zero exactly for deterministic and maximal for uniform rows", "statement": "For every row of nonnegative numbers with positive sum the result is the Shannon entropy of the scaled row in the given base; for a probability row over n symbols it lies in [0, log_base n], is 0 iff one symbol has probability 1 and is log_base n iff all symbols are equally likely. Other shapes raise ValueError.", "quantifier": "all probability vectors, all bases from 2", "why_tests_cant": "all real vectors", "anchors": ["utils/information_theory.py:entropy"]}
{"id": "C33", "title": "typical_set_cardinality bounds are ordered and guarded", "statement": "It raises ValueError iff n<=0, eps<=0 or both entropy and distribution are missing; otherwise lower < upper, both follow 2^(n(H±eps)) (the lower one scaled by 1-eps). For a memoryless source the upper bound bounds the number of typical sequences of length n for every n; the lower bound does once the typical sequences have probability at least 1-eps, but not for every n (witness with no typical sequence at all).", "quantifier": "all n, eps, entropies", "why_tests_cant": "all real parameters", "anchors": ["utils/information_theory.py:typical_set_cardinality"]}
{"id": "C34", "title": "hellinger is a bounded symmetric distance", "statement": "For probability rows of equal length the result is sqrt(1/2 sum (sqrt p - sqrt q)^2): a metric (symmetric, 0 iff the rows are equal, triangle inequality) with values in [0,1], 1 iff the supports are disjoint. Incompatible lengths and dimensions raise ValueError.", "quantifier": "all pairs of probability vectors", "why_tests_cant": "all real vectors", "anchors": ["utils/information_theory.py:hellinger"]}
{"id": "C35", "title": "ber is the fraction of differing bits", "statement": "For equal-length 0/1 signed arrays ber = Hamming distance / length; for uint8 arrays the subtraction wraps and every 0->1 error counts 255 (defect).", "quantifier": "all pairs of bit arrays", "why_tests_cant": "all arrays and dtypes", "anchors": ["utils/performance_analysis.py:ber"]}
{"id": "C36", "title": "classifier phases", "statement": "For min_data_size >= 2, k >= 1 and training buffers that hold both bit values, BufferClassifier.classify returns -1 exactly for the first min_data_size-1 calls; every later call never raises and returns the number (below min(k, min_data_size-1)) of the first cluster of largest mean log-likelihood, respectively of least Hamming distance to the cluster's hard bits. With min_data_size <= 1 every call raises UnboundLocalError, and after training on a constant buffer every call raises IndexError (defects).", "quantifier": "all buffer sequences of one length, all parameters", "why_tests_cant": "the claim is about every history", "anchors": ["inference/clustering.py:BufferClassifier.classify"]}
{"id": "C37", "title": "clustering conserves samples", "statement": "Under the same conditions, after training every buffer ever classified is a member of exactly one cluster: the clusters partition the history, the two counters of every bit count exactly the members with that value, sample counts add up to the number of calls, uids are 0..len-1, there are min(k, min_data_size-1) clusters, and a call changes only the cluster it returns. Over exact reals the training clusters result from repeatedly merging the first pair of least weighted mean Hellinger distance. A constant training buffer is merged into wrong counters without an error (defect).", "quantifier": "all buffer sequences of one length, all parameters, all distance settings", "why_tests_cant": "the claim is about every history", "anchors": ["inference/clustering.py:Cluster", "inference/clustering.py:BufferClassifier.merge_clusters"]}
{"id": "C38", "title": "Cluster.hard_bits is not the majority vote (defect)", "statement": "hard_bits compares a count of ones with a share of zeros; over exact reals the result is 1 wherever at least one member of the cluster has a 1, which differs from the majority vote.", "quantifier": "all clusters that count their members", "why_tests_cant": "all member lists", "anchors": ["inference/clustering.py:Cluster.hard_bits"]}
{"id": "C39", "title": "OnlineDude context statistics are exact", "statement": "For context length k >= 1, after any sequence of observations in the alphabet the current context is the last k symbols and the statistics of every context c are the numbers of times each symbol was observed right after c (no entry for contexts never followed). The first k observations are returned unchanged at cost 0. A symbol outside the alphabet raises ValueError and changes nothing; denoise_sequence is the iteration of denoise_sample and stops at the first such symbol. Setting the initial context on a fresh object equals having observed it, ValueError iff its length is not k; reset equals a fresh object. For k <= 0 the object behaves as for k = 1, so the statistics are not those of context length 0 (refuted).", "quantifier": "all observation sequences, k, alphabets, channel and loss matrices", "why_tests_cant": "all histories", "anchors": ["inference/dude.py:OnlineDude.denoise_sample", "inference/dude.py:OnlineDude.denoise_sequence", "inference/dude.py:OnlineDude.initial_context", "inference/dude.py:DUDE.reset"]}
{"id": "C40", "title": "OnlineDude hard decision is the first symbol of least estimated loss", "statement": "For every alphabet, the hard estimate is the first symbol that minimises the estimated loss computed from the exact context counts, and the returned cost is that loss. For a binary symmetric channel with 0 <= delta < 1/2 and the Hamming loss an observed 0 is changed iff zeros make up less than the share 2*delta*(1-delta) of the symbols seen in its context, and an observed 1 iff ones make up at most that share.", "quantifier": "all histories, alphabets, matrices; all real delta in [0,1/2)", "why_tests_cant": "all real delta and histories", "anchors": ["inference/dude.py:OnlineDude.denoise_sample"]}
{"id": "C41", "title": "soft DUDE output is a probability vector", "statement": "For every binary channel with positive entries and a (right) inverse, after any history the soft estimate is a pair of positive numbers that add up to 1, proportional to the smoothed input counts times the channel probabilities of the observation, and the cost is its expected loss. Smoothing does not preserve the number of observations (refuted with a binary symmetric channel).", "quantifier": "all histories, all invertible binary channels with positive entries", "why_tests_cant": "all real channels", "anchors": ["inference/dude.py:OnlineDude.smooth_posterior", "inference/dude.py:DUDE.smooth_posterior"]}
{"id": "C42", "title": "batch DUDE leaves the borders unchanged and uses exact two-sided counts", "statement": "denoise_sequence returns one estimate per observation; those at the first and last k positions (hence all when the length is at most 2k) are the observations at cost 0; each other hard estimate is the first symbol of least loss and each soft estimate the smoothed posterior, for the exact counts of its two-sided context; the second result is the mean cost. A symbol which is no index of the alphabet raises IndexError, between the borders and, for soft decisions, anywhere; a negative one stands for the symbol counted from the end. DUDE.denoise_sample always raises AttributeError (defect).", "quantifier": "all sequences, k, alphabets and matrices", "why_tests_cant": "all sequences", "anchors": ["inference/dude.py:DUDE.denoise_sequence", "inference/dude.py:DUDE.denoise_sample"]}
{"id": "C43", "title": "EMLE window and model size", "statement": "After any number of updates with observations of equal length the stored data are the last window_length observations (all when window_length <= 0) and model_size is min(n, window_length), n when window_length is 0; it is the number of stored observations whenever window_length >= 0, and stays 0 for a negative window. An observation of another length raises ValueError and changes nothing; reset equals a fresh object.", "quantifier": "all histories, all windows", "why_tests_cant": "all histories", "anchors": ["inference/entropy_mle.py:EMLE.update_model", "inference/entropy_mle.py:EMLE.reset"]}
{"id": "C44", "title": "EMLE estimates are probabilities and prediction is local", "statement": "For flip probability 0 <= f < 1/2 each p1 is in [0,1] and is the probability that explains the share m of ones in the window (0 when m <= f, 1 when m >= 1-f, else m = p(1-f)+(1-p)f), and the stored entropy is that of p1. predict adds confidence times the log ratio exactly to the bits of entropy below the threshold, so each changed bit moves towards the value in the majority, and at most one observation or a negative window changes nothing. Inputs of another length raise IndexError iff a structural bit is known and at least two observations count. denoise_buffer predicts from the earlier buffers, then learns the received hard bits, and its cost is the number of bits changed; denoise_sequence iterates it.", "quantifier": "all histories, inputs and parameters (exact reals)", "why_tests_cant": "all histories and real inputs", "anchors": ["inference/entropy_mle.py:EMLE.predict", "inference/entropy_mle.py:EMLE.denoise_buffer", "inference/entropy_mle.py:EMLE.denoise_sequence", "inference/entropy_mle.py:bsc_llr"]}
{"id": "C45", "title": "model confidence is a monotone probability", "statement": "Confidence is 0 for at most one sample and otherwise the logistic function of (size - centre) * slope: in (0,1), nondecreasing in the sample count for slope >= 0 (strictly for slope > 0 from two samples on), 1/2 at the centre.", "quantifier": "all sizes, centres, slopes", "why_tests_cant": "all real parameters", "anchors": ["inference/entropy_mle.py:EMLE._model_confidence"]}
{"id": "C46", "title": "the Bernoulli mixture is fitted by expectation maximisation", "statement": "fit performs exactly max_iter steps of expectation maximisation for the textbook mixture (tol is not used): weights stay positive and add up to 1, means stay in [0,1], each responsibility row is the posterior, positive and adds up to 1, Neff are its column totals, logL the mean log likelihood, and NaN never occurs. A step does not decrease the likelihood when no mean before it is within 1e-15 of 0 or 1. predict returns the first component of greatest posterior; score and score_samples are log likelihoods. No components: ZeroDivisionError.", "quantifier": "all non-empty binary data sets, component counts, iteration counts and drawn start values (exact reals)", "why_tests_cant": "all data and iteration counts", "anchors": ["inference/bmm.py:BMM.fit", "inference/bmm.py:BMM.predict", "inference/bmm.py:BMM.score"]}
{"id": "C47", "title": "entropy decoders learn only fully recovered buffers and keep a window", "statement": "When the first model_length code bits are information bits, after any history of decode_buffer the data set of EntropyBitwiseDecoder and EntropyBitwiseFlippingDecoder consists of the model bits of the last window_length returned estimates whose every byte belongs to a MAVLink frame, and the model holds the frequency of ones and the entropy of each bit; each call returns the plain LDPC answer if that succeeds, else the LDPC answer for the predicted word, with the number of messages found; a given model is never changed. When some of the first model_length code bits are not information bits, recovered buffers raise IncorrectBufferLength and nothing is learned (defect).", "quantifier": "all histories of decode_buffer, all LDPC behaviours, all windows", "why_tests_cant": "all histories and LDPC behaviours, unbounded length", "anchors": ["decoders/entropy_bitwise_decoder.py:EntropyBitwiseDecoder", "decoders/entropy_bitwise_decoder.py:EntropyBitwiseFlippingDecoder"]}
{"id": "C48", "title": "model rectification is local and bounded", "statement": "EntropyBitwiseDecoder.model_prediction adds to every model bit of entropy below the threshold the log ratio of its model probabilities clipped to clipping_factor times the largest LLR, and changes nothing else; before min_data buffers are learned it changes nothing. When that bound is positive no value moves by more than it and structural bits move towards the value the model favours; when it is negative all structural bits are lowered by it whatever the model says (defect, witness); a given model with fewer rows than model bits raises IndexError (defect).", "quantifier": "all LLR vectors, models and learning histories", "why_tests_cant": "all real vectors", "anchors": ["decoders/entropy_bitwise_decoder.py:EntropyBitwiseDecoder.model_prediction"]}
{"id": "C49", "title": "classifying decoder isolates clusters", "statement": "A decode of ClassifyingEntropyDecoder changes at most the model of the returned label. A negative label changes no model and returns the plain LDPC answer; it is given to the first classifier_training-1 buffers (if each holds both bit values). Without clustering the labels run round robin 0,1,..,n-1,0,... over all calls; with clustering they are those of the classifier fed with the received model bits. After any answered history the model of a cluster stores the last window_length buffers taught under its label (the estimate on success, else the received bits) and knows their channel-corrected frequencies; a soft LDPC decoder is fed the received word plus the weighted log ratios at structural bits, clipped. A given data model never changes. A call whose window holds a single bit value raises IndexError after storing; a position table shorter than model_length makes every taught call fail (defects).", "quantifier": "all histories of words and LDPC behaviours, all parameters", "why_tests_cant": "unbounded histories, arbitrary LDPC behaviour and classifier", "anchors": ["decoders/classifiying_decoder.py:ClassifyingEntropyDecoder"]}
{"id": "C50", "title": "constant training data crash the learners (defect)", "statement": "While all bits in the window are equal the learners that correct for the channel raise IndexError after storing the buffer, otherwise they know the corrected frequencies; the plain learner accepts such data but every later prediction raises IndexError. The two plain entropy decoders cannot get there through decode_buffer, since every recovered buffer holds both bit values.", "quantifier": "all histories of buffers, windows and lengths", "why_tests_cant": "all lengths and histories", "anchors": ["decoders/classifiying_decoder.py:ClassifyingEntropyDecoder.update_model", "decoders/combined_decoder.py:CombinedDecoder.update_entropy_model", "decoders/entropy_bitwise_decoder.py", "utils/information_theory.py:prob"]}
{"id": "C51", "title": "turbo decoder control flow", "statement": "TurboDecoder alternates its two decoders: each is fed the channel word plus what the other one added to its own input (nothing in the first round); the first decoder to report success ends the decoding at once, its estimate, soft output and index 1 or 2 are returned and no decoder is called afterwards; after max_iter rounds without success the second decoder's last answer is returned as a failure, with the number of bits in which it differs from the sent word when debugging; max_iter <= 0 raises UnboundLocalError without calling a decoder, and an exception of a decoder is passed on.", "quantifier": "all decoder behaviours and iteration limits", "why_tests_cant": "all decoders", "anchors": ["decoders/turbo.py:TurboDecoder.decode_buffer"]}
{"id": "C52", "title": "rectifying a word with the statistics of the fields", "statement": "The prediction step of the MAVLink decoder (shared with CombinedDecoder) returns the word as it came when no structure is known. Otherwise each bit is multiplied by the good factor where its field is more plausible than 1 - valid_threshold, by the bad factor where it is less plausible than invalid_threshold, by both where both hold and left alone elsewhere; bits of fields that always had one value and now differ (plausibility 0, deviation 0) are replaced by the model's bits with the peak amplitude times max(good factor, 1); then the bits of messages found in the received word become twice the received value times the good factor, or, when none is found there, the bits of messages found in the changed word are doubled. With positive factors a bit that is not replaced keeps its sign. While learning the factors run from 1 to the configured values. The reported masks, fields, forced and segmented bits are exactly those described. The step raises for a field the model does not know and for more information bytes than the word has. Positions found among the information bits are applied to the code word, so wrong bits change when the information bits are not the first ones (defect, witness).", "quantifier": "all real LLR words, models, structures, thresholds and information mappings; for the forced values all models reached by any history", "why_tests_cant": "arbitrary words, statistics and structures; a test sees a few", "anchors": ["decoders/mavlink_decoder.py:MavlinkRectifyingDecoder.model_prediction", "decoders/combined_decoder.py:CombinedDecoder.mavlink_model_prediction"]}
{"id": "C53", "title": "MAVLink decoder: answers and learning", "statement": "A call of MavlinkRectifyingDecoder.decode_buffer makes at most segmentation_iterations LDPC runs: the first one gets the rectified received word, each later one the rectified soft output of the run before; it ends with the first success. The estimate, soft output, label, marks and segmented bits are those of the last run, the iterations are the sum of all runs. While the classifier is trained (label -1) the LDPC answer to the plain word is returned. When learning, each run adds exactly one buffer to the model if it succeeded (its estimate) or if the structure of its label is known (the received bits), a success without known structure derives the structure from the estimate; everything else only reads the model. This holds for any history of calls, also of calls that raise; a known structure never changes. A given data model is only read. No rounds: UnboundLocalError. set_buffer_structures accepts exactly one entry for each cluster. Defects with witnesses: what is decoded during training becomes the structure of the last cluster; a success without messages fixes the empty structure for ever; without classifier labels are counted by runs instead of by words.", "quantifier": "all words, states, histories of calls, LDPC, classifier and information mappings", "why_tests_cant": "unbounded histories and arbitrary LDPC behaviour", "anchors": ["decoders/mavlink_decoder.py:MavlinkRectifyingDecoder.decode_buffer", "decoders/mavlink_decoder.py:MavlinkRectifyingDecoder.decode_and_update_model", "decoders/mavlink_decoder.py:MavlinkRectifyingDecoder.set_buffer_structures"]}
{"id": "C54", "title": "confusion counts are consistent", "statement": "tp is the number of distinct common indices, tp+fn the number of distinct actual positives, tp+fp the number of distinct predicted positives, fp+tn the given negative count; the reported number of positives counts repetitions and may exceed tp+fn (defect).", "quantifier": "all index lists", "why_tests_cant": "all lists", "anchors": ["decoders/mavlink_decoder.py:confusion"]}
{"id": "C55", "title": "combined decoder: answers, learning, and its defects", "statement": "A call of CombinedDecoder.decode_buffer answers exactly as follows. During the training of the classifier (label -1) the LDPC answer to the plain word is returned and nothing else changes. Otherwise the word is rectified with the field statistics of the label (C52), the opinion of the entropy model of the label (log ratios of its sure bits, weighted by its confidence and limited to clipping_factor times the largest received magnitude) is added, and the LDPC decoder answers; then the structure, the field statistics and the entropy model of the label, and no other, learn the estimate if decoding succeeded, else the received bits. For every history of calls, also of calls that raise, structures and statistics are the result of at most one lesson for each call; after calls that all returned every entropy model knows exactly the corrected shares of ones in the last window_len lessons of its label. Defects with witnesses: unless model_length is the length of the word no call with a label ever answers (IncorrectBufferLength, after structure and statistics were changed); a learning decoder that debugs with known error positions raises AttributeError in every call with a label and never learns.", "quantifier": "all words, states, histories of calls, LDPC, classifier and information mappings, over exact reals", "why_tests_cant": "unbounded histories and arbitrary LDPC behaviour", "anchors": ["decoders/combined_decoder.py:CombinedDecoder.decode_buffer", "decoders/combined_decoder.py:CombinedDecoder.entropy_model_prediction", "decoders/combined_decoder.py:CombinedDecoder.update_entropy_model", "decoders/combined_decoder.py:CombinedDecoder.decode_and_update_model", "decoders/combined_decoder.py:CombinedDecoder.set_buffer_structures"]}
{"id": "C56", "title": "relabel pairs clusters with classes greedily", "statement": "relabel succeeds exactly when there is at least one class and the labels can be arranged by class (as many real labels as predicted ones, or without real labels a multiple of the number of classes or fewer labels than classes). The returned map has every predicted label 0..n-1 as key exactly once; all but the last pair are the most frequent (real, predicted) pairs among predicted labels not yet mapped (ties in row order) and the last label gets the smallest unused class. New labels are read off the map, 255 for labels that are no class. A clustering that is correct up to renaming is relabelled to the real labels. Two clusters may be mapped to the same class, so the map need not be a bijection (witness).", "quantifier": "all label vectors, numbers of classes and optional real labels", "why_tests_cant": "all vectors and all tie patterns", "anchors": ["runs/clsutering_analysis/functions.py:relabel"]}
{"id": "C57", "title": "cutting buffers into code words loses no data", "statement": "encode_data cuts every buffer into words of k bits, ceil(len/k) of them (one for an empty buffer), whose concatenation starts with the data, and encodes them in order; with a systematic encoder every buffer is recovered from its group of code words. Encoding succeeds exactly when no buffer has length k: a buffer that fits a word exactly raises CreationError because of an empty random padding (defect).", "quantifier": "all lists of buffers, all k, all encoders and random draws", "why_tests_cant": "all lengths", "anchors": ["runs/HC_eilat_July_2018/ecncoding_data.py:encode_data"]}
{"id": "C58", "title": "Markov generator ignores its history (defect)", "statement": "Sample i is drawn from the transition row addressed by the last k entries of the preallocated array (0 where not yet written), so all but the last k-1 samples are drawn from the row of the all-zero history whatever the initial states; the documented chain, where sample i follows the k samples before it, is not produced (witness).", "quantifier": "all chains", "why_tests_cant": "all lengths", "anchors": ["utils/random_sources.py:generate_markov_samples"]}
{"id": "C59", "title": "send numbers and records every message", "statement": "After sending any finite sequence of messages the file holds the frames in order, frame k decodes to message k with sequence number k mod 256 and the sender's system and component ids, and seq, total_packets_sent and total_bytes_sent are the message count mod 256, the message count and the number of bytes written.", "quantifier": "all finite sequences of messages", "why_tests_cant": "all histories of send, wrap-around of the sequence number", "anchors": ["mavlink_utils/HC_dialect.py:MAVLink.send"]}
{"id": "C60", "title": "get_msg_fields describes exactly the reported messages", "statement": "get_msg_fields returns, for the messages reported by segment_buffer in buffer order, a description consisting of the six header bytes, one (name, type) pair per field in transmission order and the crc mark, and a dictionary in which each '<message>_<field>' carries the decoded value and declared type of its last occurrence in the buffer; when no message is found it returns a bare empty dict instead of a pair (defect).", "quantifier": "all buffers", "why_tests_cant": "all buffers", "anchors": ["inference/buffer_segmentation.py:BufferSegmentation.get_msg_fields"]}
{"id": "C61", "title": "stats: recall, precision, f1 and accuracy of a confusion matrix", "statement": "For a square matrix of counts recall is diagonal over row total (nan for an absent class), precision is diagonal over column total (0 for a class never predicted), accuracy is trace over total, and f1 of an occurring class is 2*diagonal/(row+column); an absent class gets nan, or 0 as soon as some occurring class is never recognised. The intended precision 1 of a class neither occurring nor predicted is never produced (defect: numpy bool compared by identity).", "quantifier": "all square matrices of counts", "why_tests_cant": "all matrices, all patterns of empty rows and columns", "anchors": ["utils/performance_analysis.py:stats"]}
{"id": "C62", "title": "flipping decoder sets structural bits to the majority value", "statement": "EntropyBitwiseFlippingDecoder.model_prediction with a learned model sets every model bit of entropy below the threshold to its more frequent value and changes nothing else; with a given model the value is looked up by code position instead of model bit number, so it is wrong (witness) or raises IndexError unless the code word starts with the model bits (defect).", "quantifier": "all words, models and learning histories", "why_tests_cant": "all words and histories", "anchors": ["decoders/entropy_bitwise_decoder.py:EntropyBitwiseFlippingDecoder.model_prediction"]}
{"id": "C63", "title": "weighted decoder: what its two models learn", "statement": "EntropyBitwiseWeightedDecoder answers with the plain LDPC result if that succeeds, else with the LDPC result for the predicted word. Model a learns exactly the recovered buffers, model b every buffer (as received when neither the plain run succeeded nor the buffer was recovered). With stored buffers each model holds the (optionally channel-corrected) frequencies of the last window_length buffers it learned; learning raises IndexError exactly when all bits in the window are equal. With estimator Bayes it holds the frequencies of all learned buffers as long as at most 2*window_length-2 were decoded; later counts are reduced by common divisors, which can turn a probability of 2/7 into certainty (defect, witness). Bayes without a window raises TypeError.", "quantifier": "all sequences of words and LDPC results, all windows, code layouts and buffer lengths", "why_tests_cant": "unbounded histories, arbitrary LDPC behaviour", "anchors": ["decoders/entropy_bitwise_decoder.py:EntropyBitwiseWeightedDecoder.decode_buffer", "decoders/entropy_bitwise_decoder.py:EntropyBitwiseWeightedDecoder.update_model_a", "decoders/entropy_bitwise_decoder.py:EntropyBitwiseWeightedDecoder.update_model_b"]}
{"id": "C64", "title": "weighted decoder: how its two models change a word", "statement": "model_prediction adds, for each model with positive weight, weight times the log ratio of the probabilities at the bits of entropy below the threshold, and then limits every value of the word - not only the structural ones (defect) - to clipping_factor times its largest value; without a structural bit other than code bit 0 the word is returned unchanged. The weights are the logistic weights combined as the confidence scheme says, except that scheme 1 never makes them sum up to one and scheme 2 equals scheme 0 (defects); scheme 4 raises until both models were taught.", "quantifier": "all words, all states the models can reach, all parameters", "why_tests_cant": "real-valued words and weights", "anchors": ["decoders/entropy_bitwise_decoder.py:EntropyBitwiseWeightedDecoder.model_prediction"]}
{"id": "C65", "title": "classifying decoder: what bit flipping LDPC decoders are given", "statement": "For WbfDecoder/GalBfDecoder the word and the model's help are prepared by reliability_method: 0 adds the help (scaled down to the largest received magnitude) and rescales the sum to that magnitude, with zero priors; 1 and 2 leave the word and give priors of magnitude |help|, negative where model and channel agree, scaled down to the largest received magnitude and to 1 resp. rms/mean check degree; 3 gives the received bits with the sure bits overridden; without help the word is unchanged and the priors are zero. Method 3 looks at the model of cluster 0 whatever the label, so it clears bits on which the label's model is silent, and raises TypeError when window_length is None (defects).", "quantifier": "all words, models, labels and parameters", "why_tests_cant": "real-valued words, arbitrary models", "anchors": ["decoders/classifiying_decoder.py:ClassifyingEntropyDecoder._sample_and_priors"]}
{"id": "C66", "title": "DUDE decoder: one denoiser per bit and cluster", "statement": "After any sequence of calls to ClassifyingDudeDecoder, whatever the LDPC decoder answered, a call is determined by the label of the received model bits and the buffers received earlier with that label: the LDPC decoder is given the received word plus, at the model positions, the log ratio of the probability each bit's denoiser gives to a one, weighted by the number of buffers received with the label, limited to clipping_factor times the largest magnitude; the answer adds the label and the signs of that word. The first context_length buffers are taken at face value; later, with 0 < bit_flip < 1/2, a denoiser is never certain. A negative label gives the plain LDPC answer. Only the denoisers of the returned label change. Construction fails exactly when the channel matrix cannot be inverted. Defects: with the default bit_flip 0 no bit is ever changed by denoising; the caller's array is overwritten with the sum; a position table shorter than model_length makes calls fail.", "quantifier": "all histories of words and LDPC behaviours, all parameters", "why_tests_cant": "unbounded histories, arbitrary LDPC behaviour and classifier", "anchors": ["decoders/classifying_DUDE_decoder.py:ClassifyingDudeDecoder"]}
{"id": "C67", "title": "MAVLink decoder: debugging analyses", "statement": "With debug=True a call returns the same answer as without, plus two analyses. The field analysis gives the number of fields, of distinct damaged fields, and the confusion of the fields judged bad (good) with the damaged (undamaged) ones; it is empty without structure or damage. The forcing analysis gives the confusion of the forced and of the changed bits with the errors, and [errors, forced, changed, true positives, false positives, fraction of forced bits that differ from the sent word]. Defects with witnesses: as long as no structure is known every call raises although the word was decoded and learned; the numbers of negatives in the field analysis count a field once for each of its damaged bits.", "quantifier": "all words, states, error lists, models and structures", "why_tests_cant": "all states and error patterns", "anchors": ["decoders/mavlink_decoder.py:MavlinkRectifyingDecoder.classifier_analysis", "decoders/mavlink_decoder.py:MavlinkRectifyingDecoder.forcing_analysis", "decoders/mavlink_decoder.py:MavlinkRectifyingDecoder.decode_buffer"]}
{"id": "C68", "title": "unified combined decoder: sure bits, answers and learning", "statement": "CombinedUnifiedDecoder answers and learns like CombinedDecoder (C55), except: the entropy model learns the first model_length bits of a word; only bits that the entropy model of the label is sure of are weighted, and only when it stores more than conf_center buffers; a sure bit of an implausible field is weighted only if it differs from the more probable value, with the invalid factor times -1 if flip is set; while learning impossible bits, with a given model all bits of fields that never varied are set to the model's picture. After calls that all returned every entropy model knows the corrected shares of ones of the last lessons of its label. No call with a label answers if model_length exceeds the word; and if model_length is smaller than the number of information bits and these do not come first, every call but the first for a label raises IndexError (witness).", "quantifier": "all words, states, histories of calls, LDPC, classifier and information mappings, over exact reals", "why_tests_cant": "unbounded histories, arbitrary statistics and LDPC behaviour", "anchors": ["decoders/combined_unified_decoder.py:CombinedUnifiedDecoder.decode_buffer", "decoders/combined_unified_decoder.py:CombinedUnifiedDecoder.mavlink_model_prediction", "decoders/combined_unified_decoder.py:CombinedUnifiedDecoder.decode_and_update_model"]}
{"id": "C69", "title": "stream parser: the result does not depend on how the bytes arrive", "statement": "Every byte stream falls in exactly one way into frames (start marker, announced length), single bytes that start no frame and an unfinished rest. With robust_parsing, parse_buffer called with any blocks - or parse_char with single bytes - returns, in order, for each frame the decoded message (or the frame as bad data if decode raises MAVError or the frame has unknown incompatibility flags) and for each noise byte one byte of bad data; the unfinished rest stays in the buffer; total_packets_received, total_bytes_received and total_receive_errors are exact. Splitting the stream into other blocks changes nothing.", "quantifier": "all byte streams, all ways of splitting them into blocks, all decoders that raise nothing but MAVError (decode among them, with and without a key)", "why_tests_cant": "all streams and all chunkings", "anchors": ["mavlink_utils/HC_dialect.py:MAVLink.parse_char", "mavlink_utils/HC_dialect.py:MAVLink.parse_buffer", "mavlink_utils/HC_dialect.py:MAVLink.bytes_needed"]}
{"id": "C70", "title": "stream parser: nothing sent is lost between noise and damaged frames", "statement": "If packed messages are transmitted with bytes that start no frame and complete but damaged frames between them, a robust parser fed in any blocks, and any parser fed byte by byte, delivers exactly the messages sent, in order, and keeps nothing; without noise and damage parse_buffer does so without robust_parsing, too. Outside these conditions messages are lost (defects with witnesses): a strict parse_buffer that raises drops the messages parsed earlier in the block; a message left in the buffer behind noise is not delivered by the next empty call; a damaged length byte swallows the following message.", "quantifier": "all transmissions of messages, noise and damaged frames, all chunkings", "why_tests_cant": "all transmissions", "anchors": ["mavlink_utils/HC_dialect.py:MAVLink.parse_char", "mavlink_utils/HC_dialect.py:MAVLink.parse_buffer"]}
{"id": "C71", "title": "stream parser: strict mode", "statement": "Without robust_parsing, bytes handed to parse_char one by one give, in order, the message of every accepted frame, the exception of decode for every refused one, and one MAVError for each run of noise bytes; the rest stays in the buffer. Returned messages are counted as packets and runs of noise as errors; refused frames are counted as neither. The messages are those of robust parsing.", "quantifier": "all byte streams, all decoders", "why_tests_cant": "all streams", "anchors": ["mavlink_utils/HC_dialect.py:MAVLink.parse_char"]}
{"id": "C72", "title": "stream parser: bytes_needed", "statement": "While a frame is being received, after any calls, bytes_needed is exactly the number of its missing bytes. A receiver that reads as many bytes as bytes_needed says from a stream of version 1 frames and noise never holds back a complete frame, in any round. After any calls at least one byte is asked for. After a version 2 frame more bytes are asked for than the next version 1 frame has, so that a complete frame is held back (defect, witness).", "quantifier": "all byte streams of version 1 frames and noise, any number of rounds", "why_tests_cant": "all streams", "anchors": ["mavlink_utils/HC_dialect.py:MAVLink.bytes_needed"]}
{"id": "C73", "title": "signed frames: acceptance, marks, counters", "statement": "With a secret key a frame is accepted iff it is well formed (C08) and its signature proves its origin (hash of key and frame, timestamp later than the stream's recorded one, or at most a minute behind the local one for a new stream) or the callback permits its message id; without a key iff it is well formed. The message is that of decode without signing, is marked signed iff proven and carries the link id then. get_payload returns the payload of version 1 frames; for version 2 frames it starts with the last four header bytes (defect). Refused malformed frames change nothing; a proven frame advances the local timestamp to the maximum; the counters are exact; settings never change. Nothing but MAVError is raised (IndexError for an empty buffer).", "quantifier": "all buffers, signing states, callbacks and hash functions", "why_tests_cant": "all frames and states", "anchors": ["mavlink_utils/HC_dialect.py:MAVLink.decode", "mavlink_utils/HC_dialect.py:MAVLink.check_signature"]}
{"id": "C74", "title": "signed frames: what replay protection achieves", "statement": "The timestamp recorded for a stream is that of its first acceptable frame and is never changed by any later frames. So the frame that opened a stream is never accepted as signed again; but every later genuine frame of a stream is accepted again at any time after any traffic (defect; witness for every hash function). A forged frame of an unknown stream with an acceptable timestamp records that timestamp although its hash is wrong; with timestamp 2^48-1 it blocks the stream for good (defect).", "quantifier": "all histories of frames, all hash functions", "why_tests_cant": "unbounded histories, arbitrary hash functions", "anchors": ["mavlink_utils/HC_dialect.py:MAVLink.check_signature", "mavlink_utils/HC_dialect.py:MAVLinkSigning"]}
{"id": "C75", "title": "signing outgoing messages", "statement": "With sign_outgoing, pack returns the version 1 frame of C09 followed by 13 bytes: link id, the low 48 bits of the timestamp, six bytes of the hash of key and all bytes before; the timestamp grows by one. It raises TypeError without key and struct.error for a link id or timestamp out of range. Since version 1 frames have no signature, decode refuses every such message, whatever the receiver's settings (defect); a robust stream parser delivers the message and treats the signature as the bytes that follow, which can cost the next message (witness for every hash function). With force_mavlink1 or without sign_outgoing pack is as in C09.", "quantifier": "all messages, signing states and hash functions", "why_tests_cant": "all messages and states", "anchors": ["mavlink_utils/HC_dialect.py:MAVLink_message.pack", "mavlink_utils/HC_dialect.py:MAVLink_message.sign_packet"]}
{"id": "C76", "title": "generated interface: encode and send", "statement": "For every message of the dialect, name_encode(values) makes a message object whose attributes are the given values under the names of the fields in declaration order, and name_send(values) sends exactly the frame of C09 with these values (the counters and the sequence number as in C10), so that decoding what was written yields them; excess elements of an array are silently dropped, too few raise IndexError and send nothing, a wrong number of arguments raises TypeError. Only heartbeat_send has a default: mavlink_version is 3 if omitted. There are no other such methods.", "quantifier": "all messages of the dialect, all values, all states of the sender", "why_tests_cant": "all generated methods with all values", "anchors": ["mavlink_utils/HC_dialect.py:MAVLink.heartbeat_send", "mavlink_utils/HC_dialect.py:MAVLink.heartbeat_encode", "mavlink_utils/HC_dialect.py:MAVLink_heartbeat_message"]}
{"id": "C77", "title": "message objects: comparison, dictionary, forwarding", "statement": "a == b is true exactly if both are messages of the same kind with the same sequence number, system and component whose fields show the same (numbers by value, NaN unequal to itself, +0 equal to -0; byte strings as text without NULs at the end); != is its negation; nothing equals None. A message packed and decoded again equals the packed one iff it contains no NaN and each text arrives, which for texts no longer than the field means no NUL inside; longer texts, inner NULs and NaNs arrive changed or unequal (witnesses). to_dict has the message's name under mavpackettype and each field once under its name. Packing a received message again gives a frame with the received payload cut or zero padded to the full length - the same bytes iff the received payload had the full length; but a received message with a text field cannot be packed again: struct.error (defect).", "quantifier": "all message objects, all received version 1 frames, all decodings of text", "why_tests_cant": "all messages and all values", "anchors": ["mavlink_utils/HC_dialect.py:MAVLink_message.__eq__", "mavlink_utils/HC_dialect.py:MAVLink_message.__ne__", "mavlink_utils/HC_dialect.py:MAVLink_message.to_dict", "mavlink_utils/HC_dialect.py:MAVLink_message.format_attr", "mavlink_utils/HC_dialect.py:MAVLink_message.pack"]}
{"id": "C78", "title": "telemetry buffers made from a recording, and the words encoded from them", "statement": "For every time t and recording whose rows fit, the script makes a buffer of 153 bytes with five MAVLink frames at bytes 0, 52, 72, 108 and 135 (position 33, pinger 234, attitude 30, sound velocity 212, chamber 218) from system 1, component 1; each decodes to the entries of the columns of the same name of the first row whose time is not before t; segmentation recovers exactly these five messages. A run makes, for each of the five delays, the buffers for the times initial, initial + delay, ... below the time of record 16521; sequence numbers count on over all buffers of all delays, modulo 256. The words encoded for 1, 2 or 3 clusters consist of whole messages plus random filling, contain every bit of the buffer in order and have the length of the code; --multiply_data m repeats the list 2^m times. When all records of a table are before t, its first record is sent instead of the last (defect, witness).", "quantifier": "all recordings, all times, all sequence numbers, all random fillings", "why_tests_cant": "all values, times and table lengths", "anchors": ["runs/HC_eilat_July_2018/data/msg_creator.py", "scripts/train_estimator.py", "runs/HC_eilat_July_2018/simulated_data_classifying_entropy_decoder.py"]}
{"id": "C79", "title": "what a simulation step measures", "statement": "For every list of words, every draw of error positions (or noise) and all decoders: over the binary symmetric channel each received word differs from the sent one exactly at the drawn positions; with Gaussian noise the decoders get 1 - 2 bit + noise and the received word is 1 where that is negative. The row of each word has the sent word, the received word, the positions (or mask) of the errors and how many of them are in the first k bits and behind. Both decoders see the same values, the learning one in the order of the words. The hamming column is the number of wrong bits of each answer, the success rate the share of words without wrong bits, the error rate the wrong bits per bit; both rates are between 0 and 1, success is 1 exactly when the error rate is 0 and that exactly when all answers are the sent words. The tables need answers of 9 items, and LDPC answers of 6 items over the binary symmetric channel but of 5 with Gaussian noise; otherwise ValueError, so that no LDPC decoder works with both channels (witness). Without words: ValueError resp. IndexError.", "quantifier": "all words, all error positions, all noise, all decoders with any memory, all numbers of words", "why_tests_cant": "all decoders, histories and draws", "anchors": ["runs/HC_eilat_July_2018/simulated_data_classifying_entropy_decoder.py:simulation_step", "utils/bit_operations.py:hamming_distance"]}
{"id": "C80", "title": "what a run on experimental data reports", "statement": "For every table of sent rows (a word of n bits, or unknown: first entry 2), every received table and all decoders: a known row gets the positions where the sign of the received value disagrees with the sent bit, their number in the first k bits, behind and per bit; an unknown row gets entries 2 and the three numbers -1. Each answer to a known word gets its number of wrong bits, to an unknown one -1. The error rates are the wrong bits of answers to known words per bit of known words; the success rates are the share of answers whose decoder claims success. If no sent word is known the run ends with ZeroDivisionError after all decoding; answers of other sizes than 6 and 9 items give ValueError. The success rate may be 1 with all bits wrong, and a row that starts above 2 is counted as known without being compared (defects, witnesses).", "quantifier": "all tables, all decoders with any memory, all splits into known and unknown", "why_tests_cant": "all tables, histories and decoders", "anchors": ["runs/Feb_2022/experimental_data_run.py", "runs/Feb_2023/experimental_data_run_feb_23.py"]}
{"id": "C81", "title": "what the analysis of the classifier of fields reports", "statement": "For every model made by any history of buffers, every structure, word and draw of wrong bits: the damaged fields are those that own a wrong bit; a field is called good when its probability is above 1 - threshold and bad when it is below threshold; a field is forced when its probability is at most 0 and its deviation 0, a bit when this holds of its field; a bit is flipped when it is forced and the word of the means differs from the received word there. The reported tables for good fields (against not damaged), bad and forced fields (against damaged), forced and flipped bits (against wrong) are the true confusion tables [TP, FP, TN, FN, P, N], so that TP + FN = P, FP + TN = N and P + N is the number of fields or bits; the last number of the forcing quality is the share of forced bits where the means differ from the sent word (0 without forced bits). The i-th word of a run is judged with structure i modulo the number of clusters and by the model as it was at the start. A field without a model ends the run with TypeError; with --learn 1 the model is never trained, so the first word ends the run (defect). The column cluster_label has one value for all words, so it is wrong for some word when there are several clusters and words (defect).", "quantifier": "all histories of the model, all structures, words, wrong positions and thresholds, all numbers of words and clusters", "why_tests_cant": "all histories, words and draws", "anchors": ["scripts/classifier_analysis.py:classifier_characterization", "scripts/classifier_analysis.py:forcing_characterization", "scripts/classifier_analysis.py:simulation_step"]}
{"id": "C82", "title": "the estimated probability of a bit is the most likely one", "statement": "After any history of words, the probability of one that the estimating decoder stores for each bit lies in [0, 1] and makes the bits of the window strictly more likely than every other probability in [0, 1] does, given that each bit is flipped independently with the assumed probability f, 0 <= f < 1/2. The formula of the analysis script has the same property for every non-empty sample of bits and every f in [0, 1] other than 1/2.", "quantifier": "all histories, windows, noise levels and competing probabilities", "why_tests_cant": "the maximum ranges over all real probabilities and all histories", "anchors": ["analysis/MLE_noisy_Bernoulli.py", "inference/entropy_mle.py:EMLE"]}
{"id": "C83", "title": "how good the estimates of the probability of a noisy bit are", "statement": "Independent bits sent over the binary symmetric channel arrive as independent bits with probability p(1-f) + f(1-p). For every number n > 0 of bits, the share of ones that arrive has bias f(1-2p) and mean square error q(1-q)/n + bias^2; the corrected share (v-f)/(1-2f) has bias 0 and mean square error q(1-q)/(n(1-2f)^2); limiting it to [0, 1] never makes any error larger, hence not the mean square error either. The corrected estimate is nevertheless worse than the plain share for some p, f and n (witness). The row of the script has the absolute errors of both estimates for each trial, their largest and their mean square; without trials ValueError.", "quantifier": "all sample sizes, probabilities and noise levels, all trials", "why_tests_cant": "expectation over all samples of every size", "anchors": ["analysis/MLE_noisy_Bernoulli.py"]}
{"id": "C84", "title": "reading the ship's logs", "statement": "A log that consists of some text, then entries each behind 'Aquisition ' is read exactly: one acquisition for each entry with a time, in their order, with that time, the written size, the success digit and the first 123 bytes of the payload; text without 'time: ' is skipped; the files' acquisitions follow each other. Required is that each marker occurs first where it is meant and that neither 'Aquisition ' nor 'data success: ' occurs in a payload: otherwise the payload is cut without notice or the whole reading ends with IndexError (defect, witnesses). An entry with a time but without 'data success: ' ends the reading with IndexError, one with an unreadable time with its error, one with a size that is no decimal number with ValueError; nothing of the log is returned then. The size is the number written: blanks, a sign or none, digits with single underscores between them, blanks. The lists of the days hold exactly the acquisitions of their day in order and partition those of the days 14 to 16.", "quantifier": "all logs, entries, payloads, numbers of entries and files, all readings of times", "why_tests_cant": "all byte strings of all lengths", "anchors": ["runs/Feb_2022/data/ship_log_reader.py:break_down"]}
{"id": "C85", "title": "the minimal dialect and the vehicle's dialect understand each other", "statement": "The minimal dialect consists of exactly the six messages 0, 33, 212, 218, 225 and 234 of the vehicle's dialect, equal in number, name, fields, format and checksum seed. A receiver with the minimal dialect accepts a buffer iff the full receiver accepts it as one of these messages, and then returns the same; it raises nothing but MAVError (IndexError for an empty buffer). What either dialect packs of these messages both decode to the sent values. Fed with any stream in any blocks, the robust minimal receiver delivers exactly the messages of the full one with these numbers in the same order, reports every other frame as bad data at its place, and keeps the same unfinished rest.", "quantifier": "all buffers, streams, blocks, messages and values", "why_tests_cant": "all byte streams and values", "anchors": ["mavlink_utils/minimal_dialect.py:MAVLink.decode", "mavlink_utils/minimal_dialect.py:mavlink_map", "mavlink_utils/HC_dialect.py:MAVLink.decode"]}
{"id": "C86", "title": "Clustering analysis: the words, their errors, the labels and the mean matrix", "statement": "In the comparison of clustering methods every transmission is cut into n_classes consecutive equal parts (together exactly the transmission), part c padded to k bits forms the word at position t * n_classes + c with true class c, and its bits differ from the clean ones exactly at the drawn positions when errors are applied to it; a transmission whose length n_classes does not divide, or parts longer than k, end the run with ValueError. A noisy word has no_errors // n_classes wrong bits, all among its first k // n_classes bits, so n_classes times the wrong bits never exceeds the number asked for one word and no later bit is ever wrong (defect). With train_with_errors 0 and no shuffling, every test word with a position below n_classes * n_training is free of errors (defect). The labels are one per test word, each the number of the cluster that fits the word best given all the words before it; after relabelling, labels and true classes are aligned and all of them are classes. Every entry of the mean confusion matrix is the nearest integer to the mean (the even one of two), equal matrices give themselves, but the total of the rounded matrix need not be the number of words (witness).", "quantifier": "every set of transmissions, number of classes, padding and drawn error positions, order of the split, training size, number of runs and confusion matrices", "why_tests_cant": "Inputs are random words of hundreds of bits and hidden random permutations; a test run shows a plausible accuracy and cannot show which bits are never tested.", "anchors": ["runs/clsutering_analysis/clustering_analysis.py: analyze_mine, analyze, __main__"]}
{"id": "C87", "title": "Training of stored models: what is learned from the tables of transmissions", "statement": "Training a buffer model on a table of transmitted rows learns exactly the rows whose first byte is the frame marker 254: the model's size is the number of these rows and each field (of the structure found in the first row) holds, in the order of the rows, what these rows have at the field's place; rows of unknown transmissions are left out, and the known rows without the marker are left out and are exactly the listed bad indices. If the structure holds a message with arrays, training ends with struct.error at the first row to be learned. Rows are not checked to be frames: a row that only starts with the marker is learned (witness), and if the first row is unknown the model has no field although it counts the rows (defects). The stored distribution of encoded bits is, for every position, the share of zeros and of ones, which sum to one, provided that fewer than 65536 words have a one there; with 65536 words of ones the stored share of ones is 0 (defect). No words give ZeroDivisionError, words of another length ValueError. For transmissions of 1224 bits and one, two or three clusters every word given to the encoder has the length the code wants and the pieces at the starts of the words are together the transmission; any other number of clusters is a ValueError.", "quantifier": "every table of rows of at least 984 bits (known or unknown), every text decoding, every list of words of bits, every transmission and random padding", "why_tests_cant": "The tables hold thousands of recorded rows and the script runs once; no test can show what a stored model says for every possible table, nor that 65536 words wrap around.", "anchors": ["runs/Feb_2022/train_buffer_model.py", "runs/Feb_2023/train_buffer_model.py", "scripts/train_estimator.py"]}
{"id": "C88", "title": "Simulations with several decoders: independent tables, error counts, logged rates and nested errors", "statement": "A simulation with several decoders gives each decoder exactly the table it would have alone on the same received words: no decoder disturbs another. Over the binary symmetric channel and over Gaussian noise a step gives, for any decoders with any memory, the tables of answers with the number of wrong bits of each, the share of faultless answers, the share of wrong bits, the raw error rate and the rows of sent and received words; answers with another number of items than the table's columns end the step with ValueError, and an error while logging ends it with that error. The columns of error counts over Gaussian noise are the errors among the information and parity bits when the mask of errors is sliced; in the script for the classifying entropy decoder the mask is compared with k, and the columns are the length of the word and zero whatever the errors (defect). The Gaussian channel model keeps sign: a negative value exactly where the noisy value is negative. The logged recovery rate exists exactly when the pure decoder missed a word, is at most one and is one exactly if every word is decoded; in the comparison with a pre-trained decoder the step is lost to a ZeroDivisionError exactly when the pure decoder decodes every word and the pre-trained one does not (defect), no other script loses a step to its logs. The averaged simulation's errors are nested: a step takes the first m of the positions drawn once for each word, a subset of those of every step with more errors, and never more than were drawn even if more are asked for. Multiplying the data gives 2^times copies in a row.", "quantifier": "every list of decoders with memory (any functions), number of words and bits, draw of errors or noise, number of columns, logging function; every standard deviation other than zero; every number of successes", "why_tests_cant": "the independence of the decoders and the counts are statements about all decoders with memory and all error patterns; the runs look at plots of one random draw", "anchors": ["runs/HC_eilat_July_2018/simulated_data_combined_decoder.py: simulation_step", "runs/HC_eilat_July_2018/simulate_gallager_bf.py: simulation_step", "runs/HC_eilat_July_2018/simluated_data_entropy_bf_decoders.py: simulation_step", "runs/HC_eilat_July_2018/classifying_entropy_decoder_over_awgn_channel.py: simulation_step, awgn_llr", "runs/HC_eilat_July_2018/simulated_data_pretrained_model.py: simulation_step", "runs/HC_eilat_July_2018/simulated_data_classifying_dude_decoder.py: simulation_step", "runs/HC_eilat_July_2018/simulated_data_mavlink_decoding.py: simulation_step", "runs/HC_eilat_July_2018/simulated_data_entropy_bitwise_decoder_weighted_model_averaged.py: error_idx, simulation_step"]}
{"id": "C89", "title": "Simulations run by a pool of processes: what depends on the schedule", "statement": "For every number of processes and every schedule of the chunks, a run that succeeds gives its results in the order of the values, and each result is that of the step with what its process remembers after the tasks this process ran before (and conversely); a run fails only with an error of some step. So if a step's result does not depend on what is remembered, as in the averaged simulation, the run is the plain map whatever the schedule. In the other simulations the random generator is made before the processes are forked: the noise of a task is its standard deviation times the block of numbers whose index is the number of tasks its process ran before, so that the first tasks of all processes use the same random numbers; of two such tasks the one with less noise has only errors that the other has too, in every word, and over the binary symmetric channel two tasks with the same numbers of errors have the same errors: the steps are not independent experiments (defect). In the comparison of bit flipping decoders the number of iterations of a step is the largest need of all tasks that its process ran so far, so results depend on the schedule (defect, witness of two schedules with different results).", "quantifier": "every list of values, number of processes, assignment of chunks to processes, generator of random numbers, step function (with failures), words and standard deviations", "why_tests_cant": "schedules of processes cannot be enumerated by tests, the operating system chooses them; the equality of the random numbers is invisible in the plots", "anchors": ["runs/HC_eilat_July_2018/simluated_data_entropy_bf_decoders.py: simulation_step, __main__", "runs/HC_eilat_July_2018/classifying_entropy_decoder_over_awgn_channel.py: simulation_step, __main__", "runs/HC_eilat_July_2018/simulated_data_classifying_entropy_decoder.py: simulation_step, __main__", "runs/HC_eilat_July_2018/simulated_data_entropy_bitwise_decoder_weighted_model_averaged.py: simulation_step, __main__"]}
{"id": "C90", "title": "Experiments whose decoder is told the errors: what is reported, and that the truth does not leak", "statement": "For every table of sent and received words and all decoders: the decoder with aid gets each received word together with exactly the positions where its signs disagree with the sent word; for an unknown word an empty list (MAVLink scripts, as if there were no errors) or nothing (unified scripts); the tables, distances and rates are those of C80 with 13 or 6 columns. For the real decoders the positions never influence a result: with any other positions within the word, chosen depending on anything, the run ends in the same report or the same exception; without debugging even positions outside the word change nothing; and a run of the unified decoder that ends with a report gives the same report when nothing is told. The structure set for all words is that of the first sent word: if this word is unknown the structure is empty and no word of the run is influenced by the given model, whatever the model (defect, nobody is warned).", "quantifier": "every number of words, lengths, tables of sent rows (known or not) and received values, decoders with failures and memory, false positions, data models, classifier states, configurations", "why_tests_cant": "independence of the truth is a statement about pairs of runs with different hidden inputs; tests compare one run with expected numbers", "anchors": ["runs/Feb_2023/experimental_mavlink_based.py", "runs/Feb_2022/experimental_mavlink_based.py", "runs/Feb_2023/experimental_data_unified_decoder.py", "runs/Feb_2022/experimental_data_unified_decoder.py", "decoders/mavlink_decoder.py: MavlinkRectifyingDecoder.decode_buffer, classifier_analysis, forcing_analysis", "decoders/combined_unified_decoder.py: CombinedUnifiedDecoder.decode_buffer"]}
{"id": "C91", "title": "Delivery: from a recording through code words back to the messages", "statement": "For every usable recording, time and random filling, and 1, 2 or 3 clusters: every message of a buffer is whole in exactly one word; a decoder that recovers the information bits of a word finds at their places exactly the messages of this word (whatever became of the other words), each of which decodes to the row of the recording and its sequence number, followed by what the filling shows when it stands alone. The structures the scripts hand to the decoders are those of the words, for every last buffer. The filling shows nothing and is marked unknown, for every word but the third of three, except that nine bytes of filling can be a well formed AUTH_KEY message with one payload byte; in that case, and in the third of three words with many messages, a message never sent is reported (witnesses). In general, array-free packed messages followed by any bytes are all reported and the rest is segmented as if it stood alone.", "quantifier": "every recording, time, sequence number, filling, number of clusters 1-3, word; every list of packed messages and every following byte string", "why_tests_cant": "the filling is random and the recording arbitrary; a test sees a few buffers, and practically never a filling that imitates a message", "anchors": ["runs/HC_eilat_July_2018/simulated_data_mavlink_decoding.py", "runs/HC_eilat_July_2018/simulated_data_combined_decoder.py", "runs/HC_eilat_July_2018/data/msg_creator.py", "decoders/mavlink_decoder.py:decode_and_update_model,model_prediction", "inference/buffer_segmentation.py:segment_buffer"]}
{"id": "C92", "title": "Capacity curves and the entropy of flipped bits", "statement": "For 0 < p < 1 the plotted formula is the capacity of the binary symmetric channel (the most mutual information over all ways to send, reached only by sending evenly unless p = 1/2); it is 0 exactly at 1/2, symmetric and the smaller the nearer p is to 1/2. The modified capacity with a share r > 0 of helped bits exceeds it exactly for p < 2/3 (and is below it for p > 2/3), grows with r, falls with p up to 1/2, at every plotted point lies above the plain curve; the largest p for which the rate 2/3 fits exists, lies between 0.03 and 0.1, and beyond it but at most at its double for every r (double exactly for r = 1). Flips never lower the entropy of a bit. The script on entropy with flips adds p_flip to the probability of 0, so that its 'measured' entropy is lower than the real one whenever 2 p0 + p_flip > 1, contrary to the channel (defect, witness 0.9 and 0.05). All in exact real arithmetic.", "quantifier": "all flip probabilities, shares of helped bits, bit probabilities, ways to send, plotted points", "why_tests_cant": "a continuum of real numbers; a test sees a few and the maximum over all ways to send not at all", "anchors": ["runs/HC_eilat_July_2018/analysis/bsc_capacity.py:c", "runs/HC_eilat_July_2018/analysis/bsc_capacity.py:nr_capacity", "runs/HC_eilat_July_2018/analysis/entropy_with_flips.py:ent_measured"]}
{"id": "C93", "title": "How many byte strings pass for messages", "statement": "Given everything before the checksum of a frame with a known id and the right length byte, exactly one of the 65536 checksums is accepted by decode; so if the header of a frame arrives and its payload and checksum are replaced by anything, exactly one in 65536 replacements passes. Of the 256^(n+8) byte strings of length n+8, those accepted as version 1 frames are exactly the number of messages times 256^(n+3). In exactly 256^(n-5) of the 256^n buffers of n bytes a frame of a given message stands at a given position where it fits (in none where it does not), and at position 0 it is reported by the segmentation; buffers for which the segmentation reports anything at all are at most (n-7) * (number of messages) * 256^(n-5), which for 98 random bytes is a probability below 2^-26.", "quantifier": "all messages, headers, bodies, positions, buffer lengths; the counts are over all byte strings of the length", "why_tests_cant": "a statement about all 256^n strings at once; no test can enumerate them", "anchors": ["mavlink_utils/HC_dialect.py:MAVLink.decode", "inference/buffer_segmentation.py:BufferSegmentation.segment_buffer"]}
{"id": "C94", "title": "Comparisons of the denoisers", "statement": "compare_denoisers denoises every column with an OnlineDude that has seen nothing else and the rows in turn with EMLE; what it reports as bit error rate and flips of a denoiser is the share and the number of the bits it changed, without reference to what was sent: the rate is 0 exactly if nothing was changed, every denoiser that improves on the channel is reported to be worse than one that does nothing, and one that recovers everything is charged the noise of the channel (defect; witness for OnlineDude). Arrays of floats, as the script's fixed source, raise IndexError as soon as a context is full and otherwise behave as ints. In dude_example the sections do not affect each other and print the differences they name, except that EMLE is given the clean sequence: its printed errors do not depend on the noise, and for a constant source are 0 with as many flips as the noise has errors (defect). For bits the flips are the good ones plus the erroneous ones, and the remaining errors plus the good flips are the received errors plus the erroneous flips.", "quantifier": "all bit arrays, channels, context lengths, EMLE parameters, noises, inverses of the channel matrix, sequences of sections", "why_tests_cant": "the reported numbers look plausible on every random run; only the relation to all possible sent sequences shows what they measure", "anchors": ["scripts/estimators_comparison/compare_denoisers.py:compare_denoisers", "scripts/estimators_comparison/dude_example.py", "inference/dude.py:OnlineDude.denoise_sequence", "inference/entropy_mle.py:EMLE.denoise_sequence", "utils/performance_analysis.py:ber"]}
{"id": "C95", "title": "Recorded commands", "statement": "On a command line of a script an option may be written --name value or --name=value, the last one counts, the others keep their defaults, and a value of the wrong type ends the script. The command a run records in cmd.txt, run again, starts the recorded script and gives every option the value the first run had: for twelve of the 21 scripts that record one, whatever command line the first run was given, every setting is the same (a window, a number of processes or a multiplication that is not positive may become another that is not positive) except a positive N. Defects: two scripts record an option that does not exist, so that their commands are always refused, and one records the window None if there is none, which is refused; two lose cluster and two lose separate_models, which become the default; the averaged model loses that there is no window, which becomes 50; the weighted model loses the processes unless N is positive; N becomes the number of words, so that the second run takes the same buffers only if no buffer is split or repeated or if all are taken; a path with a blank is cut. Options must print as plain words that do not look like options.", "quantifier": "all 21 scripts, all command lines they accept, all floats with a text that reads back, numbers of words, paths, numbers of buffers and multiplications", "why_tests_cant": "each script has up to 23 options of three types and several tests, and a test would have to run the script twice for every combination; a lost option shows only for values other than its default", "anchors": ["runs/Feb_2022/experimental_data_run.py:cmd", "runs/Feb_2022/experimental_data_unified_decoder.py:cmd", "runs/Feb_2022/experimental_mavlink_based.py:cmd", "runs/Feb_2022/simulation_rafael_code.py:cmd", "runs/Feb_2023/experimental_data_run_feb_23.py:cmd", "runs/Feb_2023/experimental_data_unified_decoder.py:cmd", "runs/Feb_2023/experimental_mavlink_based.py:cmd", "runs/HC_eilat_July_2018/classifying_entropy_decoder_over_awgn_channel.py:cmd", "runs/HC_eilat_July_2018/simulated_data_entropy_bitwise_decoder_weighted_model.py:cmd", "runs/HC_eilat_July_2018/simulated_data_entropy_bitwise_decoder_weighted_model_averaged.py:cmd", "runs/HC_eilat_July_2018/simulated_data_pretrained_model.py:cmd", "scripts/classifier_analysis.py:cmd"]}
{"id": "C96", "title": "Unifying a broken run", "statement": "The steps of a run leave one file each, in whatever order the processes begin and end them. If the run stopped while no file was being written, the unifying script writes the results of exactly the finished steps, by the time of their files and then by name, however the directory lists them, and a summary with their five columns in this order. If it stopped while a file was being written, the script fails and writes nothing, not even the finished results. A pickle without one of the five columns stops the summary after the results were written, and so does an empty directory; pickles of earlier runs are mixed in. Defects: the least flip probability of the summary is the raw BER of the file written first, which need not be the least; of two steps with the same probability in the same second only the last one written is left.", "quantifier": "all numbers of steps, all schedules in which they begin and end, all moments at which the run may stop, all contents and times of the files, all listings of the directory", "why_tests_cant": "the schedules and crash points of a pool of processes cannot be enumerated, and the order in which a directory lists its files is not under a test's control", "anchors": ["scripts/unify_results.py", "runs/HC_eilat_July_2018/simulated_data_entropy_bitwise_decoder_weighted_model.py:simulation_step"]}
{"id": "C97", "title": "The statistics in double precision", "statement": "With the operations of IEEE 754 double precision, rounding included: ber of two bit arrays is the double nearest to the fraction of wrong bits, 0 just for equal arrays and 1 just if all bits differ, and nan for empty ones. Frequencies from prob are the nearest doubles, 0 just for absent values, 1 just for constant rows, and the two of a row of bits add up to exactly 1. The entropy of a row of frequencies is a number, not negative, and 0 just for a constant row, for any library logarithm of the right sign and rough size. The Hellinger distance of two rows of bit frequencies is a number in [0, 1] and 0 just for equal frequencies (up to 2^24 for the product of the sample sizes); with more symbols a row can have distance nan to itself. int(n * p) errors are between 0 and n, are the whole part of n p or one more, and do not decrease with p; for p = k / n they are k or k - 1, and k - 1 does occur. A sweep of np.linspace stays between its ends, starts and ends at them and increases, and so do the numbers of errors. Fitting a field to whole numbers up to 2^53 and finite floats gives numbers, with deviation 0 only if all samples are equal; equal samples give exactly the value and 0 as long as their sum needs no rounding, and beyond that they need not.", "quantifier": "all bit arrays, sample matrices, field samples, probabilities, sweeps and code lengths within the bounds, all mathematical libraries meeting the stated bounds on log", "why_tests_cant": "rounding errors depend on the particular values and numbers of samples; an error of one flip, a nan or a deviation that is not 0 shows for a few inputs among very many", "anchors": ["utils/performance_analysis.py:ber", "utils/information_theory.py:prob", "utils/information_theory.py:entropy", "utils/information_theory.py:hellinger", "inference/statistical_models.py:FieldModel", "runs/HC_eilat_July_2018/simulated_data_combined_decoder.py:no_errors"]}
{"id": "C98", "title": "The denoiser and the models of bits in double precision", "statement": "With the operations of IEEE 754 double precision, rounding included, any f in [0, 1/2) and any history of buffers: every estimated probability is a number in [0, 1], within 2^-50 / (1 - 2 f) of the exact estimate and on the side of the majority, 0 just when the share of ones rounds to at most f, 1 if all stored bits are ones, and its entropy is 0 just for the estimates 0 and 1. The confidence is a number in [0, 1] even where exp overflows, 0 up to one buffer, at least 1/2 from the centre on and at most 1/2 before it. A prediction never contains nan or inf, no log likelihood ratio moves away from the majority of the stored buffers, and a bit that never changed moves by at least 1/4 past the centre. Denoising hard bits never fails for f between 2^-900 and 1/3, and a received bit with which at least half of the stored buffers agree is never changed. In the decoders the check that estimates are probabilities never fails, and what the model adds to the word has the sign of the majority.", "quantifier": "all flip probabilities, windows, centres, slopes and thresholds within the bounds, all histories of bit buffers, all log likelihood ratios up to 2^1000, all mathematical libraries meeting the stated bounds on exp and log", "why_tests_cant": "whether a rounded quotient leaves [0, 1], an overflow of exp gives nan, or a tie rounds to the wrong side depends on particular counts and parameters among very many", "anchors": ["inference/entropy_mle.py:EMLE.update_model", "inference/entropy_mle.py:EMLE.predict", "inference/entropy_mle.py:EMLE.denoise_buffer", "inference/entropy_mle.py:EMLE.denoise_sequence", "decoders/classifiying_decoder.py:ClassifyingEntropyDecoder.update_model", "decoders/classifiying_decoder.py:ClassifyingEntropyDecoder.model_prediction"]}
{"id": "C99", "title": "The oldest simulations: what they report, and that two of them never report", "statement": "The two scripts that simulate the entropy and the flipping decoder of single bits while these learn never finish a level: for every LDPC library whose six item results end with an array for the bits, all data, draws and schedules of the worker processes, the first level ends with an exception (TypeError if the decoding works), so nothing is written, unless there are no levels at all. The script with a predefined model encodes each wanted buffer once and sends the words eight times in turn; it reports the received words, which differ from the sent ones just in the drawn positions, for each decoder the rows in the order of sending, each ending with its number of wrong bits, and the shares of faultless answers and of wrong bits; the buffers it stores are the first ones, as many as words were sent, so that the i-th stored buffer belongs to the i-th word only in the first eighth. Without words it fails with ZeroDivisionError. All this presupposes that the decoder classes are found; as committed the three scripts stop before, at their imports (C116).", "quantifier": "all LDPC libraries, parsers, buffers, numbers of wanted buffers, models, levels, draws of errors and schedules of the worker processes", "why_tests_cant": "the failing comparison depends on the shape of what an external library returns, and the reported shares on all words, draws and answers", "anchors": ["runs/HC_eilat_July_2018/simulated_data_entropy_bitwise_decoder_script.py", "runs/HC_eilat_July_2018/simulated_data_entropy_bitwise_decoder_script_mp.py:simulation_step", "runs/HC_eilat_July_2018/simulated_data_entropy_bitwise_decoder_predefined_model.py:simulation_step"]}
{"id": "C100", "title": "Clustering trials: the words, the labels and which class each count belongs to", "statement": "For transmissions of 1224 bits the clustering trials with two and with three classes cut each transmission into parts that together are the whole of it, make words of 648 and 486 bits, and invert exactly the drawn bits of each word; for other lengths there are words exactly when each drawn position lies in its word, and IndexError otherwise. The first 99 words get the label -1, each later one the number of the cluster that fits best given all the words before it. Entry i of the result lists the labels given from the 100th word on to the words of class (99 + i) mod the number of classes, with their numbers: with two classes the entries are in the order 1, 0, with three in the order 0, 1, 2. All later words are counted exactly once, under the number of a cluster. The script for digits never gets to a result: it ends with AttributeError after the training.", "quantifier": "all transmissions, draws of filling and of errors, numbers of words, labels, training sets", "why_tests_cant": "which class an entry counts depends on the number of training words modulo the number of classes, and the counts on all words and draws", "anchors": ["scripts/clustering_trials.py", "runs/clsutering_analysis/cluster_mnist.py", "inference/clustering.py:BufferClassifier"]}
{"id": "C101", "title": "Logging: a message appears once for each call that set up its logger or one above it", "statement": "For every history of calls of setup_logger and of the loggers, a message of at least the level that counts for its logger is written to a file exactly as many times as setup_logger succeeded with this file for the logger or for a name above it (one that is followed by a dot in the logger's name), and to the console as many times as it succeeded for these with any file; so calling setup_logger k times makes each message appear k times. If it never succeeded for them, messages go to the standard error stream from WARNING on and nowhere otherwise. The level that counts is the one given last to the closest such name that has one, and it also holds for the files given before. A call whose file cannot be opened still changes the level but adds no place to write to. Nothing written is ever removed or changed.", "quantifier": "all histories of calls, names, files (openable or not), levels and messages", "why_tests_cant": "how often a message appears depends on the whole history of calls in the process", "anchors": ["utils/common_logging.py:setup_logger"]}
{"id": "C102", "title": "Clustering in double precision recognises what it was trained with", "statement": "With the operations of IEEE 754 double precision, rounding included, and any logarithm accurate to 2^-50: the fit computed for a buffer of n bits is a number in [-100, 0] within (n + 16) 2^-46 of the exact one, and exactly 0 just for a cluster of nothing but copies of the buffer. classify by log likelihood picks a cluster whose exact fit is the best up to twice that, so one that is better than all others by more is picked, and the first cluster of copies of the buffer if there is one. By Hamming distance it picks exactly the cluster that it would pick without rounding. Up to 4096 training buffers, merging by Hellinger distance merges clusters with equal distributions first, in order. So if the training buffers take at most n_clusters different values, then from then on every one of these buffers gets the same label each time and no two different ones share one, for both metrics and all weightings, through every further history of such buffers.", "quantifier": "all buffers and histories (up to 2^50 buffers, 2^40 bits), numbers of clusters, metrics, weightings, all accurate logarithms", "why_tests_cant": "rounding errors depend on all inputs, and a label is only useful if it is stable for all future buffers", "anchors": ["inference/clustering.py:BufferClassifier.classify", "inference/clustering.py:BufferClassifier.merge_clusters", "inference/clustering.py:Cluster"]}
{"id": "C103", "title": "Two ways of training a model of fields, and the example that shows them", "statement": "The example presents adding whole buffers with the structure of the first (add_buffer) and segmenting each buffer and adding its fields (get_msg_fields, add_sample) as two ways of training. If all buffers are cut into the same messages and none of these occurs twice, both learn the same samples for every field of every message; only the first also learns the bytes of headers and counts the buffers. In general the second way learns one value per buffer and field, that of the last message with the field, where the first learns all; when messages move, the first learns bytes that are not the field, the second the field; and the second ends with ValueError at the first buffer without a message, keeping what it learned. The example script itself always ends with ValueError after saving its first model, since it assigns the three results of predict to two names.", "quantifier": "all lists of buffers, structures, windows and float arithmetics", "why_tests_cant": "the equivalence of the two ways is about all lists of buffers, and no test exists for the script", "anchors": ["scripts/buffer_segmentation_example.py", "inference/statistical_models.py:BufferModel.add_buffer", "inference/statistical_models.py:BufferModel.add_sample", "inference/buffer_segmentation.py:BufferSegmentation.get_msg_fields"]}
{"id": "C104", "title": "The distribution, the sign bit and the significant bits that a field model reports; a buffer model as a container", "statement": "After any additions and reads, pdf and cdf of a field model are those of the normal distribution with the mean and the population standard deviation of the samples kept by the window: pdf is positive, symmetric about the mean and falls with the distance from it, cdf rises strictly, is 1/2 at the mean, and classify_value is twice the smaller tail. With equal samples, or none, both are nan. p_of_sign_bit is 1 for unsigned types and char whatever the samples; for signed types and float it is the probability of the sign of the mean, at least 1/2, 1/2 exactly for mean 0, the same for negated samples, 1 for equal samples, nan if these are 0, and ZeroDivisionError without samples. std_significant_bits returns the k with 2^(k-1) < 1/(num_std * std) <= 2^k, raises OverflowError for equal samples or num_std 0, ValueError for negative num_std and ZeroDivisionError without samples. bitwise_classify_value returns a single 0 for every value. A type that is not one of the types of MAVLink fields is refused with ValueError; otherwise name, type, window, length, int_type (false for float only) and signed (true for signed types and float) stay as they were made. The names of a buffer model are those of the added fields and assigned models, in order of first arrival and each once, and len, iter, in, [] and get_field_model agree with them.", "quantifier": "all histories of a field model, types, windows, arguments, and all sequences of additions and assignments to a buffer model", "why_tests_cant": "holds for every history and every argument; none of these methods has a test", "anchors": ["inference/statistical_models.py:FieldModel.pdf", "inference/statistical_models.py:FieldModel.cdf", "inference/statistical_models.py:FieldModel.p_of_sign_bit", "inference/statistical_models.py:FieldModel.std_significant_bits", "inference/statistical_models.py:FieldModel.bitwise_classify_value", "inference/statistical_models.py:FieldModel.__str__", "inference/statistical_models.py:BufferModel.__getitem__", "inference/statistical_models.py:BufferModel.fields_names"]}
{"id": "C105", "title": "The simulated mission is the course its numbers describe, for all draws of the generator", "statement": "For all draws of the generator data_generation/mission_profile.py completes, and each of its ten series has an entry for each of the 500 messages: the course of the mission (piecewise linear, in closed form) plus a multiple of one draw. Without noise the range changes by at most 5 metres from message to message, except when the dive starts: from message 49 to 50 it jumps from 0 to 50. Without noise the depth increases exactly at the messages 50 to 162, not at 50 to 149 as described and as the system status says: at messages 150 to 162 the status says cruise while the vehicle still descends. The noise of the depth is scaled twice, a draw z moves it by the square of the scale times z. The pressure is affine in the depth with this noise and is below that of the air exactly when that depth is negative, which happens; the temperature of the water does not depend on the noise of the depth.", "quantifier": "all draws of the generator of the right sizes, all messages", "why_tests_cant": "the script has random draws of any value and no function to call; tests would see one of its runs", "anchors": ["data_generation/mission_profile.py: pinger_range, azimuth, hc_mode, hc_system_status, depth, depth_noise, water_temp, pressure"]}
{"id": "C106", "title": "The denoisers in double precision", "statement": "With doubles instead of real numbers the DUDE of bits still works. Hard decisions are monotone: if OnlineDude.denoise_sample answers 1 to an observation, it answers 1 to the same observation after any other history in whose context 0 was seen no more often and 1 no less often, for every channel matrix with entries in [0,1] and every computed inverse with the signs of an inverse. For a binary symmetric channel with flip probability f of at most 63/128, the Hamming loss and an inverse accurate to 2^-40, an observation is kept if it makes up at least the share 2 f (1 - f) + 2^-36 of the symbols seen in its context and changed if it makes up at most 2 f (1 - f) - 2^-36 of them; so a symbol that makes up half of its context is never changed. The same holds for the inner positions of DUDE.denoise_sequence with two-sided contexts, its borders are unchanged. Soft decisions, with f at least 2^-30 and at most 2^29 observations, are two positive doubles of at most 1 whose sum is within 2^-51 of 1, each within the factor 1 +- n 2^-34 of the exact probability, n being the number of symbols seen in the context: neither cancellation in the estimated counts nor the test for counts below one makes them jump.", "quantifier": "all channels, computed inverses within the bound, context lengths, histories of observations and observations", "why_tests_cant": "rounding depends on every count and matrix entry; the decisions near the threshold and the discontinuous smoothing are the places where doubles could go wrong, and no set of runs covers them", "anchors": ["inference/dude.py: OnlineDude.denoise_sample, OnlineDude.smooth_posterior, DUDE.denoise_sequence"]}
{"id": "C107", "title": "The Bernoulli mixture in double precision", "statement": "With doubles instead of real numbers BMM.fit never returns nan. For at most 2^20 samples of at most 2^14 bits and at most 2^10 components it succeeds for every number of iterations and every draw of the starting means: the weights and means are finite numbers in [0,1], some weight is positive, and after at least one iteration the log likelihood is finite, the responsibilities are in [0,1] and each sample has a component with a responsibility of at least 2^-14, however small the likelihoods are. An iteration in which the responsibilities of some component are 0 for all samples changes neither the weights nor the means, and fit returns the same result for every larger number of iterations; every other iteration sets each weight to the rounded quotient of the sum of its responsibilities by the number of samples and each mean to the rounded quotient of the sum over the samples whose bit is set by the sum over all. Such an empty component can arise in the first iteration, and then fit returns the drawn starting point whatever the number of iterations: witnessed by two components and one sample of 4096 bits. With an exp that is right to 50 bits the responsibilities of an iteration are the posterior probabilities of the components given by the weights and means before it, up to 1/2048, those of a sample add up to 1 up to 2^-20, each entry of score_samples is the logarithm of the likelihood of the sample up to 1/4096, and predict assigns a component whose posterior is the largest up to 1/1024. score and score_samples of any data of the same width are finite, and predict never assigns a sample to a component whose weight is 0.", "quantifier": "all data sets and draws within these sizes, all numbers of components and of iterations, every exp and log that are accurate and treat 0, -inf and nan as C99 does", "why_tests_cant": "underflow, -inf from the logarithm of a vanished weight, and 0/0 in the means appear only for particular data after particular numbers of iterations; no set of runs covers them", "anchors": ["inference/bmm.py: BMM.fit, BMM.get_save_single, BMM.get_responsibilities, BMM.get_sample_log_likelihood, BMM.get_mu, BMM.reset_params, BMM.predict, BMM.score"]}
{"id": "C108", "title": "Models of fields in double precision: plausibility and predicted bits", "statement": "In IEEE 754 double precision, after any history of add_sample calls and reads with samples that are whole numbers up to 2^53 or finite singles (at most 2^40 of them): classify_value of such a value returns a plausibility in [0, 1] and the deviation; the plausibility is 1 for the mean, does not grow with the distance from the mean, is 0 elsewhere if the deviation is 0, and otherwise is 1 - erf(distance / deviation / sqrt 2) with one rounding per operation. bitwise_mean of an integer field gives the wire bits of the exact mean rounded half to even, as long as the number of samples times the largest size is below 2^52 (every field of at most 32 bits with fewer than 2^20 samples). For larger values the encoded number stays between any multiples of a power of two that enclose the samples and whose sums are doubles, so struct.pack accepts it; outside that it does not: a uint64_t field that held 2^64 - 1, or an int64_t field that held 2^63 - 1, raises struct.error. A constant field (whole numbers whose sum is at most 2^53, or up to 2^29 equal finite singles other than 0) predicts its own bits, also inside bitwise_model_mean of a buffer, with plausibility 1 for its value and 0 for all others. Beyond that bound a constant field can have a positive deviation and find its only value implausible (seven equal timestamps 1670000000000001), or predict the bits of another value (five times 2^53 - 1).", "quantifier": "All mathematical libraries, error functions with values in [0,1] that do not decrease, single precision packings that are exact on singles, histories, window sizes, field types, sample values within the stated ranges, buffers and structures.", "why_tests_cant": "The set of samples and histories is unbounded and the rounding errors depend on all of them; that rounding twice (to a double, then to a whole number) never changes the bits is a statement about all means, and the failures need particular large values.", "anchors": ["inference/statistical_models.py:num2bits", "inference/statistical_models.py:FieldModel.classify_value", "inference/statistical_models.py:FieldModel.bitwise_mean", "inference/statistical_models.py:FieldModel._update", "inference/statistical_models.py:BufferModel.bitwise_model_mean"]}
{"id": "C109", "title": "The file of a saved model reads back as written, and an interrupted save is noticed", "statement": "The text that save writes (JSON with indent 4, sorted keys, ASCII escapes) is read back by load as the same document, for any document with distinct keys, strings of Unicode characters and floats whose printed form reads back; so a model that was built by any history, saved and loaded from the file has the same window, size, description, fields, samples and predictions. The text holds printable ASCII and line feeds only, so the platform's text encoding does not matter. Reading any text ends, with a document or with JSONDecodeError, and every proper beginning of the text of an object, array or string gives JSONDecodeError. Hence, if the process stops anywhere during save, a later load gives what the old file gave (stopped before open, or an exception of the statistics, which comes before open), the complete new model, or JSONDecodeError; never another model. Saving is not atomic: stopped after open, the old model is lost. A bare number that is cut short is another number (12 becomes 1), which cannot happen to a saved model.", "quantifier": "All documents, float printers and readers that are inverse to each other, texts, histories of the model, old file contents and crash points (any number of characters written).", "why_tests_cant": "It ranges over all documents and all crash points; a test saves a few models and does not stop in the middle of a write.", "anchors": ["inference/statistical_models.py:BufferModel.save", "inference/statistical_models.py:BufferModel.load", "scripts/train_estimator.py", "runs/HC_eilat_July_2018/simulated_data_pretrained_model.py"]}
{"id": "C110", "title": "Splitting the results of a simulation for MATLAB", "statement": "The script that splits the results of a simulation writes its three files (the summary with the steps, the words of the LDPC decoder, the words of the entropy decoder) just if every step holds tables data, decoded_entropy and decoded_ldpc; otherwise it raises KeyError or AttributeError before any file is written. The i-th entries of the three files together hold every value of the i-th step, nothing else and nothing twice, with the tables as lists by column name (of two columns of one name the last); the summary keeps its values except an earlier stats. A run stopped between two files leaves the first ones, no other file is touched, and running the script again gives what one run gives.", "quantifier": "All summaries, all lists of steps with any values, all directories and all moments between the files at which the script may stop.", "why_tests_cant": "It ranges over all lists of steps and all stopping points, and the script changes the steps while it goes through them three times.", "anchors": ["scripts/fix_results.py"]}
{"id": "C111", "title": "What the scripts leave on disk, whatever fails and however runs overlap", "statement": "For the 21 scripts which save results in results/<timestamp>/: the names a script makes in that directory differ from each other and from log.log for all values of its options. For any number of runs with different timestamps, their statements in any order and failing at any of them, the directory of a run holds besides log.log exactly the results the run wrote before, each whole, except that the one at which it failed may be cut off. What a run printed is, in order, in exactly one log.log. A run alone moves results/log.log to its directory if it ends or fails within its try after making the directory; otherwise (a failure before the try, KeyboardInterrupt, a failing handler) the log stays in results/ for the next run to append to. Of runs which share results/log.log and are under way together at most one reaches its end; if nothing else goes wrong exactly one does and takes the lines of all of them, and the others raise FileNotFoundError with all their results saved and no log. Of runs of the same second at most one reaches its end, and all results in the directory are of one run; with clustering_analysis.py it may be that none does. A failure within the try of a run alone is logged by its name and raised again; an interrupt is not logged.", "quantifier": "All scripts of the table, all values of their options, all disks without the new directories, any number of runs, all interleavings of their statements, all failures at any statement (with or without part of a file written), all lines printed.", "why_tests_cant": "It ranges over all crash points and all interleavings of several processes on one file system; a test runs one process once.", "anchors": ["runs/HC_eilat_July_2018/simulated_data_combined_decoder.py", "runs/Feb_2022/experimental_data_run.py", "runs/clsutering_analysis/clustering_analysis.py", "scripts/classifier_analysis.py", "utils/common_logging.py setup_logger"]}
{"id": "C112", "title": "The timestamp of a run stands for a second, late by a minute, an hour or a day when one begins while it is read", "statement": "Timestamps (the names of the directories of runs and of step files) are put together from four readings of the clock. Readings at one instant give the same text exactly if they are within the same second. In general the timestamp is that of the second of the last reading, less 60 s for every minute that begins between the last two readings, 3600 s for every hour between the second and the third, 86400 s for every day between the first two; two timestamps are equal exactly if these seconds are. If the readings take less than a minute the timestamp is right or late by exactly one minute, one hour or one day. So a run may have the timestamp of a run an hour before (witness); of runs with the same timestamp at most one reaches its end, overlapping or not. The date and time of a second are those of the Gregorian calendar (the days before it are those of the years, months and days before), and the text consists of their numerals.", "quantifier": "All starting dates, all four instants in order, however long it takes to read them; all runs and schedules of C111.", "why_tests_cant": "The wrong timestamps need a reading within a few microseconds around the start of a minute; a test cannot choose the instants at which the clock is read.", "anchors": ["runs/HC_eilat_July_2018/simulated_data_combined_decoder.py timestamp", "runs/clsutering_analysis/clustering_analysis.py timestamp", "scripts/unify_results.py timestamp"]}
{"id": "C113", "title": "The file of a finished step survives whatever fails later, unless a step of the same second and level has the same name", "statement": "Simulations save a file for every error level as soon as it is done. After any schedule of runs with different timestamps, whatever fails anywhere but within the write of such a file, a file beside the directories of runs (other than the log) holds exactly what the last step of this name wrote, whole; files no step wrote are as before. The names of two steps are equal exactly if their directories, the suffixes of their scripts, their timestamps and their levels are equal, whatever the levels look like. So a step that was saved stays unless a later step of a script with the same suffix and directory has the same timestamp and the same level. This does happen: two scripts share a suffix, and overlapping runs of them lose a step though nothing fails (witness).", "quantifier": "All scripts of the table, all runs and schedules of C111 with different timestamps, all outcomes of statements including steps done before a failure, all readings of the clock and all texts of levels.", "why_tests_cant": "The files depend on the order of all steps of all runs, on where each fails and on the instants at which the clock is read; tests run one script alone on a few levels.", "anchors": ["runs/HC_eilat_July_2018/simulated_data_combined_decoder.py simulation_step", "runs/HC_eilat_July_2018/simluated_data_entropy_bf_decoders.py simulation_step", "runs/HC_eilat_July_2018/simulated_data_classifying_entropy_decoder.py simulation_step"]}
{"id": "C114", "title": "No file reads a name before it is bound, apart from an exact list with the options that lead there", "statement": "In every Python file of the code, for all options and whichever way the other conditions go, however often loops run and whatever fails, a name that is read is bound, apart from an exact list. Nine entries depend on options alone: with exactly those options a run stops at the unbound name though nothing fails (so --learn 1 of simulated_data_mavlink_decoding.py with its default clustering reads data_model unbound, --msg_type 3 of two scripts of Feb_2023 reads h, other message types read msg_type, and three scripts read spec when --n_clusters is not 1, 2 or 3, where others raise). Five more are reached after a failure that was caught or a loop over nothing, and are. The rest are locals of five methods and a function, where what the conditions have in common is not modelled. And a file whose imports succeed (C116) can get to its end exactly if its options are not among those listed, else every run stops.", "quantifier": "All files but tests and the generated dialects, all values of all options, all outcomes of all other conditions, all numbers of turns of loops, all failures of statements, caught or not.", "why_tests_cant": "Python binds names as it runs: an unbound name shows only on the branch that skips its assignment, after hours of simulation, and tests take few branches with default options.", "anchors": ["runs/HC_eilat_July_2018/simulated_data_mavlink_decoding.py", "runs/Feb_2023/experimental_data_run_feb_23.py", "runs/HC_eilat_July_2018/simulated_data_classifying_dude_decoder.py", "scripts/classifier_analysis.py", "decoders/turbo.py TurboDecoder.decode_buffer"]}
{"id": "C115", "title": "No method reads an attribute before it is set, apart from an exact list", "statement": "After an object is made, whichever of its methods are called in whatever order and with whatever failures of earlier calls, no method reads an attribute of it that was not set yet, apart from an exact list. The weighted entropy decoder reads the normalised variance of a model that was not updated yet exactly when it was made with confidence 4 and an estimator other than Bayes; the mixture model BMM reads its parameters and data when used before fit, and none of them after; DUDE never sets the context its sample-wise method reads, so no call of denoise_sample ever returns. Each of these reads is reached by one or two calls in which nothing fails. Left open are logL after fit, where what the conditions have in common is not modelled, and attributes read only after another listed one.", "quantifier": "All classes of the code but enumerations, exceptions and the generated dialects, all arguments of constructors, all sequences of method calls, all outcomes of conditions not on those arguments, all numbers of turns, all failures.", "why_tests_cant": "An attribute that is set by one method and read by another exists only for some orders of calls; tests call methods in one order.", "anchors": ["decoders/entropy_bitwise_decoder.py EntropyBitwiseWeightedDecoder.model_prediction", "inference/bmm.py BMM.predict", "inference/dude.py DUDE.denoise_sample", "decoders/mavlink_decoder.py MavlinkRectifyingDecoder", "inference/clustering.py BufferClassifier"]}
{"id": "C116", "title": "Every module and script finds what it imports, in any order and after any failures, apart from exactly five scripts", "statement": "Whatever was imported in a process before, in whichever order and whatever failed then, the import of any module of the code gets to its end unless one of the statements run for it fails for another reason than an import of the code: although packages and their modules import one another while they are not complete, no name is ever missing and no import goes on for ever. A failed import leaves no incomplete module behind: between imports every module that is there has all the names its text binds and no others but modules inside it, so a second attempt succeeds once its cause is gone. All names of __all__ are bound. As long as nothing fails no module is executed twice. Every script gets past its imports apart from exactly five simulations of the bitwise entropy decoders, which always stop because the package decoders does not export those classes.", "quantifier": "All 34 modules and 41 scripts of the code, all sequences of earlier imports, all failures of statements before and during the import, any depth of nested imports from 20 on.", "why_tests_cant": "Circular imports succeed or fail depending on which module is asked for first and on what an earlier failure left behind; tests import modules in one order in one process.", "anchors": ["decoders/__init__.py", "decoders/mavlink_decoder.py imports", "inference/__init__.py", "protocol_meta/__init__.py", "utils/__init__.py", "runs/HC_eilat_July_2018/simulated_data_entropy_bitwise_decoder_weighted_model.py imports"]}
{"id": "C117", "title": "Messages sent with protocol version 2.0: nobody understands them, because of one start marker", "statement": "If the constant WIRE_PROTOCOL_VERSION of a dialect is set to 2.0, pack gives for every message a header of ten bytes, the payload of version 1.0 without its trailing zeros (one byte is kept) and the checksum, followed by link id, timestamp and hash if messages are signed; it fails for the same settings of the signature as in version 1.0. But the header begins with the start marker of version 1.0, so that decode refuses every such message, signed or not, whatever the receiver's settings (defect). With the marker of version 2.0, this byte alone being changed, every message would be decoded with all its values, the stripped zeros included, and a signed one would prove its origin to every receiver with the same key to whom its timestamp is news. With force_mavlink1 the frame is that of version 1.0 and is not signed.", "quantifier": "All messages of the dialect, all field values that fit, all header values that fit a byte (the refusal: all messages and values whatsoever that pack accepts), all hash functions of 32 bytes, all settings of sender and receiver.", "why_tests_cant": "Whether a message survives depends on how its payload ends, on the settings of both sides and on the hash; tests never set this version, and a test of some messages does not show that none is understood.", "anchors": ["mavlink_utils/HC_dialect.py MAVLink_header.pack", "mavlink_utils/HC_dialect.py MAVLink_message.pack", "mavlink_utils/HC_dialect.py MAVLink.decode", "mavlink_utils/minimal_dialect.py MAVLink_header.pack"]}
{"id": "C118", "title": "Connections whose callbacks do anything: every message is found once, in order, and sending keeps its numbers", "statement": "Let the program and the callbacks of a MAVLink object (set_callback, set_send_callback) call parse_char, parse_buffer and send as they like - a callback may itself parse, send, change the callbacks or raise - and let file.write fail. With robust_parsing: the messages and bad data found are those of the first pieces of all bytes fed, in the order of the calls, none twice and none left out; the rest waits in the buffer; the counters are exact; when a parse_buffer returns, no complete piece is left. A callback that is set is called once with every message found, in order. Every message found is returned by the call that found it or is held by one that waits for a callback, unless that callback raised; without calls of the parser from callbacks they are returned in order. Whatever happens on the receiving side: the file holds the frames of the messages sent one after another, numbered consecutively modulo 256; a message that cannot be packed leaves no trace; one whose writing fails leaves what was written, and the next message gets its number; the counters are exact and the send callback is called once with every message sent, in order. So what one connection wrote and another was fed reaches the callback there, exactly and in order, whatever the callbacks of both do. Defects with witnesses: a callback that raises costs the caller of parse_buffer all messages found before in the same call; a writing that fails within a frame costs the receiver the next message, too.", "quantifier": "all histories: all sequences of calls by the program and by callbacks at any nesting, all bytes, all messages, all points where callbacks raise or writing fails; all decoders that raise nothing but MAVError (signed or not)", "why_tests_cant": "callbacks are arbitrary code which re-enters the object at the moment its state is being changed; there are unboundedly many interleavings of calls and failures, and the repository has no test of callbacks", "anchors": ["mavlink_utils/HC_dialect.py MAVLink.set_callback", "mavlink_utils/HC_dialect.py MAVLink.set_send_callback", "mavlink_utils/HC_dialect.py MAVLink.send", "mavlink_utils/HC_dialect.py MAVLink.parse_char", "mavlink_utils/HC_dialect.py MAVLink.parse_buffer"]}
{"id": "C119", "title": "The dialect modules are what the XML definitions describe, and so are the bytes sent and read", "statement": "For every message of HC_dialect.xml: the generated module knows its id, and the class has the name, the fields, the types, the order of transmission (elements of 8, 4, 2, 1 bytes, otherwise in the order of the file), the struct format, the array lengths and the checksum extra byte that follow from the XML; no other message is known, and the order of mavlink_map is that of the file. For all values that fit the declared types, pack gives the frame that the definition describes: every field at its place, little-endian two's complement or the bits of the float, texts cut or filled with zeros, and the checksum over the frame and the byte derived from the text of the definition. A version 1.0 buffer is decoded if and only if it is a frame of a message of the XML, and every field is read from the place that the definition gives it. The same holds for minimal_dialect and its XML, whose definitions are all among those of HC_dialect.xml. So a program generated from the same XML in any language exchanges messages with this one.", "quantifier": "all messages of both XML files, all values of their fields, all sequence numbers, system and component ids, all byte strings", "why_tests_cant": "the modules are generated and checked in; the tests of the repository never compare them with the XML, and pack and decode would agree with each other even if both disagreed with the definition", "anchors": ["mavlink_utils/HC_dialect.xml", "mavlink_utils/minimal_dialect.xml", "mavlink_utils/HC_dialect.py mavlink_map", "mavlink_utils/HC_dialect.py MAVLink_message.pack", "mavlink_utils/HC_dialect.py MAVLink.decode"]}
{"id": "C120", "title": "The repository's own tests cannot fail by chance, except one", "statement": "Every unit test of bit operations, headers, buffer segmentation, buffer structure and information theory (numbers in exact arithmetic) passes for every value that its random generators can return: rand_uint8 any byte, rand_msg any id of the dialect, rand_bitstring any bits, randint any integers, and any number of rounds. The one exception is TestProbability.test_probability: it passes exactly when each of the five letters makes up between 19.9% and 20.1% of the draws, so some ten million draws fail it.", "quantifier": "all values the generators can return, in every round", "why_tests_cant": "A test run sees one draw; that a test never flakes, or exactly when it does, is a statement about all draws.", "anchors": ["tests/test_bit_operations.py", "tests/test_msg_header.py", "tests/test_buffer_segmentation.py", "tests/test_buffer_structure.py", "tests/test_information_theory.py", "data_generation/random_test_data_generation.py: rand_uint8, rand_msg, rand_bitstring"]}
{"id": "C121", "title": "Threads that send on one connection write whole frames, but sequence numbers and counts can be lost", "statement": "When several threads call MAVLink.send on one object, then for every interleaving of their statements the file receives whole frames only; each message is written at most once, in the order of its thread, and exactly once when the threads have finished; a thread stops early only if packing its message raises. Messages of the dialect whose values fit never raise, every schedule that gives each thread eight steps per message finishes, and a receiver gets every message back from any splitting of the bytes into blocks. The sequence number stays in 0..255 and the packet and byte counts lie between their first values and what was written, and at least one packet is counted once the threads have finished. A thread alone, and sends that do not overlap, give exactly the result of sending one after the other; sends that overlap can put one sequence number into two frames and lose a count, and the counts and the sequence number can even go back (witnesses).", "quantifier": "all numbers of threads, all message lists, all interleavings of the statements of send, all splittings of the bytes", "why_tests_cant": "A test run sees one schedule; the claim is about all of them, and the lost update shows only in some.", "anchors": ["mavlink_utils/HC_dialect.py: MAVLink.send, MAVLink_message.pack, MAVLink.parse_buffer"]}
{"id": "C122", "title": "The enumerations of the dialect modules are those of the XML definitions", "statement": "Importing a dialect module builds its enumerations without an exception. Afterwards, for every text e and number v, enums[e][v] exists exactly if the XML file defines value v in enumeration e (an entry without a value takes one more than the highest before it, and one more than the highest of all is e_ENUM_END), its name is the file's, and otherwise the lookup raises KeyError; its parameters are those of the file, except that entries of enumerations named MAV_CMD... always have parameters 1 to 7. A module constant has a value exactly if the file gives that name the value, so names stand for one value each and enums[e][v].name leads back to v. Iteration goes through the values in ascending order, and the end lies above all of them. Both dialects agree.", "quantifier": "all texts and numbers used as keys, all names, all enumerations of both dialects", "why_tests_cant": "The keys range over all texts and numbers; a test looks up a few, and the repository has none for the enumerations.", "anchors": ["mavlink_utils/HC_dialect.py: EnumEntry, enums", "mavlink_utils/minimal_dialect.py: EnumEntry, enums", "mavlink_utils/HC_dialect.xml: enums", "mavlink_utils/minimal_dialect.xml: enums"]}
