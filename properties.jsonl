{"id": "C01", "title": "Bit reads return the next bits of the stream", "statement": "Reading n bits returns the unsigned big-endian number formed by the next n bits of the input, whatever the alignment of the read position, and leaves the read position exactly n bits further; the bytes of the input are never changed.", "quantifier": "every input buffer, every read position and every n the decoder asks for", "why_tests_cant": "the result depends on 8 alignments x 24 lengths x all byte contents; a test samples a few", "anchors": ["decoder/ia_core_coder_bitbuffer.c:ia_core_coder_read_bits_buf"]}
{"id": "C02", "title": "The decoder never reads outside the input it was given", "statement": "For every input and every sequence of bitstream reads and skips performed by a bitstream parser, every byte access lies inside the buffer the caller supplied; if the parser asks for more bits than remain, parsing stops with the insufficient-input error instead of producing a value.", "quantifier": "every byte buffer, every parser built from reads of at most 24 bits and non-negative skips, every reachable position", "why_tests_cant": "out-of-range reads on adversarial streams usually do not crash, so no finite test corpus shows their absence", "anchors": ["decoder/ia_core_coder_bitbuffer.c:ia_core_coder_read_bits_buf", "decoder/ia_core_coder_bitbuffer.c:ia_core_coder_skip_bits_buf", "decoder/ia_core_coder_common_initfuncs.c:ia_core_coder_create_init_bit_buf"]}
{"id": "C03", "title": "The remaining-bits counter is exact", "statement": "After any history of successful reads, skips and peeks, the count of bits the decoder believes to be left equals the number of input bits not yet consumed.", "quantifier": "every history of operations of any length", "why_tests_cant": "invariant over unbounded histories", "anchors": ["decoder/ia_core_coder_bitbuffer.c:ia_core_coder_read_bits_buf", "decoder/ia_core_coder_bitbuffer.c:ia_core_coder_skip_bits_buf", "decoder/ia_core_coder_bitbuffer.c:ia_core_coder_show_bits_buf"]}
{"id": "C04", "title": "Peeking does not change what is read next", "statement": "Peeking n bits returns the same number that reading n bits would return, and after peeking every later read returns what it would have returned without the peek.", "quantifier": "every buffer, position and n", "why_tests_cant": "needs comparison of two executions on all inputs", "anchors": ["decoder/ia_core_coder_bitbuffer.c:ia_core_coder_show_bits_buf"]}
{"id": "C05", "title": "Long bit reads", "statement": "Reading n bits for any n up to 32 at any alignment returns the next n bits (full claim of the reader interface, which takes any bit count and returns a 32-bit number).", "quantifier": "every buffer, alignment and n in 1..32", "why_tests_cant": "only some (alignment, length) pairs misbehave and the misbehaviour is undefined behaviour, which tests may not notice", "anchors": ["decoder/ia_core_coder_bitbuffer.c:ia_core_coder_read_bits_buf", "decoder/ia_core_coder_bitbuffer.c:ia_core_coder_read_bits_buf_32", "decoder/impeghd_mhas_parse.c:impeghd_mhas_parse"]}
{"id": "C06", "title": "Bit writer and bit reader are inverse", "statement": "A sequence of fields written with the bit writer into a buffer that is large enough is read back unchanged by the bit reader, and the number of bits written equals the sum of the field widths.", "quantifier": "every sequence of (value,width) fields of any length that fits the buffer", "why_tests_cant": "unbounded sequences and all alignments", "anchors": ["decoder/ia_core_coder_bitbuffer.c:ia_core_coder_write_bits_buf", "decoder/ia_core_coder_bitbuffer.c:ia_core_coder_create_write_bit_buffer"]}
{"id": "C07", "title": "Escaped integers round-trip and are bounded", "statement": "Every integer representable by the standard escapedValue(n1,n2,n3) code is decoded from its standard encoding to itself and consumes exactly that encoding; every decoded value is at most (2^n1-1)+(2^n2-1)+(2^n3-1); and the escaped-value writer of the library produces that encoding.", "quantifier": "all n1,n2,n3 in use and all representable values, any following data", "why_tests_cant": "value ranges reach 2^24; the boundary values sit on escape codes", "anchors": ["decoder/ia_core_coder_init_config.c:ia_core_coder_read_escape_value", "decoder/ia_core_coder_bitbuffer.c:ia_core_coder_write_escape_value"]}
{"id": "C08", "title": "MHAS packet headers are decoded as written", "statement": "For every packet type, label and length representable in an MHAS packet header, decoding the standard encoding of the header yields exactly that type, label and length and leaves the position at the first payload bit.", "quantifier": "all (type,label,length) triples the MHAS syntax can carry", "why_tests_cant": "the space is about 2^9 x 2^32 x 2^24", "anchors": ["decoder/impeghd_mhas_parse.c:impeghd_mhas_parse"]}
{"id": "C09", "title": "MHAS packets are framed by their declared length", "statement": "After a MHAS packet has been handled without error, the read position is exactly payload-length bytes after the end of its header, whatever the packet type and payload contents, so the next packet header is found.", "quantifier": "every packet type, every payload content and length", "why_tests_cant": "a mis-framed packet needs specific payload contents; the damage shows only in later packets", "anchors": ["decoder/impeghd_mhas_parse.c:impeghd_mhas_parse"]}
{"id": "C10", "title": "Audio scene group ids are unique", "statement": "When an audio scene description is accepted, no two groups carry the same group id, no two switch groups the same switch-group id and no two presets the same preset id.", "quantifier": "every bitstream that is accepted", "why_tests_cant": "must hold for all accepted streams", "anchors": ["decoder/impeghd_mhas_parse.c:impeghd_mae_asi_group_definition", "decoder/impeghd_mhas_parse.c:impeghd_mae_asi_switch_group_definition", "decoder/impeghd_mhas_parse.c:impeghd_mae_asi_group_presets_definition"]}
{"id": "C11", "title": "Audio scene sizes respect the fixed tables", "statement": "When an audio scene description is accepted, the numbers of groups, switch groups, presets, members, conditions, languages and data sets are within the capacities of the tables they are stored in, and no table element outside its bounds is written while parsing, for accepted and rejected streams alike.", "quantifier": "every bitstream", "why_tests_cant": "memory-safety over all streams", "anchors": ["decoder/impeghd_mhas_parse.c:impeghd_mae_asi_parse", "decoder/impeghd_mhas_parse.c:impeghd_mae_data", "decoder/impeghd_mhas_parse.h"]}
{"id": "C12", "title": "Each scene data block kind occurs at most once", "statement": "A scene description in which the same data block kind occurs twice is rejected; hence in an accepted one each kind occurs at most once.", "quantifier": "every bitstream", "why_tests_cant": "universal over streams", "anchors": ["decoder/impeghd_mhas_parse.c:impeghd_mae_data"]}
{"id": "C13", "title": "Audio scene group definitions round-trip", "statement": "Parsing the standard encoding of any valid list of group definitions (ids, on/off, position and gain interactivity with ranges, conjunct or explicit member lists) gives back exactly these definitions.", "quantifier": "every list of valid group definitions", "why_tests_cant": "unbounded structured input", "anchors": ["decoder/impeghd_mhas_parse.c:impeghd_mae_asi_group_definition"]}
{"id": "C14", "title": "Group member lists are read completely", "statement": "For every group definition the number of member ids that is read equals the transmitted member count.", "quantifier": "every transmitted count 1..128", "why_tests_cant": "only extreme counts misbehave", "anchors": ["decoder/impeghd_mhas_parse.c:impeghd_mae_asi_group_definition", "decoder/impeghd_mhas_parse.h:ia_mae_group_def"]}
{"id": "C15", "title": "Earcon descriptions stay inside the earcon table", "statement": "Parsing an earcon info packet never writes outside the earcon table.", "quantifier": "every bitstream", "why_tests_cant": "only the largest accepted count is affected", "anchors": ["decoder/impeghd_mhas_parse.c:impeghd_econ_config_info"]}
{"id": "C16", "title": "PCM packets stay inside their tables", "statement": "Parsing PCM config and PCM data packets never indexes outside the frame-size table or the sample buffer.", "quantifier": "every bitstream", "why_tests_cant": "needs particular field combinations", "anchors": ["decoder/impeghd_mhas_parse.c:impeghd_pcm_data_config", "decoder/impeghd_mhas_parse.c:impeghd_pcm_data_payload"]}
{"id": "C17", "title": "Create reports invalid configuration", "statement": "Creating a decoder with an out-of-range PCM word size, effect type, target loudness, layout index or preset id returns the corresponding error.", "quantifier": "every caller configuration", "why_tests_cant": "universal over configurations", "anchors": ["decoder/impeghd_api.c:ia_mpegh_dec_create", "decoder/impeghd_api.c:impeghd_dec_set_config_params"]}
{"id": "C18", "title": "Accepted configuration is stored within range", "statement": "Whatever configuration the caller passes, after configuration the stored PCM size, layout index, loudness, effect and preset values are either the caller's valid values or the documented defaults.", "quantifier": "every caller configuration", "why_tests_cant": "universal over configurations", "anchors": ["decoder/impeghd_api.c:impeghd_dec_set_config_params", "decoder/impeghd_api.c:impeghd_dec_set_default_config"]}
{"id": "C19", "title": "Allocations are aligned and inside the allocated block", "statement": "Every memory block the decoder uses starts at an address that is a multiple of its required alignment, and lies inside the block returned by the caller's allocator as long as the allocator reserves size+alignment bytes; blocks from distinct allocations do not overlap.", "quantifier": "every allocator behaviour, every address, every table size and power-of-two alignment", "why_tests_cant": "depends on all addresses the allocator may return", "anchors": ["decoder/impeghd_api.c:impeghd_dec_alloc_and_assign_mem", "test/impeghd_main.c:malloc_global"]}
{"id": "C20", "title": "Allocation failure is reported", "statement": "If the allocator returns no memory for any of the requested blocks, create returns the memory-allocation error and does not touch the missing block.", "quantifier": "every allocator behaviour", "why_tests_cant": "every failure point must be covered", "anchors": ["decoder/impeghd_api.c:ia_mpegh_dec_create", "decoder/impeghd_api.c:impeghd_dec_alloc_and_assign_mem"]}
{"id": "C21", "title": "Call-order protocol of the API", "statement": "For every sequence of API calls, execute produces audio only after a successful init; an execute call before that returns the fatal not-initialised error, writes no samples and consumes a bounded positive number of input bytes.", "quantifier": "every sequence of API calls", "why_tests_cant": "unbounded histories", "anchors": ["decoder/impeghd_api.c:ia_mpegh_dec_init", "decoder/impeghd_api.c:ia_mpegh_dec_execute", "decoder/impeghd_api.c:impeghd_dec_execute"]}
{"id": "C22", "title": "Bytes consumed never exceed bytes supplied", "statement": "On every return from init and execute the reported number of consumed input bytes lies between 0 and the number of bytes supplied.", "quantifier": "every input buffer and every decoder state", "why_tests_cant": "a caller uses the number to move its buffer, so one bad stream corrupts memory", "anchors": ["decoder/impeghd_api.c:ia_mpegh_dec_init", "decoder/ia_core_coder_headerdecode.c", "test/impeghd_main.c:impeghd_main_process"]}
{"id": "C23", "title": "Sampling-ratio selection", "statement": "For every stream and output sampling rate the selected resampling ratio up/down maps the stream rate to the core-coder rate in the table of supported rates, and is 1/1 for all others.", "quantifier": "all 32-bit stream rates", "why_tests_cant": "2^32 rates and dependence on earlier state", "anchors": ["decoder/impeghd_api.c:impeghd_resampler_get_sampling_ratio"]}
{"id": "C24", "title": "Object metadata values are within the legal ranges", "statement": "After every decoded object-metadata frame every object's azimuth is within +-180 degrees, elevation within +-90, radius within 0.5..16, gain within 0.004..5.957, spreads and priority within their ranges.", "quantifier": "every metadata bitstream, every number of objects, every sub-frame and any history of differential updates", "why_tests_cant": "differential updates accumulate without bound over frames", "anchors": ["decoder/impeghd_oam_dec_ld.c:impeghd_obj_md_low_delay_dec", "decoder/impeghd_oam_dec_ld.c:impeghd_limit_range_ld_obj_md"]}
{"id": "C25", "title": "Object metadata round-trip", "statement": "Intra-coded object metadata decoded from its standard encoding gives back the encoded azimuth, elevation, radius, gain, spread and priority indices of every object.", "quantifier": "every list of object parameters in every coding mode (fixed, common, individual)", "why_tests_cant": "structured unbounded input", "anchors": ["decoder/impeghd_oam_dec_ld.c:impeghd_ic_obj_md_ld_dec"]}
{"id": "C26", "title": "Object metadata writes stay inside the object tables", "statement": "Configuring and decoding object metadata never writes outside the per-object tables.", "quantifier": "every stream configuration and object-metadata frame", "why_tests_cant": "memory safety over all streams", "anchors": ["decoder/impeghd_oam_dec.c:impeghd_obj_md_cfg", "decoder/ia_core_coder_init_config.c:ia_core_coder_ext_element_config"]}
{"id": "C27", "title": "Stream configuration respects profile limits", "statement": "When a stream configuration is accepted, the profile-level is supported, the sampling rate is in 1..48000 Hz range accepted by the decoder, and the number of core channels and reference-layout channels does not exceed the limit of the (compatible) profile level.", "quantifier": "every bitstream that is accepted", "why_tests_cant": "universal over streams", "anchors": ["decoder/ia_core_coder_init_config.c:ia_core_coder_mpegh_3da_config"]}
{"id": "C28", "title": "Signal-group info is read completely and no further", "statement": "The signal-group info extension reads exactly one (priority, fixed-position) pair for each signal group.", "quantifier": "every number of signal groups", "why_tests_cant": "an over-read of 4 bits shifts all later data", "anchors": ["decoder/ia_core_coder_init_config.c:impeghd_sig_group_info"]}
{"id": "C29", "title": "Configuration extensions are framed by their length", "statement": "After a configuration extension has been handled without error the read position is exactly its declared length after its start.", "quantifier": "every extension type, length and content", "why_tests_cant": "depends on contents", "anchors": ["decoder/ia_core_coder_init_config.c:ia_core_coder_config_extension"]}
{"id": "C30", "title": "Downmix matrix data stays inside its buffer", "statement": "Reading downmix matrix configuration never writes outside the matrix buffer.", "quantifier": "every bitstream", "why_tests_cant": "needs large declared lengths", "anchors": ["decoder/ia_core_coder_init_config.c:impeghd_parse_dmx_ext_config"]}
{"id": "C31", "title": "Flexible speaker configuration", "statement": "Speaker angles outside the legal range are rejected, and the speaker table is never overrun, including symmetric pairs.", "quantifier": "every bitstream", "why_tests_cant": "universal over streams", "anchors": ["decoder/ia_core_coder_init_config.c:impeghd_flexispk_config", "decoder/ia_core_coder_init_config.c:impeghd_spk_description"]}
{"id": "C32", "title": "HOA configuration is consistent", "statement": "When an HOA configuration is accepted: the order is at most the supported maximum, the coefficient count is (order+1)^2, the ambience order does not exceed the order, derived bit widths are those of the standard, and parsing terminates.", "quantifier": "every bitstream and every number of transport channels", "why_tests_cant": "universal over streams", "anchors": ["decoder/impeghd_hoa_config.c:impeghd_fill_config"]}
{"id": "C33", "title": "Arithmetic decoder interval invariant", "statement": "Throughout spectral decoding the interval stays well formed (0 <= low <= value <= high <= 65535, width above a quarter of the range after renormalisation), decoded symbols are inside the symbol alphabet, and no intermediate computation overflows 32 bits.", "quantifier": "every bitstream, every table and any number of decoded symbols", "why_tests_cant": "invariant over unbounded symbol sequences", "anchors": ["decoder/ia_core_coder_arith_dec.c:ia_core_coder_arith_decode", "decoder/ia_core_coder_arith_dec.c:ia_core_coder_arith_first_symbol"]}
{"id": "C34", "title": "Arithmetic decoding always terminates", "statement": "Decoding of a spectral line, including the escape loop, finishes for every input, also when the bits run out.", "quantifier": "every bitstream", "why_tests_cant": "non-termination needs special inputs", "anchors": ["decoder/ia_core_coder_arith_dec.c:ia_core_coder_arth_decoding_level2"]}
{"id": "C35", "title": "Arithmetic decoder inverts an arithmetic encoder", "statement": "A symbol sequence encoded with the matching arithmetic encoder is decoded unchanged.", "quantifier": "every symbol sequence of any length and every sequence of frequency tables", "why_tests_cant": "unbounded sequences", "anchors": ["decoder/ia_core_coder_arith_dec.c:ia_core_coder_arith_decode"]}
{"id": "C36", "title": "Peak limiter never exceeds its threshold", "statement": "With the limiter on, every output sample lies within the limiter threshold for every input signal.", "quantifier": "every input signal of any length, every number of channels", "why_tests_cant": "unbounded signals", "anchors": ["decoder/impeghd_peak_limiter.c:impeghd_peak_limiter_process"]}
{"id": "C37", "title": "Peak limiter is transparent below the threshold", "statement": "A signal that never exceeds the threshold comes out unchanged, delayed by exactly the attack time.", "quantifier": "every signal of any length split into frames in any way", "why_tests_cant": "unbounded signals and splittings", "anchors": ["decoder/impeghd_peak_limiter.c:impeghd_peak_limiter_process"]}
{"id": "C38", "title": "Peak limiter look-ahead maximum is correct", "statement": "The level used for the gain of a sample is the true maximum over the look-ahead window.", "quantifier": "every signal of any length", "why_tests_cant": "the incremental maximum is an invariant over history", "anchors": ["decoder/impeghd_peak_limiter.c:impeghd_peak_limiter_process"]}
{"id": "C39", "title": "Saturating arithmetic", "statement": "The saturating add, subtract, multiply and shift primitives return the exact mathematical result clamped to the 32-bit range.", "quantifier": "all pairs of 32-bit operands and all shift amounts in use", "why_tests_cant": "2^64 operand pairs", "anchors": ["decoder/ia_core_coder_basic_ops32.h"]}
{"id": "C40", "title": "PCM output conversion", "statement": "Output samples are the decoded samples rounded/clamped to the selected word size and interleaved in channel order in little-endian byte order, each written exactly once inside the output buffer.", "quantifier": "every sample value, channel count, frame length and word size", "why_tests_cant": "universal over sample values", "anchors": ["decoder/ia_core_coder_decode_main.c"]}
{"id": "C41", "title": "Application loop makes progress", "statement": "The sample application's decode loop terminates for every finite input file, given that the decoder reports positive consumption or the end of input.", "quantifier": "every input file and every decoder behaviour within its contract", "why_tests_cant": "liveness over unbounded executions", "anchors": ["test/impeghd_main.c"]}
{"id": "C42", "title": "Group preset conditions refer to the referenced group", "statement": "A preset condition may set gain or position only if the group it refers to allows gain or position interactivity.", "quantifier": "every bitstream", "why_tests_cant": "universal over streams", "anchors": ["decoder/impeghd_mhas_parse.c:impeghd_mae_asi_group_presets_definition"]}
{"id": "C43", "title": "Element interaction is confined to permitted ranges", "statement": "User interaction data applied to a group never moves gain or position outside the ranges permitted in the scene description; requests for groups that do not allow interaction are rejected.", "quantifier": "every scene description and every interaction packet", "why_tests_cant": "universal over pairs of inputs", "anchors": ["decoder/impeghd_ele_interaction_intrfc.c", "decoder/impeghd_metadata_preprocessor.c"]}
{"id": "C44", "title": "DRC configuration sizes respect the fixed tables", "statement": "When parsing DRC configuration, loudness info and gain payloads, no table is written outside its bounds and accepted counts are within capacity.", "quantifier": "every bitstream", "why_tests_cant": "memory safety over all streams", "anchors": ["decoder/impd_drc_static_payload.c", "decoder/impd_drc_dynamic_payload.c"]}
{"id": "C45", "title": "MP4 scene boxes stay inside the scene tables", "statement": "Parsing the group, switch-group, preset and description boxes of an MP4 file never writes outside the scene tables, and the groups, switch groups and presets that a box describes are the ones the decoder holds afterwards.", "quantifier": "every box content", "why_tests_cant": "memory safety over all inputs", "anchors": ["decoder/impeghd_mae_mp4_intrfc.c"]}
{"id": "C46", "title": "Scene description texts are read completely", "statement": "Every description text of a group, switch group or preset (1 to 256 bytes, up to 4 languages, up to 128 blocks) is read completely and stored as transmitted, and the data after it is found at the right place.", "quantifier": "every list of descriptions of any valid length", "why_tests_cant": "the boundary between 127 and 128 bytes is one of many; universal over texts", "anchors": ["decoder/impeghd_mhas_parse.c:impeghd_mae_parse_description_data"]}
{"id": "C47", "title": "DRC effects offered to the user are stored as transmitted", "statement": "The set of DRC effects available for each target loudness condition of the scene is stored exactly as transmitted.", "quantifier": "every set of 16 effect bits, every number of targets", "why_tests_cant": "universal over values", "anchors": ["decoder/impeghd_mhas_parse.c:impeghd_mae_parse_drc_user_interface_info"]}
{"id": "C48", "title": "Preset extension flags match the preset's conditions", "statement": "The preset extension carries one flag per condition of each preset; exactly these are read for each preset.", "quantifier": "every list of presets with any numbers of conditions", "why_tests_cant": "depends on combinations of counts", "anchors": ["decoder/impeghd_mhas_parse.c:impeghd_mae_asi_group_presets_def_ext"]}
{"id": "C49", "title": "Scene data blocks are framed by their declared length", "statement": "After a data block of a scene description has been handled without error the read position is its declared length after its start, for every kind of block and every 16-bit length.", "quantifier": "every kind, length and content", "why_tests_cant": "universal over lengths and contents", "anchors": ["decoder/impeghd_mhas_parse.c:impeghd_mae_asi_data_parse"]}
{"id": "C50", "title": "Scanning for the next frame always ends", "statement": "Looking for the next configuration, frame or PCM packet in a buffer ends after finitely many packets, for every buffer content: with a result, an error, or the buffer-exhausted exit; every packet visited shortens what is left to scan.", "quantifier": "every buffer content, every decoder state", "why_tests_cant": "non-termination cannot be shown absent by running finitely many inputs", "anchors": ["decoder/impeghd_mhas_parse.c:impeghd_mhas_parse"]}
{"id": "C51", "title": "Packets that do not concern the frame are skipped exactly", "statement": "For every sequence of unknown, filler, sync, user-interaction and scene packets followed by a configuration or frame packet, the scan stops right behind the header of that packet, reports its type, label and length, and the scene in force is the last one of the sequence (the previous one if there was none).", "quantifier": "every sequence of packets of any length, with any labels, types and contents", "why_tests_cant": "universal over packet sequences", "anchors": ["decoder/impeghd_mhas_parse.c:impeghd_mhas_parse"]}
{"id": "C52", "title": "Earcon descriptions are stored as transmitted", "statement": "After an earcon packet, every earcon's id, type, activity, position, gain and texts are the transmitted ones, independently of what an earlier earcon packet described.", "quantifier": "every list of up to 16 earcons, every earlier contents of the table", "why_tests_cant": "depends on the history of earlier packets", "anchors": ["decoder/impeghd_mhas_parse.c:impeghd_econ_config_info"]}
{"id": "C53", "title": "PCM packets are stored as transmitted", "statement": "The fields of a PCM configuration packet and every sample of a PCM data packet (16, 24 or 32 bits, sign included) are stored exactly.", "quantifier": "every configuration, every sample value, number of signals and frame size", "why_tests_cant": "universal over sample values and dimensions", "anchors": ["decoder/impeghd_mhas_parse.c:impeghd_pcm_data_config", "decoder/impeghd_mhas_parse.c:impeghd_pcm_data_payload"]}
{"id": "C54", "title": "Loudness information is stored as transmitted", "statement": "Every entry of a loudness information set (scope, DRC set, downmix, peak levels, measurements with their method values) is stored with the meaning of its transmitted code, and album entries do not disturb the other entries.", "quantifier": "every list of loudness entries and album entries", "why_tests_cant": "universal over values and combinations", "anchors": ["decoder/impd_drc_static_payload.c:impd_drc_mpegh3da_parse_loudness_info_set"]}
{"id": "C55", "title": "Loudness information stays inside its tables", "statement": "Whatever the number of loudness entries and album entries announced, nothing outside the loudness tables is written.", "quantifier": "every byte string", "why_tests_cant": "universal over inputs", "anchors": ["decoder/impd_drc_static_payload.c:impd_drc_mpegh3da_parse_loudness_info_set"]}
{"id": "C56", "title": "The configuration parser stays inside its tables", "statement": "Parsing any stream configuration, in a decoder that has parsed any others before, never writes or reads outside the tables of the configuration structure, never shifts out of range and ends.", "quantifier": "every byte string, every earlier contents of the configuration structure of the right dimensions", "why_tests_cant": "universal over inputs and histories", "anchors": ["decoder/ia_core_coder_init_config.c:ia_core_coder_mpegh_3da_config"]}
{"id": "C57", "title": "Extension elements are framed by their length", "statement": "After an extension element of the configuration has been handled without error, exactly its declared number of bytes has been consumed.", "quantifier": "every extension element type, length and content", "why_tests_cant": "universal over inputs", "anchors": ["decoder/ia_core_coder_init_config.c:ia_core_coder_ext_element_config"]}
{"id": "C58", "title": "Signal totals are the sums over the groups", "statement": "When a configuration is accepted, the reported numbers of channels, objects and HOA transport channels are the sums over the signal groups of each kind, and the numbers of groups of each kind are right.", "quantifier": "every accepted configuration", "why_tests_cant": "universal over inputs", "anchors": ["decoder/ia_core_coder_init_config.c:ia_core_coder_mpegh_3da_config"]}
{"id": "C59", "title": "Downmix configurations are stored as transmitted", "statement": "A downmix configuration is stored entry by entry with its id, target layout, group ids and matrix bits as transmitted, and the downmix chosen is the last one for the output layout.", "quantifier": "every list of downmix entries", "why_tests_cant": "universal over values", "anchors": ["decoder/ia_core_coder_init_config.c:impeghd_parse_dmx_ext_config"]}
{"id": "C60", "title": "HOA rendering matrices stay inside their tables", "statement": "Reading an HOA rendering matrix never writes outside the matrix tables, whatever the layout, order and coding.", "quantifier": "every byte string, layout and order up to 6", "why_tests_cant": "universal over inputs", "anchors": ["decoder/impeghd_hoa_matrix.c"]}
{"id": "C61", "title": "Maximum ambience order does not exceed the HOA order", "statement": "When an HOA configuration is accepted, the maximum order of the ambience to be transmitted is at most the HOA order.", "quantifier": "every byte string", "why_tests_cant": "universal over inputs", "anchors": ["decoder/impeghd_hoa_config.c"]}
{"id": "C62", "title": "A rejected configuration is harmless", "statement": "After a configuration was rejected, a later configuration is parsed as safely as in a fresh decoder.", "quantifier": "every pair of configurations", "why_tests_cant": "depends on the history", "anchors": ["decoder/ia_core_coder_init_config.c:ia_core_coder_mpegh_3da_config"]}
{"id": "C63", "title": "A configuration is judged on its own content", "statement": "Whether a configuration is accepted does not depend on the configurations received before it.", "quantifier": "every sequence of configurations", "why_tests_cant": "depends on the history", "anchors": ["decoder/ia_core_coder_init_config.c:ia_core_coder_mpegh_3da_config"]}
{"id": "C64", "title": "Range-coded values are read exactly", "statement": "A value encoded in the truncated binary code for a given range is read back and exactly its bits are consumed.", "quantifier": "every range below 2^24 and every value in it", "why_tests_cant": "universal over values", "anchors": ["decoder/impeghd_hoa_matrix.c"]}
{"id": "C65", "title": "Stream configurations are stored as transmitted", "statement": "A valid configuration within the limits of its profile level is accepted, and its sampling rate, frame length, layout, signal groups and elements with their tool settings are stored as transmitted, independently of earlier configurations.", "quantifier": "every valid configuration with up to 16 groups and 50 elements, every earlier contents of the structure", "why_tests_cant": "universal over values and histories", "anchors": ["decoder/ia_core_coder_init_config.c:ia_core_coder_mpegh_3da_config"]}
{"id": "C66", "title": "Content kinds, composite pairs, screen size and preset downmix ids of a scene are read as transmitted", "statement": "Each of these scene data is stored exactly as transmitted and exactly its bits are consumed; a preset with more than 8 downmix ids is rejected.", "quantifier": "every list of contents, pairs and ids, every screen size", "why_tests_cant": "universal over values", "anchors": ["decoder/impeghd_mhas_parse.c:impeghd_mae_parse_content_data", "decoder/impeghd_mhas_parse.c:impeghd_mae_parse_composite_pair", "decoder/impeghd_mhas_parse.c:impeghd_mae_parse_prod_screen_sz_data"]}
{"id": "C67", "title": "Absolute object updates carry what was sent", "statement": "After an absolute dynamic metadata frame each updated object has exactly the transmitted values and every other object is unchanged.", "quantifier": "every list of optional updates, every spread and priority configuration", "why_tests_cant": "universal over values and configurations", "anchors": ["decoder/impeghd_oam_dec_ld.c:impeghd_dyn_obj_md_ld_dec"]}
{"id": "C68", "title": "Differential object updates move from the most recent position", "statement": "A differential metadata frame adds the transmitted differences to the object's most recently transmitted values and changes nothing else.", "quantifier": "every list of optional differences, every earlier position, every sub-frame", "why_tests_cant": "depends on the history", "anchors": ["decoder/impeghd_oam_dec_ld.c:impeghd_dyn_obj_md_ld_dec"]}
{"id": "C69", "title": "No sequence of object-metadata payloads has undefined behaviour", "statement": "Decoding any number of arbitrary object-metadata payloads one after the other never overflows an integer or leaves a table.", "quantifier": "every sequence of payloads of any length", "why_tests_cant": "the failing sequence has two million payloads", "anchors": ["decoder/impeghd_oam_dec_ld.c:impeghd_obj_md_low_delay_dec"]}
{"id": "C70", "title": "Enhanced object metadata is read as transmitted, kept values are those of the previous frame, and all values are in range", "statement": "Each enhanced object-metadata frame sets closeness, divergence, diffuseness and excluded sectors to what is sent, or to the previous frame's values where the frame says to keep them; angles, counts, diffuseness and divergence stay in their ranges and no frame makes the decoder leave its tables.", "quantifier": "every sequence of frames, every configuration with up to 24 objects", "why_tests_cant": "depends on the history", "anchors": ["decoder/impeghd_oam_dec.c:impeghd_enh_obj_md_frame"]}
{"id": "C71", "title": "A sub-frame without metadata is rendered with the most recent metadata", "statement": "Each sub-frame of an access unit is rendered with the object metadata transmitted last up to that sub-frame, in this or an earlier access unit.", "quantifier": "every pattern of sub-frames with and without metadata, every history", "why_tests_cant": "depends on the history", "anchors": ["decoder/ia_core_coder_decode_main.c:impeghd_obj_md_dec_ren_process"]}
{"id": "C72", "title": "Earcons are rendered at their own positions and leave the scene alone", "statement": "Each earcon signal is rendered at the position and gain transmitted for it, within the decoder's tables, and the positions of the scene's objects are unchanged afterwards.", "quantifier": "every number of earcons and signals and every position", "why_tests_cant": "universal over values", "anchors": ["decoder/ia_core_coder_decode_main.c:impeghd_earcon_obj_md_dec_ren_process"]}
{"id": "C73", "title": "Creating a decoder leaves the caller's configuration alone", "statement": "Creating a decoder does not change the configuration the caller passes in, so creating two decoders from the same configuration gives two decoders with the same settings.", "quantifier": "every configuration, every number of decoders", "why_tests_cant": "every value and every sequence of calls", "anchors": ["decoder/impeghd_api.c:impeghd_set_config_params", "decoder/impeghd_api.c:ia_mpegh_dec_create"]}
{"id": "C74", "title": "Deleting a decoder gives back each block exactly once", "statement": "Every block obtained while creating decoders is given back exactly once by delete, also when creation failed half way and when delete is called twice, and the table of blocks in the caller's structure never overflows.", "quantifier": "every sequence of create and delete calls, every allocator behaviour", "why_tests_cant": "every history", "anchors": ["decoder/impeghd_api.c:ia_mpegh_dec_delete", "decoder/impeghd_api.c:ia_mpegh_dec_create"]}
{"id": "C75", "title": "The decoder object is aligned for the pointers it holds", "statement": "With an allocator that returns blocks aligned like malloc, the decoder object and its table of pointers start at addresses suitable for pointers.", "quantifier": "every allocator and every address", "why_tests_cant": "universal over addresses", "anchors": ["decoder/impeghd_api.c:ia_mpegh_dec_create"]}
{"id": "C76", "title": "The reported sampling rate is the rate of the samples", "statement": "The number of output samples per access unit and the sampling rate reported to the caller correspond to the stream's rate: samples/1024 = reported rate/stream rate.", "quantifier": "every stream rate and requested rate", "why_tests_cant": "universal over values", "anchors": ["decoder/impeghd_api.c:ia_mpegh_dec_init", "decoder/impeghd_api.c:impeghd_resampler_get_sampling_ratio"]}
{"id": "C77", "title": "Integer square root is the nearest integer", "statement": "The integer square root used when gains are decoded returns, for every argument, the integer nearest to the square root.", "quantifier": "every 64-bit argument", "why_tests_cant": "the domain has 2^64 values", "anchors": ["decoder/ia_core_coder_basic_ops40.h:ia_core_coder_rounded_sqrt64"]}
{"id": "C78", "title": "A quantised spectrum is decoded exactly", "statement": "A window of quantised spectral lines, written with contexts, escapes, low bits, end mark and sign bits as the standard defines, is decoded to exactly those lines, leaves the contexts of the next window as the encoder has them, and ends behind the last sign bit.", "quantifier": "every list of at most 512 pairs of lines, every context, every continuation", "why_tests_cant": "universal over spectra and histories", "anchors": ["decoder/ia_core_coder_arith_dec.c:ia_core_coder_arth_decoding_level2", "decoder/ia_core_coder_arith_dec.c:ia_core_coder_arith_get_context", "decoder/ia_core_coder_arith_dec.c:ia_core_coder_arith_get_pk"]}
{"id": "C79", "title": "A decoder recovers from an initialisation that failed or was cut short", "statement": "After an initialisation call that did not complete, calling it again with a complete valid configuration completes, whatever was supplied before.", "quantifier": "every sequence of calls and every split of the input", "why_tests_cant": "universal over histories", "anchors": ["decoder/ia_core_coder_decode_main.c:ia_core_coder_dec_init", "decoder/impeghd_api.c:ia_mpegh_dec_init"]}
{"id": "C80", "title": "A configuration packet of any length leaves memory intact", "statement": "Supplying a configuration packet of any length never makes the decoder write outside its buffers.", "quantifier": "every packet", "why_tests_cant": "universal over packet lengths", "anchors": ["decoder/ia_core_coder_decode_main.c:ia_core_coder_dec_main", "decoder/ia_core_coder_headerdecode.c:ia_core_coder_mpegh_header"]}
{"id": "C81", "title": "With pre-roll the caller gets the audio of the main access unit", "statement": "When an access unit carries pre-roll access units, the output of the call is the audio of the main access unit, complete and without the pre-roll audio.", "quantifier": "every pair of output sizes and contents", "why_tests_cant": "universal over sizes and contents", "anchors": ["decoder/impeghd_api.c:ia_mpegh_dec_execute", "decoder/ia_core_coder_decode_main.c:ia_core_coder_dec_main"]}
{"id": "C82", "title": "Pre-roll access units are decoded exactly when the stream configuration changes", "statement": "A pre-roll element is read back as it was written, never makes the decoder leave its buffers, and its access units are decoded before the main one exactly when it carries a configuration that differs from the previous one.", "quantifier": "every element and every history", "why_tests_cant": "universal over inputs and histories", "anchors": ["decoder/ia_core_coder_decode_main.c:ia_core_coder_audio_preroll_parsing", "decoder/ia_core_coder_decode_main.c:ia_core_coder_dec_main"]}
{"id": "C83", "title": "The decoder restarts exactly when the configuration changes", "statement": "A configuration packet repeated in the stream restarts the decoder if and only if it differs from the configuration in use.", "quantifier": "every pair of configurations and every history", "why_tests_cant": "universal over histories", "anchors": ["decoder/ia_core_coder_decode_main.c:ia_core_coder_dec_main"]}
{"id": "C84", "title": "A rejected configuration is reported", "statement": "When the decoder rejects the configuration of a stream, the initialisation call returns an error code.", "quantifier": "every configuration and every rejection", "why_tests_cant": "universal over inputs", "anchors": ["decoder/impeghd_api.c:ia_mpegh_dec_init", "decoder/ia_core_coder_decode_main.c:ia_core_coder_dec_init"]}
{"id": "C85", "title": "An interaction packet is understood as it was meant", "statement": "Every well-formed element interaction packet that agrees with the scene is accepted and the stored group choices, preset, gains, positions, routing and zoom area are the ones written.", "quantifier": "every packet and scene", "why_tests_cant": "universal over packets", "anchors": ["decoder/impeghd_ele_interaction_intrfc.c:impeghd_ele_interaction"]}
{"id": "C86", "title": "An interaction packet is checked against the scene and never leaves the decoder's memory", "statement": "For every byte string supplied as interaction data the decoder stays within its arrays; an accepted packet names only groups and presets of the scene and has as many choices as the scene has groups; a packet that does not is refused.", "quantifier": "every byte string and every scene", "why_tests_cant": "universal over inputs", "anchors": ["decoder/impeghd_ele_interaction_intrfc.c:impeghd_ele_interaction_data", "decoder/impeghd_ele_interaction_intrfc.c:impeghd_ei_grp_intrctvty_status"]}
{"id": "C87", "title": "Scene displacement data apply one call after another", "statement": "The scene displacement values supplied in one buffer are used one per decode call, in order, and the last one stays in force afterwards; no buffer content makes a call fail.", "quantifier": "every list of displacements and every number of calls", "why_tests_cant": "universal over buffers and call counts", "anchors": ["decoder/impeghd_api.c:ia_mpegh_dec_execute", "decoder/impeghd_ele_interaction_intrfc.c:impeghd_scene_displacement_data"]}
{"id": "C88", "title": "The local loudspeaker setup is read as it was given", "statement": "Every well-formed local setup packet is stored with the positions, distances and calibration gains written in it, and no packet makes the decoder leave its arrays.", "quantifier": "every packet", "why_tests_cant": "universal over packets", "anchors": ["decoder/impeghd_ele_interaction_intrfc.c:impeghd_3da_local_setup_information", "decoder/impeghd_ele_interaction_intrfc.c:impeghd_loud_spk_ren"]}
{"id": "C89", "title": "At most one member of a switch group is played", "statement": "After every frame at most one member of each switch group is on: the one asked for if there is exactly one, otherwise the default one, or none where the switch group may be off.", "quantifier": "every scene, preset, interaction packet and earlier state", "why_tests_cant": "universal over scenes and histories", "anchors": ["decoder/impeghd_metadata_preprocessor.c:impeghd_mp_process_frame", "decoder/impeghd_metadata_preprocessor.c:impeghd_apply_on_off_intrct"]}
{"id": "C90", "title": "A group is on when the preset, the user or the default says so", "statement": "For a group outside the switch groups, the condition of the preset in force decides whether it is on; without one the user's choice for that group does where the scene allows it, otherwise the default.", "quantifier": "every scene, preset and packet", "why_tests_cant": "universal over scenes and packets", "anchors": ["decoder/impeghd_metadata_preprocessor.c:impeghd_apply_on_off_intrct"]}
{"id": "C91", "title": "The preset in force is the one the user chose", "statement": "A preset chosen by the user is in force from the next frame; without a choice the preset with the least id is; a choice that is not in the scene is refused.", "quantifier": "every scene, packet and earlier choice", "why_tests_cant": "universal over histories", "anchors": ["decoder/impeghd_metadata_preprocessor.c:impeghd_mp_process_frame", "decoder/impeghd_metadata_preprocessor.c:impeghd_mdp_dec_ei_process"]}
{"id": "C92", "title": "Exactly the channels of the groups that are on are heard", "statement": "The output holds the channels of the groups that are on - by the preset in force, or by default without one - unchanged, and silence in all other channels.", "quantifier": "every scene, preset and signal", "why_tests_cant": "universal over scenes and signals", "anchors": ["decoder/ia_core_coder_decode_main.c:impeghd_mdp_dec_process"]}
{"id": "C93", "title": "DRC channels are grouped by the gain they are to receive", "statement": "In every accepted DRC configuration each instruction block describes as many channels as its target has, and channels are put in the same group exactly when they share gain set and scaling; groups are numbered by their first channel and unused channels belong to none.", "quantifier": "every accepted configuration", "why_tests_cant": "universal over configurations", "anchors": ["decoder/impd_drc_static_payload.c:impd_drc_parse_instrns_effect_not_self_other", "decoder/impd_drc_static_payload.c:impd_drc_parse_instrns_effect_self_other"]}
{"id": "C94", "title": "A DRC configuration is understood as it was meant", "statement": "Every well-formed DRC configuration within the supported profile is accepted and the stored gain sets, bands, borders, instruction blocks, effects, loudness ranges and gain modifiers are the ones written.", "quantifier": "every configuration", "why_tests_cant": "universal over configurations", "anchors": ["decoder/impd_drc_static_payload.c:impd_drc_parse_config", "decoder/impd_drc_static_payload.c:impd_drc_parse_coeff", "decoder/impd_drc_static_payload.c:impd_drc_parse_drc_instructions"]}
{"id": "C95", "title": "A DRC gain payload is read as it was written", "statement": "Every well-formed gain payload is accepted; the stored gains and times of every band of every gain set are the ones written, nodes that lie after the frame are put two frames earlier in front of the others, and reading ends behind the payload.", "quantifier": "every payload, every accepted configuration, every sampling rate from 3000 to 48000 Hz and every history of initialisations", "why_tests_cant": "universal over payloads and histories", "anchors": ["decoder/impd_drc_dynamic_payload.c:impd_drc_read_uni_drc_gain", "decoder/impd_drc_dynamic_payload.c:impd_drc_read_drc_gain_sequence", "decoder/impd_drc_dynamic_payload.c:impd_drc_decode_times", "decoder/impd_drc_dynamic_payload.c:impd_drc_update_value", "decoder/impd_drc_extr_delta_coded_info.c:impd_drc_init_tbls"]}
{"id": "C96", "title": "Every sample gets the DRC gain of the curve through the received nodes", "statement": "The gain a sample is multiplied with in a channel group and band is the value of the straight-line curve through all gain nodes received for that band, delayed by one frame and the configured delay, without seams between frames; computing it never leaves the gain buffers.", "quantifier": "every configuration of channel groups and bands, every sequence of gain payloads, every sample", "why_tests_cant": "universal over histories and samples", "anchors": ["decoder/impd_drc_gain_dec.c:impd_drc_get_gain", "decoder/impd_drc_gain_dec.c:impd_drc_concatenate_segments", "decoder/impd_drc_gain_dec.c:impd_drc_interpolate_drc_gain", "decoder/impd_drc_process.c:impd_drc_apply_gains_and_add"]}
{"id": "C97", "title": "An external renderer is told the channel layout of the stream", "statement": "With an external renderer enabled, the channel metadata handed out describes exactly the channel groups of the stream: number of channels, loudspeaker layout, fixed position, priority and the downmix matrices; handing it out does not change how the stream is decoded.", "quantifier": "every configuration", "why_tests_cant": "universal over configurations", "anchors": ["decoder/impeghd_ext_rend_intrfc.c:impeghd_write_ch_meta_data_for_ext_ren", "decoder/impeghd_ext_rend_intrfc.c:impeghd_write_spk_config_3d"]}
{"id": "C98", "title": "An external renderer is told the object metadata of the frame", "statement": "With an external renderer enabled, the object metadata handed out describes exactly the objects of the frame: id, the position of every sub-frame, gain, priority, spread, diffuseness, divergence and excluded sectors.", "quantifier": "every configuration and every decoded object metadata frame", "why_tests_cant": "universal over configurations and frames", "anchors": ["decoder/impeghd_ext_rend_intrfc.c:impeghd_write_oam_meta_data_for_ext_ren", "decoder/ia_core_coder_decode_main.c:ia_core_coder_dec_main"]}
{"id": "C99", "title": "An external renderer is told the HOA configuration", "statement": "With an external renderer enabled, the HOA metadata handed out describes exactly the HOA groups of the stream: order, near field distance, rendering matrix, fixed position, priority and screen.", "quantifier": "every configuration", "why_tests_cant": "universal over configurations", "anchors": ["decoder/impeghd_ext_rend_intrfc.c:impeghd_write_hoa_meta_data_for_ext_ren"]}
{"id": "C100", "title": "Metadata for an external renderer fits the buffers of the caller", "statement": "Handing out metadata never writes outside the caller's 768-byte buffers, and the reported length is the number of bytes the payload takes there.", "quantifier": "every configuration and frame", "why_tests_cant": "universal over configurations and frames", "anchors": ["decoder/impeghd_ext_rend_intrfc.c:impeghd_write_ch_meta_data_for_ext_ren", "decoder/ia_core_coder_bitbuffer.c:impeghd_write_bits_buf"]}
{"id": "C101", "title": "An external renderer gets every decoded sample as 24-bit PCM", "statement": "With an external renderer enabled, the PCM handed out is the decoded signal of every channel, object and HOA transport channel as saturated 24-bit words, interleaved, and the reported length is the number of bytes written.", "quantifier": "every decoded signal, also overloaded", "why_tests_cant": "universal over samples", "anchors": ["decoder/ia_core_coder_decode_main.c:ia_core_coder_dec_main"]}
{"id": "C102", "title": "Multichannel coding side information is understood as it was meant", "statement": "For a stream whose configuration applies the multichannel tool to some channels, every well-formed sequence of frames is accepted and for every frame the decoder uses the pairs, the directions, the windows, the processed bands and the coefficient of each band that were written, also when coefficients are coded against the previous band, window or frame and when pairs are kept from the frame before.", "quantifier": "every configuration and every sequence of frames", "why_tests_cant": "universal over histories: each frame is coded against the one before", "anchors": ["decoder/impeghd_multichannel.c:impeghd_mc_parse", "decoder/impeghd_multichannel.c:impeghd_mc_parse_ch_pair", "decoder/impeghd_multichannel.c:impeghd_mc_decode_huffman"]}
{"id": "C103", "title": "Any multichannel coding side information leaves memory intact", "statement": "Whatever bytes a stream carries as multichannel coding side information, reading them and using the result stays inside the decoder's tables.", "quantifier": "every sequence of payloads", "why_tests_cant": "universal over inputs and histories", "anchors": ["decoder/impeghd_multichannel.c:impeghd_mc_parse", "decoder/impeghd_multichannel.c:impeghd_mc_rotate_signal", "decoder/ia_core_coder_process.c:ia_core_coder_usac_process"]}
{"id": "C104", "title": "The multichannel tool applies to the channels the configuration marks", "statement": "After a configuration the multichannel tool applies to exactly the channels marked in it, in order; a configuration that marks fewer than two is refused, as is one that marks a low frequency channel.", "quantifier": "every configuration, also a second one", "why_tests_cant": "universal over configurations and histories", "anchors": ["decoder/impeghd_multichannel.c:impeghd_mc_init", "decoder/ia_core_coder_decode_main.c:ia_core_coder_dec_init"]}
{"id": "C105", "title": "The multichannel tool upmixes every line with the coefficient of its band", "statement": "For every pair of channels of every frame the two decoded spectra become, line by line, the rotation or the prediction with the coefficient the stream gives for the band of that line in its window; lines of bands that are switched off keep their values.", "quantifier": "every well-formed frame, every pair, every spectrum and every table of bands", "why_tests_cant": "universal over spectra and frames", "anchors": ["decoder/impeghd_multichannel.c:impeghd_mc_process", "decoder/impeghd_multichannel.c:impeghd_apply_mc_rotation", "decoder/impeghd_multichannel.c:impeghd_apply_mc_prediction", "decoder/ia_core_coder_process.c:ia_core_coder_usac_process"]}
{"id": "C106", "title": "Stereo filling uses the downmix of the frame before", "statement": "For every pair of channels with stereo filling the filling signal is the downmix of the two channels of the frame before - half their sum or difference for prediction, the rotation back with the angle of each band for rotation - and no well-formed pair is refused.", "quantifier": "every pair, mask, angle, spectrum and table of bands", "why_tests_cant": "universal over spectra and frames", "anchors": ["decoder/impeghd_multichannel.c:impeghd_mc_get_prev_dmx", "decoder/impeghd_multichannel.c:impeghd_apply_mc_inverse_rotation"]}
{"id": "C107", "title": "A flexible loudspeaker layout is read as it was sent", "statement": "Every well-formed flexible loudspeaker layout - loudspeakers by number or by direction, alone or in pairs - is accepted, exactly its bits are read, and each loudspeaker is stored with its number or direction and side, the second of a pair mirrored; a layout with an impossible angle is refused.", "quantifier": "every flexible layout, as reference layout or layout of a group of channels, and every configuration before", "why_tests_cant": "universal over layouts and histories", "anchors": ["decoder/ia_core_coder_init_config.c:impeghd_flexispk_config", "decoder/ia_core_coder_init_config.c:impeghd_spk_description", "decoder/ia_core_coder_init_config.c:ia_core_coder_mpegh_3da_config"]}
{"id": "C108", "title": "Scene displacement moves a channel from the place its layout gives it", "statement": "When the scene is displaced, every channel of a group with its own loudspeaker layout - named, listed or flexible - is displaced from the azimuth and elevation that layout gives it.", "quantifier": "every layout and every channel", "why_tests_cant": "universal over layouts", "anchors": ["decoder/impeghd_scene_displacement.c:impeghd_apply_scene_displacement", "decoder/impeghd_metadata_preprocessor.c:impeghd_md_proc_asc_az_ele_idx_to_deg"]}
{"id": "C109", "title": "Temporal noise shaping filters are understood as they were sent", "statement": "For every channel all temporal noise shaping filters of a frame - the bands they cover, order, direction and coefficients - are used as written in the stream, and no bits lead to memory errors.", "quantifier": "every set of filters, long or short windows, and every bit sequence for safety", "why_tests_cant": "universal over streams", "anchors": ["decoder/ia_core_coder_spectrum_dec.c:ia_core_coder_read_tns_u"]}
{"id": "C110", "title": "The header of a channel pair is understood as it was sent", "statement": "For every channel pair the shared window, the numbers of bands, mid/side or prediction, the shared postfilter and the shared noise shaping are taken as written, whatever other elements the stream has; headers with more bands than exist are refused and no bits lead to memory errors.", "quantifier": "every header of every pair and every bit sequence for safety", "why_tests_cant": "universal over headers and other elements", "anchors": ["decoder/ia_core_coder_ext_ch_ele.c:ia_core_coder_data", "decoder/ia_core_coder_ext_ch_ele.c:ia_core_coder_ics_info", "decoder/ia_core_coder_ext_ch_ele.c:ia_core_coder_read_ms_mask"]}
{"id": "C111", "title": "Windows and groups of short windows are understood as they were sent", "statement": "For every channel the window sequence (with the overlap the window before requires), the shape, the number of bands, the groups of short windows and the band borders in each group are those written, for all channels of a frame at the same time.", "quantifier": "every window of every channel", "why_tests_cant": "universal over streams and channels", "anchors": ["decoder/ia_core_coder_ext_ch_ele.c:ia_core_coder_ics_info", "decoder/ia_core_coder_ext_ch_ele.c:ia_core_coder_win_seq_select", "decoder/ia_core_coder_create.c:ia_core_coder_calc_grp_offset"]}
{"id": "C112", "title": "Prediction coefficients coded against the frame before are understood over any number of frames", "statement": "In any sequence of frames of a channel pair every prediction coefficient is the one the encoder meant, also when coded as a difference over time, and no sequence of frames makes the sum of differences undefined.", "quantifier": "every sequence of frames", "why_tests_cant": "universal over histories", "anchors": ["decoder/ia_core_coder_ext_ch_ele.c:ia_core_coder_cplx_pred_data", "decoder/ia_core_coder_ext_ch_ele.c:ia_core_coder_data"]}
{"id": "C113", "title": "Scale factors reach every window as sent", "statement": "Decoding a frame, every window of a channel gets exactly the scale factors the stream sends for its group: the global gain first, each further one as a difference from the one before, 0 for bands not in use; nothing behind them is touched, wherever in a byte they start and however close to the end of the frame they are. Whatever the bits are, decoding them is free of undefined behaviour, and a factor outside 0..255 refuses the frame.", "quantifier": "all gains, groupings, numbers of bands, factor values and bit positions; all bit strings for safety", "why_tests_cant": "There are 121 code words of up to 19 bits, eight bit positions and any sequence of factors; the special window for reading them only goes wrong for particular combinations of position and remaining length.", "anchors": ["decoder/ia_core_coder_spectrum_dec.c: ia_core_coder_section_data, ia_core_coder_mpeghd_showbits_32, ia_core_coder_scale_factor_data", "decoder/ia_core_coder_bitbuffer.c: ia_core_coder_mpeghd_read_byte_corr1", "decoder/ia_core_coder_env_extr.c: ia_core_coder_huffman_decode"]}
{"id": "C114", "title": "Scale factor bands follow the standard and cover the frame", "statement": "Whatever sampling rate the stream announces, the decoder divides the spectrum of long and short windows into the bands the standard gives for the nearest nominal rate; every spectral line of a frame is in exactly one band.", "quantifier": "all sampling rates, all earlier contents of the decoder", "why_tests_cant": "A table with one wrong entry only shows at the rates that use it; there are as many rates as integers, and the thresholds between them matter.", "anchors": ["decoder/ia_core_coder_create.c: ia_core_coder_decode_init, ia_core_coder_info_init", "decoder/ia_core_coder_rom.c: ia_core_coder_samp_rate_info, ia_core_coder_sampling_boundaries"]}
{"id": "C115", "title": "The header of a channel is understood as it was sent", "statement": "For every channel coded in the frequency domain - alone or in a pair - gain, noise level and offset, stereo filling, window, postfilter, prediction spacing, window symmetries, scale factors, noise shaping filters and the reset of the spectral decoder are those the stream gives, what a pair shares is not read again, and decoding goes on exactly at the spectral data; no bits lead to undefined behaviour.", "quantifier": "all channel headers, all window groupings, frames decodable on their own or not, all positions in the frame; all bit strings for safety", "why_tests_cant": "The fields present depend on each other and on what the pair header, the frame before and the configuration say; a header close to the end of the frame takes another path.", "anchors": ["decoder/ia_core_coder_spectrum_dec.c: ia_core_coder_fd_channel_stream", "decoder/ia_core_coder_ext_ch_ele.c: ia_core_coder_data", "decoder/ia_core_coder_decode_main.c: ia_core_coder_dec_process"]}
{"id": "C116", "title": "Gap filling levels are those the encoder sent", "statement": "In every frame that fills gaps above the coded spectrum, each band gets the level the encoder sent for its group, whatever was predicted from earlier bands, windows and frames; the levels are remembered for the frames after; decoding goes on exactly behind them. A frame without any level or with bands that start too low is refused. Whatever the bits are, levels stay 7-bit numbers, the reader never moves backwards, and there is no undefined behaviour.", "quantifier": "all levels, window kinds, band ranges and histories of frames; all bit strings for safety", "why_tests_cant": "The levels are differences against three neighbours, coded with one of 65 tables chosen by the trend; errors appear only for particular histories, and levels can grow over thousands of frames.", "anchors": ["decoder/ia_core_coder_igf_dec.c: ia_core_coder_igf_get_igf_levels, ia_core_coder_igf_arith_decode, ia_core_coder_igf_arith_decode_residual", "decoder/ia_core_coder_arith_dec.c: ia_core_coder_arith_decode"]}
{"id": "C117", "title": "Tiles, whitening and flattening of the gap filling are those the encoder sent", "statement": "In every frame with gap filling each tile takes its source and its whitening as sent - kept from the frame before, one for all tiles, or one each - and the flag for temporal flattening as sent; frames after it can refer to them. Whatever the bits are, every tile names one of the four sources, every whitening is one of three and nothing else changes.", "quantifier": "all numbers of tiles, all choices, frames that refer to others or not; all bit strings for safety", "why_tests_cant": "What is kept depends on the whole history of frames; the cells beyond the last tile must be reset in the same step.", "anchors": ["decoder/ia_core_coder_igf_dec.c: ia_core_coder_get_igf_data, ia_core_coder_igf_decode_whitening_level"]}
{"id": "C118", "title": "The range of the gap filling and its tiles fit the bands", "statement": "For every configuration (sampling rate, start and stop index, resolution) the range filled lies within the bands of the standard and is not empty, for long and for short windows; its tiles follow each other without gap or overlap and end at band borders; the lowest line allowed is the one at 1125 Hz.", "quantifier": "all sampling rates, all indices, both resolutions", "why_tests_cant": "16 x 16 indices, seven band tables, any rate; rounding and the odd/even rule of low resolution act only for particular combinations.", "anchors": ["decoder/ia_core_coder_igf_dec.c: ia_core_coder_igf_init, ia_core_coder_igf_get_num_tiles, ia_core_coder_igf_get_igf_min", "decoder/ia_core_coder_rom.c: ia_core_coder_samp_rate_info"]}
{"id": "C119", "title": "A channel group is played on the loudspeakers it names", "statement": "For every list of signal groups, each with or without a loudspeaker layout of its own, the layouts are kept with the channel groups that brought them, and the list of input loudspeakers given to the format converter is that of the channel groups in order, one per channel.", "quantifier": "all lists of signal groups of any types, all own layouts, all reference layouts", "why_tests_cant": "The layouts are numbered by channel group in one place and by signal group in another, so only particular orders of group types show a difference.", "anchors": ["decoder/ia_core_coder_init_config.c: ia_core_coder_mpegh_3da_config", "decoder/ia_core_coder_decode_main.c: impeghd_format_conv_init", "decoder/ia_core_coder_headerdecode.c"]}
{"id": "C120", "title": "The output starts with the first decoded sample", "statement": "After a decoder was set up, and again after a new configuration, the first samples given out are the first decoded samples of the stream: the samples the limiter adds in front are removed, no others.", "quantifier": "every configuration, sampling rate of the stream and asked for, word size, channel map, frames and signal", "why_tests_cant": "The number of dropped samples is fixed in one function, the limiter is switched in another from other fields, and a third changes these fields in between; whether they agree depends on the history of rates, and one must know the samples to notice.", "anchors": ["decoder/ia_core_coder_decode_main.c: ia_core_coder_dec_process_frame_zero, impegh_dec_ln_pl_process, ia_core_coder_samples_sat", "decoder/impeghd_api.c: ia_core_coder_dec_init, impeghd_resampler_get_sampling_ratio", "decoder/impeghd_peak_limiter.c: impeghd_peak_limiter_init"]}
{"id": "C121", "title": "The roles and gains of HOA transport channels are read back", "statement": "For every accepted HOA configuration and every history of frames, a legal frame gives each additional transport channel the role sent (directional signal, vector signal with its coding, coefficient of the ambience staying or fading in or out, none) and every transport channel its gain; a channel keeps what the frame says nothing about, the lists of vector and directional signals and the marks for changes name exactly the channels and coefficients concerned, and nothing behind is consumed.", "quantifier": "all HOA configurations, all earlier states, all independent and dependent frames, all roles and gains of any number of channels", "why_tests_cant": "Dependent frames only make sense together with the state left by earlier ones, and fields have widths computed from the configuration; the combinations of roles over all channels and frames cannot be enumerated.", "anchors": ["decoder/impeghd_hoa_frame.c: impeghd_hoa_frame", "decoder/impeghd_hoa_dec_struct.h: ia_hoa_frame_struct", "decoder/impeghd_hoa_config.c"]}
{"id": "C122", "title": "Every HOA vector signal is spread with the vector sent for it", "statement": "For every frame with vector signals, whichever transport channels carry them, the elements, codebook entries, weights and signs used for a signal are those sent for it, elements carried by the ambience excepted; a frame with legal indices is not refused and reading the vectors touches no memory outside of their tables.", "quantifier": "all configurations, all sets of channels with vectors, all codings and values, all earlier states", "why_tests_cant": "Vectors are stored by the number of the vector signal and used by the number of the channel, and some tables are shared; only particular sets of channels and codings show a difference, and one must know the sound field to hear it.", "anchors": ["decoder/impeghd_hoa_frame.c: impeghd_hoa_frame_v_vector_data, impeghd_hoa_frame", "decoder/impeghd_hoa_spatial_decoder.c: impeghd_hoa_spatial_decode_frame_side_info", "decoder/impeghd_hoa_dec_struct.h: ia_hoa_frame_struct"]}
{"id": "C123", "title": "The prediction of directional signals is the one the encoder sent", "statement": "For every HOA frame the coefficients that are predicted, the directional signals they are predicted from and the gains are those sent in that frame, whether the coefficients are named by flags or by numbers and whatever was predicted before; a frame that sends no prediction is decoded without one, and no frame makes the decoder write outside of its tables.", "quantifier": "every accepted HOA configuration, number and channels of directional signals, previous state, prediction and following bits", "why_tests_cant": "The gains are counted in one way when read and in another when used, so only some patterns of unused entries differ, and what was sent before stays in the tables.", "anchors": ["decoder/impeghd_hoa_frame.c: impeghd_hoa_frame", "decoder/impeghd_hoa_spatial_decoder.c: impeghd_hoa_spatial_decode_frame_side_info", "decoder/impeghd_hoa_dec_struct.h: active_pred"]}
{"id": "C124", "title": "The settings of an HOA rendering matrix are the ones sent", "statement": "For every rendering matrix for a standard layout the precision, the limits of the gains of each order, the orders with flags for zero gains, the rendering of the LFE and the use of vertical coefficients are those sent, and every loudspeaker that stands for a mirrored pair has the symmetry sent for that pair, however the symmetries were written; a matrix with legal settings is never refused.", "quantifier": "all orders up to 6, all standard layouts, all legal settings and forms, everything held before, all following bits", "why_tests_cant": "The pairs are found from the positions of the loudspeakers in one function and numbered again in another; there are six ways to send the symmetries, and flags of an earlier matrix stay in the tables.", "anchors": ["decoder/impeghd_hoa_matrix.c: impeghd_hoa_rendering_matrix, impeghd_find_symmetric_speakers, impegh_decode_hoa_matrix_data"]}
{"id": "C125", "title": "The gains of an HOA rendering matrix are those sent", "statement": "When a stream carries an HOA rendering matrix for a standard loudspeaker layout, the decoder reads all of it, stops exactly behind it, and uses for every coefficient and loudspeaker the gain and the sign that were sent; where the stream says that a pair of loudspeakers is symmetric it uses the gain and sign of the mirrored loudspeaker, with the sign changed for coefficients of negative degree; and zero where nothing is sent.", "quantifier": "all orders up to 6, all standard layouts, all legal settings, all gains and signs these allow, everything held before, all following bits", "why_tests_cant": "Whether a gain, a flag or a sign is in the stream depends on the settings, on the kind of coefficient and on the mirrored loudspeaker; a matrix has up to 1176 entries and one bit too many or too few shifts all the rest.", "anchors": ["decoder/impeghd_hoa_matrix.c: impegh_decode_hoa_matrix_data, impeghd_hoa_rendering_matrix, impeghd_read_range"]}
