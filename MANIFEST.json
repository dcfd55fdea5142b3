{
 "claims": [
  {
   "property": "C01",
   "status": "proved",
   "theorems": [
    "C01_read_returns_next_bits"
   ],
   "note": "All reads of up to 24 bits at any position; every decoder read except one (MHAS label, see C05) is within that range."
  },
  {
   "property": "C02",
   "status": "proved",
   "theorems": [
    "C02_no_read_outside_input",
    "C02_insufficient_input_is_an_error",
    "C02_reader_refines_bit_list"
   ],
   "note": "For every parser over the reader; the refinement theorem relates concrete reader and bit list."
  },
  {
   "property": "C03",
   "status": "proved",
   "theorems": [
    "C03_remaining_bits_exact"
   ],
   "note": "Invariant over histories of any length."
  },
  {
   "property": "C04",
   "status": "proved",
   "theorems": [
    "C04_peek_value_is_read_value",
    "C04_peek_is_pure"
   ],
   "note": ""
  },
  {
   "property": "C05",
   "status": "partial",
   "theorems": [
    "C05_long_reads_refuted",
    "C05_long_reads_partial",
    "C05_read32_exact_partial",
    "C05_read32_misaligned_refuted"
   ],
   "note": "Full claim refuted (witness); exact characterisation of when long reads are right proved."
  },
  {
   "property": "C06",
   "status": "proved",
   "theorems": [
    "C06_writer_reader_inverse",
    "C06_write_exact"
   ],
   "note": ""
  },
  {
   "property": "C07",
   "status": "proved",
   "theorems": [
    "C07_escaped_value_roundtrip",
    "C07_escaped_value_bounded",
    "C07_escaped_writer_is_standard"
   ],
   "note": ""
  },
  {
   "property": "C08",
   "status": "partial",
   "theorems": [
    "C08_header_roundtrip_refuted",
    "C08_header_roundtrip_partial"
   ],
   "note": "False for labels from 258 on (every such header, undefined shift); round-trip proved for all other headers."
  },
  {
   "property": "C09",
   "status": "partial",
   "theorems": [
    "C09_framing_refuted",
    "C09_framing_long_refuted",
    "C09_framing_partial"
   ],
   "note": "False for loudness packets and for payloads longer than their packet (witnesses); framing proved for all others."
  },
  {
   "property": "C10",
   "status": "proved",
   "theorems": [
    "C10_ids_unique",
    "C10_reference_scene_keeps_tables"
   ],
   "note": ""
  },
  {
   "property": "C11",
   "status": "proved",
   "theorems": [
    "C11_no_table_overrun",
    "C11_counts_within_tables"
   ],
   "note": ""
  },
  {
   "property": "C12",
   "status": "proved",
   "theorems": [
    "C12_block_kinds_once",
    "C12_second_block_rejected"
   ],
   "note": ""
  },
  {
   "property": "C13",
   "status": "proved",
   "theorems": [
    "C13_scene_roundtrip"
   ],
   "note": "Whole scene (groups, switch groups, presets, unknown blocks), for scenes passing the decoder checks; 128 members excluded, see C14."
  },
  {
   "property": "C14",
   "status": "partial",
   "theorems": [
    "C14_members_refuted",
    "C14_members_partial"
   ],
   "note": "False for 128 members (refuted with a witness); proved for 1..127."
  },
  {
   "property": "C15",
   "status": "partial",
   "theorems": [
    "C15_earcon_table_refuted",
    "C15_earcon_table_partial"
   ],
   "note": "False: 17 earcons overrun the table (witness through the whole scan); proved to be the only overrun."
  },
  {
   "property": "C16",
   "status": "partial",
   "theorems": [
    "C16_pcm_tables_refuted",
    "C16_pcm_2048_refuted",
    "C16_pcm_config_safe",
    "C16_pcm_config_keeps_shape",
    "C16_pcm_payload_partial"
   ],
   "note": "False for fixed frame size 1024 and for index 3 (witnesses); configuration always safe, data safe for indices up to 2."
  },
  {
   "property": "C17",
   "status": "partial",
   "theorems": [
    "C17_create_reports_refuted",
    "C17_only_memory_errors_refuted",
    "C17_settings_partial"
   ],
   "note": "False: create discards the result of the configuration step, so every invalid configuration is accepted (proved for all); the discarded result itself is right unless layout or preset is negative."
  },
  {
   "property": "C18",
   "status": "partial",
   "theorems": [
    "C18_negative_refuted",
    "C18_loudness_refuted",
    "C18_in_range_partial",
    "C18_is_stored_partial"
   ],
   "note": "False for negative layout and preset numbers and for an invalid loudness (witnesses); proved otherwise."
  },
  {
   "property": "C19",
   "status": "proved",
   "theorems": [
    "C19_layout",
    "C19_state_and_data"
   ],
   "note": "Every allocator, address and failure; sizes below 2^32."
  },
  {
   "property": "C20",
   "status": "proved",
   "theorems": [
    "C20_failure_reported",
    "C20_success"
   ],
   "note": "Every allocator."
  },
  {
   "property": "C21",
   "status": "partial",
   "theorems": [
    "C21_refused_before_init_partial",
    "C21_binaural_refuted",
    "C21_error_but_done_refuted"
   ],
   "note": "Every history in which the binaural set-up succeeds; false after a failed binaural set-up, and completion can be reported with a fatal code (witnesses)."
  },
  {
   "property": "C22",
   "status": "partial",
   "theorems": [
    "C22_init_partial",
    "C22_init_more_partial",
    "C22_execute_partial",
    "C22_init_frame_refuted",
    "C22_beyond_input_refuted",
    "C22_empty_init_refuted",
    "C22_empty_execute_refuted",
    "C22_stale_refuted",
    "C22_stall_refuted"
   ],
   "note": "Completed initialisation calls and execute calls on non-empty input; false for empty input, an access unit before the configuration, after a failed restart and for a rejected configuration in the stream."
  },
  {
   "property": "C23",
   "status": "partial",
   "theorems": [
    "C23_table_partial",
    "C23_others_partial",
    "C23_history_refuted"
   ],
   "note": "False after an earlier init (witness); proved for the table and, at the first init, for all other rates."
  },
  {
   "property": "C24",
   "status": "partial",
   "theorems": [
    "C24_oam_range_refuted",
    "C24_oam_range_partial"
   ],
   "note": "First sub-frame of every access unit, any history; refuted for the further sub-frames."
  },
  {
   "property": "C25",
   "status": "partial",
   "theorems": [
    "C25_oam_intra_refuted",
    "C25_oam_intra_partial",
    "C25_oam_subframes_partial"
   ],
   "note": "All modes with one frame per access unit, and sub-frames except uniform spread in Fixed mode (refuted)."
  },
  {
   "property": "C26",
   "status": "partial",
   "theorems": [
    "C26_object_tables_refuted",
    "C26_object_tables_partial",
    "C26_object_frames_partial"
   ],
   "note": "False: more than 24 objects in total overrun the tables of the enhanced metadata configuration (witness); safe up to 24; frames of accepted configurations are safe for every history below 2^21 - 1 payloads."
  },
  {
   "property": "C27",
   "status": "proved",
   "theorems": [
    "C27_profile_limits"
   ],
   "note": "Every accepted configuration, in any earlier state."
  },
  {
   "property": "C28",
   "status": "partial",
   "theorems": [
    "C28_sig_group_info_refuted"
   ],
   "note": "False for every number of groups: one pair too many is read (proved for all)."
  },
  {
   "property": "C29",
   "status": "partial",
   "theorems": [
    "C29_config_ext_framing_refuted",
    "C29_config_ext_overlong_refuted",
    "C29_config_ext_framing_partial"
   ],
   "note": "False for compatibility sets, group info and overlong downmix/scene/HOA matrix extensions (witnesses); exact for all other types."
  },
  {
   "property": "C30",
   "status": "partial",
   "theorems": [
    "C30_downmix_refuted",
    "C30_downmix_partial"
   ],
   "note": "False: every matrix of more than 2048 bits overruns its buffer; proved to be the only overrun of one matrix."
  },
  {
   "property": "C31",
   "status": "partial",
   "theorems": [
    "C31_flexible_speakers_refuted",
    "C31_flexible_speakers_partial",
    "C31_speaker_angles_partial"
   ],
   "note": "False: illegal azimuths are stored (witness); no overrun (symmetric pairs included), and legal angles when the description reports no error."
  },
  {
   "property": "C32",
   "status": "proved",
   "theorems": [
    "C32_hoa_consistent",
    "C32_hoa_safe"
   ],
   "note": "Every accepted HOA configuration; parsing never leaves its tables and ends."
  },
  {
   "property": "C33",
   "status": "partial",
   "theorems": [
    "C33_symbols",
    "C33_tables",
    "C33_spectrum_partial",
    "C33_sum_overflow_refuted"
   ],
   "note": "Every bit sequence: interval, alphabet, indices and all 32-bit results, except one sum of two magnitudes, which overflows (witness)."
  },
  {
   "property": "C34",
   "status": "proved",
   "theorems": [
    "C34_terminates",
    "C34_escapes"
   ],
   "note": "Every bit sequence below 2^24 bits, with the bound 64 (bits + 19) on the escapes of a pair."
  },
  {
   "property": "C35",
   "status": "partial",
   "theorems": [
    "C35_symbols_partial",
    "C35_last_bits_refuted"
   ],
   "note": "Every symbol sequence over every frequency table, if 15 bits follow the code; false at the very end of the data (witness)."
  },
  {
   "property": "C36",
   "status": "partial",
   "theorems": [
    "C36_within_threshold_partial",
    "C36_nan_refuted"
   ],
   "note": "Every finite delayed sample, every signal around it, any splitting into frames, any coefficients in 0..1; false for NaN samples, which pass the limiter."
  },
  {
   "property": "C37",
   "status": "proved",
   "theorems": [
    "C37_transparent",
    "C37_frames_irrelevant"
   ],
   "note": "Bit-exact, for every signal within the threshold, every attack time and every splitting into frames."
  },
  {
   "property": "C38",
   "status": "proved",
   "theorems": [
    "C38_window_maximum"
   ],
   "note": "For every signal of any length, infinities and NaN included."
  },
  {
   "property": "C39",
   "status": "partial",
   "theorems": [
    "C39_sums",
    "C39_product",
    "C39_shift",
    "C39_shift_right",
    "C39_shift_left",
    "C39_products16",
    "C39_products32",
    "C39_add64",
    "C39_mul64",
    "C39_narrow",
    "C39_sub64_refuted",
    "C39_sub64_partial"
   ],
   "note": "Every primitive for all operands; false for the 64-bit subtraction, which the decoder does not use (witness)."
  },
  {
   "property": "C40",
   "status": "partial",
   "theorems": [
    "C40_samples_partial",
    "C40_order_partial",
    "C40_room_partial",
    "C40_room_refuted",
    "C40_full_scale_refuted",
    "C40_nan_refuted",
    "C40_shift_refuted",
    "C40_shift_table_refuted"
   ],
   "note": "All samples that are numbers (below full scale at 32 bits), all permutations, all sizes; false for shifted channels, NaN, full scale at 32 bits and the buffer size at 16 to 48 kHz."
  },
  {
   "property": "C41",
   "status": "partial",
   "theorems": [
    "C41_loops_partial",
    "C41_overrun_refuted",
    "C41_frame_first_refuted",
    "C41_rejected_interaction_refuted"
   ],
   "note": "For every decoder that reports between one byte and what it was given; the real decoder does not always (memory is overwritten) and a rejected interaction buffer makes the loop endless. MP4 input not modelled."
  },
  {
   "property": "C42",
   "status": "partial",
   "theorems": [
    "C42_preset_conditions_refuted",
    "C42_legal_scene_rejected_refuted",
    "C42_preset_conditions_partial"
   ],
   "note": "False: conditions are checked against the group with the index of the preset; refuted both ways; what is really checked is proved."
  },
  {
   "property": "C43",
   "status": "partial",
   "theorems": [
    "C43_gain_within_limits",
    "C43_gain_not_allowed_refuted",
    "C43_disabled_gain_refuted",
    "C43_position_within_limits",
    "C43_azimuth_refuted",
    "C43_no_extension_refuted",
    "C43_preset_gain",
    "C43_preset_position_partial",
    "C43_preset_position_refuted",
    "C43_disabled_position_refuted"
   ],
   "note": "Gains of groups that may change them, and positions with a downmix extension, stay within the limits and are exact inside. False otherwise: +1 dB where no change is allowed, azimuth above the limit becomes the least one, no position without an extension, offsets of a preset dropped for every group but the one with id 1 (all proved in general), the flag that disables the user's position taken from the wrong extension. What a preset asks for is exact for gains (C43_preset_gain) and, for group 1 and the first extension, for positions. Loudness compensation and the routing to wires are not modelled."
  },
  {
   "property": "C44",
   "status": "partial",
   "theorems": [
    "C44_config_accepted",
    "C44_config_safe_partial",
    "C44_gain_sets_refuted",
    "C44_instructions_refuted",
    "C44_gain_safe",
    "C44_time_table_refuted",
    "C44_time_table"
   ],
   "note": "Configuration parser: every accepted configuration is within capacity; false without two tests the code lacks (25 gain sets, 31 instruction blocks), true for every stream with them. Gain payloads: every payload after every history of initialisations from 3000 Hz on; from 1000 to 2999 Hz the initialisation writes outside its time table (for every such rate)."
  },
  {
   "property": "C45",
   "status": "partial",
   "theorems": [
    "C45_groups",
    "C45_switches",
    "C45_presets",
    "C45_descriptions_partial",
    "C45_texts_refuted",
    "C45_groups_refuted",
    "C45_switches_refuted",
    "C45_presets_refuted",
    "C45_descriptions_refuted",
    "C45_conditions_refuted",
    "C45_groups_safe_partial",
    "C45_switches_safe_partial",
    "C45_descriptions_safe_partial",
    "C45_presets_safe_partial"
   ],
   "note": "Read back for every scene within the tables (groups without their members, which the box does not carry: two each, from 0 and 2, the others keep their start). False beyond: every box with 17..127 groups, 9..127 switch groups or presets, 17..127 conditions in a preset, or 128 group descriptions writes outside the tables (no count is tested); 128..255 conditions become a negative count and the rest of the box is misread. Safe for every content with counts in range (presets: up to a reader that tests both counts). Descriptions are read back when every text is one bit long, which is what the decoder takes; with a character of eight bits the number of the next group is misread (C45_texts_refuted). The search for the boxes in the file is not modelled."
  },
  {
   "property": "C46",
   "status": "partial",
   "theorems": [
    "C46_description_text_refuted",
    "C46_description_text_partial"
   ],
   "note": "False for texts of 128 bytes (witness); round-trip proved up to 127."
  },
  {
   "property": "C47",
   "status": "partial",
   "theorems": [
    "C47_drc_interface_refuted",
    "C47_drc_interface_partial"
   ],
   "note": "False: 16 effect bits are cut to 8 (witness); exact for 7 bits."
  },
  {
   "property": "C48",
   "status": "partial",
   "theorems": [
    "C48_preset_extension_refuted",
    "C48_preset_extension_partial"
   ],
   "note": "False when presets differ in their number of conditions (witness); proved when equal."
  },
  {
   "property": "C49",
   "status": "partial",
   "theorems": [
    "C49_scene_block_length_refuted",
    "C49_unknown_block_skipped",
    "C49_known_block_partial"
   ],
   "note": "False from 32768 bytes on (witness); proved for unknown kinds (all lengths) and known kinds below 32768 bytes whose content fits."
  },
  {
   "property": "C50",
   "status": "proved",
   "theorems": [
    "C50_scan_terminates"
   ],
   "note": "Fuel independence: 16 bits are consumed per packet."
  },
  {
   "property": "C51",
   "status": "proved",
   "theorems": [
    "C51_scan_stream"
   ],
   "note": "Any sequence of packets."
  },
  {
   "property": "C52",
   "status": "partial",
   "theorems": [
    "C52_earcons_refuted",
    "C52_earcons_partial"
   ],
   "note": "False when an earcon without text replaces one with text (witness); proved otherwise."
  },
  {
   "property": "C53",
   "status": "partial",
   "theorems": [
    "C53_pcm_config",
    "C53_pcm_samples_partial"
   ],
   "note": "Configuration exact; samples exact for frame size indices 1 and 2 without per-signal gains."
  },
  {
   "property": "C54",
   "status": "partial",
   "theorems": [
    "C54_loudness_partial",
    "C54_album_refuted"
   ],
   "note": "False: album entries erase scopes (witness); proved otherwise."
  },
  {
   "property": "C55",
   "status": "partial",
   "theorems": [
    "C55_loudness_tables_refuted",
    "C55_loudness_tables_partial"
   ],
   "note": "False: 37 entries overrun (witness); proved to be the only overruns."
  },
  {
   "property": "C56",
   "status": "partial",
   "theorems": [
    "C56_config_memory_refuted",
    "C56_config_memory_partial"
   ],
   "note": "False (C26, C30); proved that these are the only two ways."
  },
  {
   "property": "C57",
   "status": "proved",
   "theorems": [
    "C57_ext_element_framing"
   ],
   "note": "Every type, length and content."
  },
  {
   "property": "C58",
   "status": "proved",
   "theorems": [
    "C58_signal_totals"
   ],
   "note": "Every accepted configuration."
  },
  {
   "property": "C59",
   "status": "partial",
   "theorems": [
    "C59_downmix_stored_partial"
   ],
   "note": "Matrices up to 2048 bits (longer ones overrun, C30), downmix type 1."
  },
  {
   "property": "C60",
   "status": "proved",
   "theorems": [
    "C60_hoa_matrix_safe"
   ],
   "note": "Every layout, order up to 6 and content."
  },
  {
   "property": "C61",
   "status": "partial",
   "theorems": [
    "C61_hoa_max_order_refuted"
   ],
   "note": "False: order 2 with maximum ambience order 3 is accepted (witness)."
  },
  {
   "property": "C62",
   "status": "partial",
   "theorems": [
    "C62_rejected_config_harmless_refuted"
   ],
   "note": "False: witness pair of configurations."
  },
  {
   "property": "C63",
   "status": "partial",
   "theorems": [
    "C63_config_history_refuted"
   ],
   "note": "False: a compatibility set outlives its configuration (witness)."
  },
  {
   "property": "C64",
   "status": "proved",
   "theorems": [
    "C64_truncated_binary"
   ],
   "note": "Every range and value."
  },
  {
   "property": "C65",
   "status": "partial",
   "theorems": [
    "C65_config_stored_partial",
    "C65_full_config_stored_partial"
   ],
   "note": "Named, listed or flexible layouts, channel, object and HOA groups, every kind of element and extension element, every configuration extension but the HOA matrix and the signal group information. Missing: flexible layouts beyond those of C107, channel groups with their own layout, SAOC groups, and histories in which an earlier compatibility set or scene disagrees (C63, C42 show these fail)."
  },
  {
   "property": "C66",
   "status": "proved",
   "theorems": [
    "C66_content_kinds_stored",
    "C66_composite_pairs_stored",
    "C66_screen_size_stored",
    "C66_many_downmix_ids_rejected",
    "C66_downmix_ids_read"
   ],
   "note": "All values."
  },
  {
   "property": "C67",
   "status": "partial",
   "theorems": [
    "C67_absolute_depth_refuted",
    "C67_absolute_priority_refuted",
    "C67_absolute_partial"
   ],
   "note": "Uniform spread, no dynamic priority; refuted for the spread depth and for the priority."
  },
  {
   "property": "C68",
   "status": "partial",
   "theorems": [
    "C68_differential_refuted",
    "C68_differential_partial"
   ],
   "note": "One metadata frame per access unit; refuted for sub-frames."
  },
  {
   "property": "C69",
   "status": "partial",
   "theorems": [
    "C69_oam_history_refuted",
    "C69_oam_history_partial"
   ],
   "note": "Histories shorter than 2^21 - 1 payloads; refuted for 2^21."
  },
  {
   "property": "C70",
   "status": "partial",
   "theorems": [
    "C70_enhanced_range",
    "C70_enhanced_keep_refuted",
    "C70_enhanced_read_partial"
   ],
   "note": "Ranges and safety for every history; contents except the predefined-sector flag of kept sectors (refuted)."
  },
  {
   "property": "C71",
   "status": "partial",
   "theorems": [
    "C71_subframe_metadata_refuted",
    "C71_subframe_metadata_partial"
   ],
   "note": "Access units whose first sub-frame has metadata; refuted otherwise."
  },
  {
   "property": "C72",
   "status": "partial",
   "theorems": [
    "C72_earcon_position_refuted",
    "C72_earcon_memory_refuted",
    "C72_earcon_scene_refuted",
    "C72_earcon_partial"
   ],
   "note": "Signals sharing the first earcon position; refuted for position, table bounds and the scene."
  },
  {
   "property": "C73",
   "status": "partial",
   "theorems": [
    "C73_input_kept_refuted",
    "C73_input_kept_partial"
   ],
   "note": "False for a requested loudness (witness); nothing else changes."
  },
  {
   "property": "C74",
   "status": "partial",
   "theorems": [
    "C74_delete_partial",
    "C74_double_free_refuted",
    "C74_table_refuted"
   ],
   "note": "False for a second delete and for 17 creates (proved for all allocators); proved for one create and one delete."
  },
  {
   "property": "C75",
   "status": "partial",
   "theorems": [
    "C75_object_alignment_refuted"
   ],
   "note": "False for every allocator returning multiples of 8."
  },
  {
   "property": "C76",
   "status": "partial",
   "theorems": [
    "C76_rate_partial",
    "C76_rate_refuted"
   ],
   "note": "False for every stream rate outside the table (proved for all); proved otherwise."
  },
  {
   "property": "C77",
   "status": "partial",
   "theorems": [
    "C77_sqrt_partial",
    "C77_sqrt_refuted"
   ],
   "note": "All arguments below 3037000499^2; negative arguments never terminate (proved for all)."
  },
  {
   "property": "C78",
   "status": "proved",
   "theorems": [
    "C78_spectrum"
   ],
   "note": "Every spectrum with magnitudes below 2^30 and every context, if 15 bits follow the code (signs included)."
  },
  {
   "property": "C79",
   "status": "partial",
   "theorems": [
    "C79_dead_decoder_refuted",
    "C79_cut_short_refuted",
    "C79_growing_input_refuted"
   ],
   "note": "False: after a configuration cut short behind its sampling frequency no sequence of calls completes (proved for all sequences)."
  },
  {
   "property": "C80",
   "status": "partial",
   "theorems": [
    "C80_oversized_refuted"
   ],
   "note": "False for every packet longer than 768 bytes."
  },
  {
   "property": "C81",
   "status": "partial",
   "theorems": [
    "C81_single_partial",
    "C81_main_unit_partial",
    "C81_sizes_refuted",
    "C81_swallowed_refuted"
   ],
   "note": "One unit, or two of equal size; false for all different sizes."
  },
  {
   "property": "C82",
   "status": "partial",
   "theorems": [
    "C82_parse",
    "C82_too_many",
    "C82_parse_safe",
    "C82_first",
    "C82_same",
    "C82_changed",
    "C82_changed_no_unit",
    "C82_plain",
    "C82_no_config_refuted",
    "C82_zeros_refuted"
   ],
   "note": "Every element and history with a configuration; false without one and for configurations that differ by trailing zeros."
  },
  {
   "property": "C83",
   "status": "partial",
   "theorems": [
    "C83_restart_iff_changed",
    "C83_first_kept",
    "C83_partial_copy_refuted"
   ],
   "note": "Every accepted configuration packet when the first one was supplied whole; false if it was supplied in parts (witness)."
  },
  {
   "property": "C84",
   "status": "partial",
   "theorems": [
    "C84_rejection_refuted"
   ],
   "note": "Every input without packets: fatal codes are reported, non-fatal ones are not."
  },
  {
   "property": "C85",
   "status": "partial",
   "theorems": [
    "C85_packet_partial",
    "C85_wide_refuted"
   ],
   "note": "Every valid packet whose wires and zoom values fit a byte; larger values are cut (proved for all packets)."
  },
  {
   "property": "C86",
   "status": "partial",
   "theorems": [
    "C86_safe_partial",
    "C86_nine_groups_refuted",
    "C86_unknown_group_refuted",
    "C86_preset_refuted",
    "C86_dropped_refuted"
   ],
   "note": "Safe and checked for scenes of at most eight groups; false otherwise, and unknown groups after the first, presets beyond the number of groups and an unknown first group are handled wrongly (proved in general)."
  },
  {
   "property": "C87",
   "status": "proved",
   "theorems": [
    "C87_sequence",
    "C87_any_buffer"
   ],
   "note": "All lists of displacements, all buffers, any number of calls."
  },
  {
   "property": "C88",
   "status": "partial",
   "theorems": [
    "C88_positions_partial",
    "C88_safe_partial",
    "C88_many_refuted",
    "C88_gain_refuted"
   ],
   "note": "Standard layout with measured positions; any packet with at most 24 loudspeakers is safe, every setup with more leaves the arrays; calibration gains are misread."
  },
  {
   "property": "C89",
   "status": "partial",
   "theorems": [
    "C89_one_member_on",
    "C89_decision",
    "C89_unknown_member_refuted",
    "C89_unknown_member_ub_refuted",
    "C89_switch_condition_refuted"
   ],
   "note": "Every scene whose switch groups are disjoint, with known members and the default among them; an unknown member makes every frame fail, switch group conditions use wrong members."
  },
  {
   "property": "C90",
   "status": "partial",
   "theorems": [
    "C90_statuses_partial",
    "C90_wish_by_position_refuted",
    "C90_switch_conflict_refuted"
   ],
   "note": "Scenes without downmix extensions and switch group conditions; wishes are matched by position, not by group id."
  },
  {
   "property": "C91",
   "status": "partial",
   "theorems": [
    "C91_preset_in_force",
    "C91_unknown_preset",
    "C91_no_presets_refuted"
   ],
   "note": "Scenes with presets, all packets and histories; in scenes without presets packets have no effect."
  },
  {
   "property": "C92",
   "status": "partial",
   "theorems": [
    "C92_default",
    "C92_default_bad_channel",
    "C92_preset_partial",
    "C92_first_group_refuted",
    "C92_stale_condition_refuted",
    "C92_wrong_channels_refuted",
    "C92_late_preset_refuted",
    "C92_search_refuted"
   ],
   "note": "Without a preset in full; with a preset when it covers every group and the groups number their channels alike; other presets are refused or played with wrong groups or channels."
  },
  {
   "property": "C93",
   "status": "partial",
   "theorems": [
    "C93_groups_partial",
    "C93_ducking_refuted"
   ],
   "note": "Every accepted configuration and every effect; a block that ducks other channels may name gain set 0 beside the one used (accepted in one order, refused in the other)."
  },
  {
   "property": "C94",
   "status": "partial",
   "theorems": [
    "C94_config_partial",
    "C94_borders_refuted",
    "C94_border_refuted",
    "C94_two_blocks_refuted"
   ],
   "note": "Every valid configuration with band borders below 128 and one coefficient block per location; counterexamples for the others, the loss of the high border bits in general."
  },
  {
   "property": "C95",
   "status": "proved",
   "theorems": [
    "C95_gain_payload",
    "C95_band_unambiguous",
    "C95_order_refuted"
   ],
   "note": "Linear interpolation, the only kind the configuration parser accepts. The order of the nodes is not part of the statement: accepted payloads can have nodes out of order (C95_order_refuted)."
  },
  {
   "property": "C96",
   "status": "partial",
   "theorems": [
    "C96_curve",
    "C96_safe",
    "C96_stale_refuted"
   ],
   "note": "The curve: every history whose nodes are in the order of time (others are refused with an error). Memory: after every payload read without error; false when a refused payload is followed by a frame without payload (C96_stale_refuted). Gains in dB stay symbolic: the conversion to a factor is not modelled."
  },
  {
   "property": "C97",
   "status": "partial",
   "theorems": [
    "C97_channels_partial",
    "C97_order_refuted",
    "C97_reconfigure_refuted",
    "C97_flexible_refuted",
    "C97_downmix_refuted",
    "C97_production_refuted"
   ],
   "note": "For channel groups that come first, with index or list layouts, active downmix or downmix matrices for the target layout only and no production metadata. False otherwise (five refutations); also the configuration is damaged by the call: C97_reconfigure_refuted."
  },
  {
   "property": "C98",
   "status": "partial",
   "theorems": [
    "C98_objects_partial",
    "C98_diffuseness_refuted",
    "C98_sectors_refuted",
    "C98_properties_refuted",
    "C98_ids_refuted",
    "C98_production_refuted"
   ],
   "note": "One object group, no production metadata, group properties agreeing with those the writer takes; diffuseness, divergence and sectors by angles only by their whole part, so no diffuseness but zero and no azimuth of a sector arrives (C98_diffuseness_refuted, C98_sectors_refuted, both for all states)."
  },
  {
   "property": "C99",
   "status": "partial",
   "theorems": [
    "C99_hoa_partial",
    "C99_near_field_refuted",
    "C99_matrix_refuted"
   ],
   "note": "Without near field distance, rendering matrix and production metadata. False with a distance that is no whole number and with a rendering matrix: its full length is announced but only its head is written (refuted)."
  },
  {
   "property": "C100",
   "status": "partial",
   "theorems": [
    "C100_channels_safe_partial",
    "C100_objects_safe_partial",
    "C100_hoa_safe_partial",
    "C100_objects_fit_partial",
    "C100_objects_fit_refuted"
   ],
   "note": "Never outside the buffer, for every state in which the writer completes. The payload fits for up to 24 objects, 4 sub-frames, 5 predefined sectors each; false with 15 sectors (the writer starts again at the front and reports more than 768 bytes)."
  },
  {
   "property": "C101",
   "status": "partial",
   "theorems": [
    "C101_samples_partial",
    "C101_overload_refuted"
   ],
   "note": "For samples below 256 times full scale; beyond, for infinities and for NaN the conversion is undefined (C101_overload_refuted). The signals are the decoder output at this point; how they come about is not modelled."
  },
  {
   "property": "C102",
   "status": "proved",
   "theorems": [
    "C102_stream",
    "C102_frame"
   ],
   "note": "For the first configuration of a structure (C104) and prediction coefficients that 32 bits hold."
  },
  {
   "property": "C103",
   "status": "partial",
   "theorems": [
    "C103_side_safe",
    "C103_cut_refuted",
    "C103_lines_refuted"
   ],
   "note": "Reading is safe for any payloads of up to 550000 frames (3 hours at 48 kHz; a prediction coefficient can grow without limit, and its sum overflows much later). The coefficients are indices of the tables if 19 bits are left in each payload; false when a payload ends inside a codeword (refuted with a two-frame stream accepted with angle -1)."
  },
  {
   "property": "C104",
   "status": "partial",
   "theorems": [
    "C104_channels_partial",
    "C104_again_refuted",
    "C104_overrun_refuted"
   ],
   "note": "For a structure not configured before. False for a second configuration (the count is not reset: appended, and out of bounds with 16 channels); reached when audio scene information was received, since the structure is then not cleared. The test for low frequency channels looks at the element of the tool itself and can never fire."
  },
  {
   "property": "C105",
   "status": "proved",
   "theorems": [
    "C105_upmix",
    "C105_tables"
   ],
   "note": "For frames as C102 reads them; stereo filling and the IGF source spectra are separate (C106; IGF not modelled)."
  },
  {
   "property": "C106",
   "status": "partial",
   "theorems": [
    "C106_downmix_partial",
    "C106_even_refuted"
   ],
   "note": "One window, the coefficients and masks as the caller passes them. False for rotation band by band with an even number of scale factor bands (12 or 14 bands: short windows at 32 to 96 kHz; 40 bands: long windows at 8 kHz): the frame is refused. What the caller passes as coefficients and the adding of the filling signal are not modelled."
  },
  {
   "property": "C107",
   "status": "partial",
   "theorems": [
    "C107_flexible_layout_partial",
    "C107_flexible_group_partial",
    "C107_index_refuted",
    "C107_again_refuted",
    "C107_angle_refuted",
    "C107_name_refuted"
   ],
   "note": "For reference layouts of up to 20 and group layouts of up to 24 loudspeakers, by direction or by a number whose pair flag is found, into a table not used before. False for 22 of the 43 loudspeaker numbers (left front among them: their pair flag is not read), for rear centre after a layout that had a loudspeaker on the right in the same place (reached when audio scene information was received, since the structure is then not cleared), and impossible angles are accepted. A flexible reference layout is also taken for the named layout whose number is its number of loudspeakers."
  },
  {
   "property": "C108",
   "status": "partial",
   "theorems": [
    "C108_flexible_index_partial",
    "C108_pair_refuted",
    "C108_named_refuted",
    "C108_listed_refuted",
    "C108_angles_refuted"
   ],
   "note": "Holds only for channels of flexible layouts given by number. False for named layouts (all from the front), listed layouts and loudspeakers by direction (all from the left front loudspeaker) and the second of a pair. Taken before the look-up of known loudspeaker positions, which is not modelled."
  },
  {
   "property": "C109",
   "status": "partial",
   "theorems": [
    "C109_tns_partial",
    "C109_lowest_refuted",
    "C109_safe"
   ],
   "note": "All filters of long and short windows that leave the lowest band alone, plus safety for all bits. False for a filter over all bands, which is valid and always refused."
  },
  {
   "property": "C110",
   "status": "partial",
   "theorems": [
    "C110_head_partial",
    "C110_tns_refuted",
    "C110_first_refuted",
    "C110_other_refuted",
    "C110_bands_refuted",
    "C110_safe"
   ],
   "note": "For pairs of two channels coded in the frequency domain without active gap filling; safety for all bits. False for a later pair with shared noise shaping data (read with the window type of channel 0, or refused), for complex prediction when the first element of the stream uses its own noise filling, and more bands for the right channel than exist are accepted."
  },
  {
   "property": "C111",
   "status": "partial",
   "theorems": [
    "C111_window",
    "C111_slopes",
    "C111_groups_refuted",
    "C111_safe"
   ],
   "note": "Every single channel. False for two channels with different groups of short windows: the groups are held once for all channels, so those of the first are gone."
  },
  {
   "property": "C112",
   "status": "proved",
   "theorems": [
    "C112_frames",
    "C112_safe"
   ],
   "note": "Any number of frames of the first pair, each with the conditions of C110; safety for up to 80000 frames."
  },
  {
   "property": "C113",
   "status": "partial",
   "theorems": [
    "C113_factors_partial",
    "C113_tight_refuted",
    "C113_range_refuted",
    "C113_safe_partial",
    "C113_end_refuted"
   ],
   "note": "All factors within 0..255, all groupings and positions, when the reader runs to the end of the buffer or has at least 25 bits; safety when 19 bits per band remain. False beyond: negative factors are accepted, a frame that ends within its factors makes the decoder shift by 32 or more, and a reader that stops less than 25 bits after the start and before the end of the buffer misreads."
  },
  {
   "property": "C114",
   "status": "proved",
   "theorems": [
    "C114_bands",
    "C114_cover"
   ],
   "note": "All rates; the tables of the standard are written out as runs of widths."
  },
  {
   "property": "C115",
   "status": "partial",
   "theorems": [
    "C115_channel_partial",
    "C115_pair_partial",
    "C115_end_refuted",
    "C115_safe_partial"
   ],
   "note": "All headers of elements without gap filling, alone or after the header of the pair, with TNS filters above the lowest band (see C109). False for headers in the last 24 bits of a frame that fills the input buffer: refused. Safety when 2400 bits remain (see C113)."
  },
  {
   "property": "C116",
   "status": "partial",
   "theorems": [
    "C116_levels_partial",
    "C116_nothing",
    "C116_first_sendable",
    "C116_sendable",
    "C116_safe_partial",
    "C116_limit_refuted",
    "C116_forward_refuted"
   ],
   "note": "All levels that can be written (0..127 in the first window, 0..75 always; more if near the prediction), all window kinds, band ranges, histories. Missing: frames that end within 15 bits of the last level. Safety for any 7920 frames. False beyond: levels can be raised without limit from frame to frame, and a frame that ends within its levels is accepted with the reader moved backwards."
  },
  {
   "property": "C117",
   "status": "proved",
   "theorems": [
    "C117_data",
    "C117_safe"
   ],
   "note": "All choices with one to four tiles; safety for any bits and zero to four tiles."
  },
  {
   "property": "C118",
   "status": "partial",
   "theorems": [
    "C118_ranges",
    "C118_lowest_partial",
    "C118_lowest_refuted",
    "C118_in_range",
    "C118_rate_refuted",
    "C118_short_refuted"
   ],
   "note": "All rates from 2 Hz, all indices, both resolutions: ranges, tiles, and safety of the levels read with them. False: the lowest line is kept in 8 bits (wrong below 9036 Hz, e.g. at 8 kHz), a rate of 1 Hz divides by zero, and for some indices the range of short windows is empty, so that frames with levels are refused."
  },
  {
   "property": "C119",
   "status": "partial",
   "theorems": [
    "C119_own_layouts",
    "C119_safe",
    "C119_inputs_partial",
    "C119_order_refuted",
    "C119_count_refuted"
   ],
   "note": "All lists of groups are stored as sent; the input list is right when the channel groups come before all others and name layouts with as many loudspeakers as signals. False otherwise: after a group of objects the layout is looked for at the wrong place, and a layout with another number of loudspeakers is accepted and shifts those of later groups. Layouts by number or direction are not used by the converter."
  },
  {
   "property": "C120",
   "status": "partial",
   "theorems": [
    "C120_start_partial",
    "C120_dropped_partial",
    "C120_rejected_rate_refuted",
    "C120_restart_refuted"
   ],
   "note": "All rates, word sizes, maps, frame sizes, for signals below the limit and streams that are not resampled or converted; the number of dropped samples for all rates asked for. False: a stream of 48 kHz to be given out at a rate it cannot be converted to loses its first samples; after a change of configuration from or to 48 kHz the output is late or loses 240 samples."
  },
  {
   "property": "C121",
   "status": "partial",
   "theorems": [
    "C121_side_partial",
    "C121_last_coefficient_refuted"
   ],
   "note": "All accepted configurations with up to 49 transport channels, all states and all legal frames, except that with shortened vectors the coefficient has to be one of the first 48; the contents of the vectors are not covered. False: letting coefficient 49 of order 6 fade in writes outside of the table."
  },
  {
   "property": "C122",
   "status": "partial",
   "theorems": [
    "C122_words_partial",
    "C122_book_partial",
    "C122_beyond_partial",
    "C122_second_channel_refuted",
    "C122_two_books_refuted",
    "C122_refused_refuted",
    "C122_last_element_refuted"
   ],
   "note": "All configurations up to order 5, all values: vectors of 8-bit words when the vector signals are the first channels; a codebook vector when the first channel is the only vector signal and its indices fit the codebooks of the channels checked by mistake. A first index beyond the codebook of the first channel is refused. Huffman coded vectors are not modelled. False: words and signs of a vector signal behind another kind of channel are not used; two codebook vectors share their entries; legal indices are refused because of the codebook of another channel; a new shortened vector of order 6 reads outside of a table."
  },
  {
   "property": "C123",
   "status": "partial",
   "theorems": [
    "C123_prediction_partial",
    "C123_off_partial",
    "C123_gain_lost_refuted",
    "C123_stale_refuted",
    "C123_memory_refuted"
   ],
   "note": "All accepted configurations, states, directional signals and predictions by flags or numbers in which no unused entry precedes a used one; frames with directional signals that switch the prediction off. False: with an unused entry before a used one a gain is not read, an old one is used and the rest of the frame is misread; a frame without directional signals keeps the old prediction; at order 6 the numbers 49 to 63 of a coefficient are written outside of the table. The prediction arithmetic is not modelled."
  },
  {
   "property": "C124",
   "status": "proved",
   "theorems": [
    "C124_matrix_head"
   ],
   "note": "All orders, the layouts 0 to 20, all legal settings and previous contents. Any bits may follow the settings; the gains themselves are C125."
  },
  {
   "property": "C125",
   "status": "proved",
   "theorems": [
    "C125_matrix_gains"
   ],
   "note": "All orders, the layouts 0 to 20, all legal settings, gains and signs. Gains are held as steps in dB; the conversion to linear values and the scaling by order in floating point are not modelled."
  }
 ]
}