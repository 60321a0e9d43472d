SESS = "Any coder state, any output buffer. The first theorems show that encoder and decoder return for up to 2^26 symbols; the any_length ones hold for every session whose output is below 2^28 bytes, the most a decoder can be given."
claim('C01', 'proved', SESS + " Second theorem: contexts chosen from the decoded history.",
      'C01_range_coder_round_trip', 'C01_adaptive_context_round_trip', 'C01_any_length', 'C01_any_length_adaptive', 'C01_size_limit')
claim('C02', 'proved', "At every prefix of a session.", 'C02_lockstep_adaptation', 'C02_lockstep_any_length')
claim('C03', 'proved', "Alphabets of 2 to 1024 symbols; encoder and decoder copies of the code modelled separately.",
      'C03_adaptation_keeps_valid', 'C03_encode_keeps_valid', 'C03_decode_keeps_valid')
claim('C04', 'proved', "No panic, loop bound 15, shown tight.", 'C04_encoder_safe', 'C04_renormalisation_bound', 'C04_encoder_returns')
claim('C05', 'proved', "With an empty tail.", 'C05_decoder_never_runs_out', 'C01_any_length')
claim('C06', 'proved', "Bound as stated; an empty segment costs 16 bits, hence max 1.", 'C06_compression_bound', 'C06_cost_meaning', 'C06_size_any_length')
claim('C07', 'proved', "", 'C07_fresh_segment_byte_aligned', 'C06_size_any_length')
claim('C08', 'proved', "REFUTED: init_encoder keeps bit_count, so a second segment can be misaligned; the exact residue is proved.",
      'C08_reuse_alignment_refuted', 'C08_segment_length_residue', 'C06_size_any_length')
claim('C09', 'proved', SESS, 'C09_mixed_calls_round_trip', 'C01_any_length')
claim('C10', 'proved', "REFUTED: bool_max_bits is decremented twice per bit, so exit_decoder can stop up to 7 bits early; exact condition proved.",
      'C10_exit_decoder_refuted', 'C10_exit_decoder_position', 'C10_exit_decoder_any_length')
claim('C11', 'proved', "For all states and CDFs, valid or not.",
      'C11_encode_symbol_appends', 'C11_encode_call_appends', 'C11_exit_encoder_appends')
claim('C12', 'proved', "Messages that follow the same context rule.", 'C12_segments_injective', 'C12_prefix_decoding', 'C12_injective_any_length')
claim('C13', 'proved', "", 'C13_uvlc_round_trip')
claim('C14', 'proved', "REFUTED: val + 1 overflows for u32::MAX; C13 covers every other value.", 'C14_uvlc_every_u32_refuted')
claim('C15', 'proved', "REFUTED: loops for ever exactly on queues without a one bit.", 'C15_uvlc_decode_terminates_refuted', 'C15_uvlc_decode_hangs_iff')
claim('C16', 'proved', "", 'C16_leb128_round_trip', 'C16_leb128_shortest', 'C16_leb128_limit')
claim('C17', 'proved', "", 'C17_le_round_trip')
claim('C18', 'proved', "", 'C18_su_round_trip', 'C18_su_only_range')
claim('C19', 'proved', "", 'C19_ns_round_trip', 'C19_ns_prefix_free')
claim('C20', 'proved', "f(n) fields are read by a reader of the specification, the code has none.", 'C20_headers_parse_back')
claim('C21', 'proved', "", 'C21_uvlc_canonical', 'C21_uvlc_escape', 'C21_le_canonical', 'C21_su_canonical', 'C21_ns_canonical', 'C21_leb128_canonical')
claim('C22', 'proved', "", 'C22_msb16', 'C22_msb32', 'C22_msb64')
claim('C23', 'proved', "REFUTED in part: Round2Signed is not odd, exact condition proved; the other three helpers are proved correct.",
      'C23_floor_log2', 'C23_clip3', 'C23_round2', 'C23_round2signed_odd_refuted', 'C23_round2signed_odd_iff')
claim('C46', 'proved', "", 'C46_padding', 'C46_push_bits')
claim('C24', 'proved', "Bits are the list the calls were given; the held back bits are in the buffer field.", 'C24_writer_stream', 'C24_writer_flushed')
claim('C25', 'proved', "", 'C25_header_byte', 'C25_header_identifies')
claim('C26', 'proved', "REFUTED for every OBU: sizes and header follow the payload. The exact bytes are proved.",
      'C26_exact_bytes', 'C26_exact_bytes_sequence', 'C26_padding_bytes', 'C26_framing_refuted')
claim('C27', 'proved', "REFUTED for every size: the leading bit of the width is lost. What a parser reads is proved.",
      'C27_size_leading_bit_lost', 'C27_size_refuted', 'C27_strict_parser_refuted')
claim('C28', 'proved', "REFUTED for widths or heights of 1 or 2, proved for all others.", 'C28_sequence_header_total_iff', 'C28_sequence_header_total_refuted')
claim('C29', 'proved', "REFUTED: timecode metadata is written with the scalability type number; every other pair is distinguished.",
      'C29_metadata_kind_refuted', 'C29_metadata_kind_iff', 'C29_metadata_type_byte', 'C29_hdr_cll_determined',
      'C29_hdr_mdcv_determined', 'C29_t35_payload_dropped_refuted')
claim('C48', 'proved', "For the stated domain; outside it a monochrome header is misread, also proved.",
      'C48_sequence_header_parses_back', 'C48_format_kept', 'C48_monochrome_refuted')
claim('C49', 'proved', "REFUTED for the bits, proved for the parsed fields.", 'C49_second_header_same_meaning', 'C49_second_header_same_bits_refuted')
claim('C30', 'proved', "With the frame rate in lowest terms and the frame count a 64 bit number.", 'C30_accepted_is_usable')
claim('C31', 'proved', "REFUTED: an N/D frame rate drops all later arguments; the theorem says exactly what success means.", 'C31_honoured_refuted', 'C31_success_iff')
claim('C32', 'proved', "REFUTED: empty arguments, a lone hyphen, multi-byte characters and N/0 panic; exactly those.",
      'C32_never_panics_refuted', 'C32_panics_iff', 'C32_exits_iff', 'C32_always_returns')
claim('C33', 'proved', "REFUTED for short reads, among them the third plane of every regular file; proved for full reads.",
      'C33_full_reads', 'C33_any_schedule', 'C33_regular_file_refuted', 'C33_end_of_file_refuted')
claim('C34', 'proved', "REFUTED: the stream is a function of the options only; it is given exactly.", 'C34_output_ignores_video_refuted', 'C34_output_exact', 'C34_header_read')
claim('C50', 'proved', "REFUTED: the end of the input is never noticed.", 'C50_stops_at_end_refuted', 'C50_frames_processed')
claim('C51', 'proved', "REFUTED: frames are always 176x144.", 'C51_plane_size_iff', 'C51_plane_size_refuted')
claim('C47', 'proved', "REFUTED against the published standard; the rule followed (of an earlier draft) is proved in closed form.",
      'C47_encoder_adaptation_rule', 'C47_decoder_adaptation_rule', 'C47_standard_adaptation_refuted')
claim('C52', 'proved', "", 'C52_uvlc_conforms', 'C52_leb128_conforms', 'C52_le_conforms', 'C52_su_conforms', 'C52_ns_conforms', 'C52_fixed_conforms')
claim('C53', 'proved', "REFUTED: the symbol decoder of the published standard reads other symbols.",
      'C53_standard_decoder_literal_refuted', 'C53_standard_decoder_symbols_refuted')
claim('C36', 'proved', "", 'C36_relative_dist', 'C36_disabled')
claim('C39', 'proved', "REFUTED in part: with integer vectors forced it rounds to nearest, not towards zero; the precision and distance bounds are proved.",
      'C39_lower_mv_precision', 'C39_towards_zero_refuted', 'C39_conforms_without_high_precision', 'C39_high_precision_exactly', 'C39_high_precision_refuted')
claim('C40', 'proved', "REFUTED: panics exactly for predictions strictly between 0 and the last id; with wrapping arithmetic some ids share a code, exact condition proved.",
      'C40_neg_interleave_panics', 'C40_neg_interleave_refuted', 'C40_extreme_predictions', 'C40_wrapping_exactly', 'C40_wrapping_refuted')
claim('C41', 'proved', "REFUTED: delta q is recovered exactly below 3, delta lf exactly up to 4.",
      'C41_delta_q_exactly', 'C41_delta_lf_exactly', 'C41_delta_q_refuted', 'C41_current_q_exactly', 'C41_current_q_refuted', 'C41_delta_q_any_length', 'C41_delta_lf_any_length')
claim('C42', 'proved', "REFUTED: a translation equal to its prediction is misread, diagonal parameters panic; the sub-exponential code itself is proved correct.",
      'C42_subexp_round_trip', 'C42_translation_decoded', 'C42_predicted_value_misread', 'C42_global_motion_refuted', 'C42_diagonal_panics')
claim('C35', 'proved', "", 'C35_default_tables_valid', 'C35_no_table_missing', 'C35_default_state_is_safe', 'C35_default_state_any_length')
claim('C43', 'proved', "REFUTED: num_4x4_blocks_wide is 3 instead of 4 for 16x8, 16x16 and 16x32, and the log2 tables count pixels; every other table entry is proved right.",
      'C43_block_tables', 'C43_columns_exactly', 'C43_columns_refuted', 'C43_log2_refuted', 'C43_partition_subsize',
      'C43_plane_residual_size', 'C43_tx_tables', 'C43_find_tx_size', 'C43_tx_depth', 'C43_mode_transform')
claim('C44', 'proved', "REFUTED: HORZ_B, VERT_B, VERT_4 and every division of 16x16 are wrong; exact condition proved.",
      'C44_partition_exactly', 'C44_types_tried_exactly', 'C44_types_tried_refuted', 'C44_partition_refuted', 'C44_partition_conforms')
claim('C54', 'proved', "REFUTED: no superblock inside the frame is ever encoded.",
      'C54_superblock_never_returns', 'C54_partition_never_returns')
claim('C55', 'proved', "", 'C55_chroma', 'C55_is_inside')
claim('C37', 'proved', "REFUTED: positions are right only for a single tile, and a tile group is never encoded; the superblocks of a tile are proved to cover it.",
      'C37_position_exactly', 'C37_tile_bounds', 'C37_cdef_reset', 'C37_position_refuted', 'C37_tile_group_never_returns', 'C37_empty_starts_panic', 'C37_empty_cdef_panics', 'C37_superblocks_cover_tile')
claim('C56', 'proved', "REFUTED: exact bits and exact condition for decoding proved; the initial state always panics.",
      'C56_tile_info_writes', 'C56_tile_info_decoded_exactly', 'C56_tile_info_refuted', 'C56_two_columns_refuted', 'C56_never_from_start', 'C56_starts_split')
claim('C45', 'proved', "REFUTED in part: every legal call of the other writers is in range and sequences of them decode; the exceptions (last coefficient, DC sign, chroma from luma, transform split and type, new frames) are characterised exactly.",
      'C45_legal_calls', 'C45_round_trip', 'C45_state_stays_valid', 'C45_default_state', 'C45_coeff_base_eob_refuted', 'C45_dc_sign_exactly', 'C45_dc_sign_refuted',
      'C45_uv_mode_exactly', 'C45_uv_mode_refuted', 'C45_cfl_alpha_u', 'C45_cfl_alpha_v', 'C45_cfl_alpha_refuted', 'C45_txfm_split_refuted',
      'C45_intra_tx_type_exactly', 'C45_intra_tx_type_refuted', 'C45_new_frame_refuted', 'C45_any_length')
claim('C57', 'proved', "REFUTED in part: tile edges, compound reference type, transform depth and split, interpolation filter, all-zero flags with several neighbours along an edge; the exact condition for each is proved, the other contexts are right for every neighbourhood.",
      'C57_contexts_conform', 'C57_block_contexts', 'C57_mode_contexts', 'C57_mv_contexts', 'C57_palette_contexts', 'C57_other_contexts', 'C57_reference_contexts', 'C57_compound_idx', 'C57_segment_id', 'C57_tile_edge_refuted', 'C57_comp_ref_type_exactly', 'C57_comp_ref_type_refuted',
      'C57_tx_depth_exactly', 'C57_tx_depth_refuted', 'C57_txfm_split_refuted', 'C57_interp_filter_exactly', 'C57_interp_filter_same_references', 'C57_interp_filter_refuted', 'C57_all_zero_luma_exactly', 'C57_all_zero_luma_alike', 'C57_all_zero_chroma_exactly', 'C57_all_zero_refuted', 'C57_all_zero_luma_value', 'C57_all_zero_chroma_value')
claim('C58', 'proved', "REFUTED in part: range contexts are wrong for negative coefficients and inter transform types are filtered by the wrong set; exact conditions proved, the rest conforms.",
      'C58_coefficient_writers', 'C58_coefficient_set_exactly', 'C58_coefficient_set_refuted', 'C58_coeff_base', 'C58_coeff_br', 'C58_coeff_br_exactly', 'C58_coeff_br_refuted', 'C58_intra_tx_type', 'C58_inter_tx_type_exactly', 'C58_inter_tx_type_refuted')
claim('C38', 'proved', "", 'C38_any_candidates')
claim('C59', 'proved', "REFUTED: the list is not sorted, high precision is ignored, blocks in the first row and blocks without a coded block above to the right panic; the state after the call is given exactly otherwise, and the scans implemented conform.",
      'C59_find_mv_stack_exactly', 'C59_find_mv_stack_conforms', 'C59_sorted_refuted', 'C59_high_precision_refuted', 'C59_first_row_refuted', 'C59_missing_corner_refuted')
claim('C60', 'proved', "REFUTED: warps lose the sign and swap the components; translations conform; both exactly.",
      'C60_translation_conforms', 'C60_warp_exactly', 'C60_global_motion_refuted', 'C60_one_reading_refuted')

claim('C61', 'proved', "REFUTED: single references are read back; of the 16 pairs exactly 4, and only with the right context of the type.",
      'C61_one_reference', 'C61_two_references_exactly', 'C61_two_references_refuted')
claim('C62', 'proved', "REFUTED: with two references the index follows the mode of an earlier block, and three contexts are never computed; exact conditions proved.",
      'C62_one_mode_exactly', 'C62_two_modes_exactly', 'C62_two_modes_refuted', 'C62_contexts_never_computed')
claim('C63', 'proved', "REFUTED: a new vector is read back exactly if it equals its prediction; the assignment itself conforms.",
      'C63_one_vector_exactly', 'C63_two_vectors_exactly', 'C63_intrabc_exactly', 'C63_new_vector_refuted')
claim('C64', 'proved', "REFUTED: no block of any frame is readable; the skip flag and the cdef index are, exactly unless a skipped block writes an index.",
      'C64_intra_frame_unreadable', 'C64_inter_frame_unreadable', 'C64_skip_cdef_exactly')
claim('C65', 'proved', "REFUTED: all units above and to the left are overwritten; exact condition proved, and the initial table always panics.",
      'C65_entries_written', 'C65_entries_exactly', 'C65_table_refuted', 'C65_initial_table_panics')
claim('C66', 'proved', "REFUTED: ids are read back exactly for prediction 0; with segmentation only segments that fix the reference can be coded.",
      'C66_segment_id_exactly', 'C66_segment_id_refuted', 'C66_features_needed', 'C66_reference_taken', 'C66_reference_skip', 'C66_features_taken')
claim('C67', 'proved', "REFUTED: only hidden key frames, intra-only frames and frames shown again; shown key frames and inter frames always panic.",
      'C67_header_needs', 'C67_no_uniform_header_from_start', 'C67_shown_key_refuted', 'C67_inter_refuted')
claim('C68', 'proved', "REFUTED for values that do not fit and for monochrome; exact condition proved.",
      'C68_quantization_exactly', 'C68_quantization_kept', 'C68_monochrome_never', 'C68_large_delta_refuted')
claim('C69', 'proved', "REFUTED: a table of features is never read back (7 of 8 features are written); off and unchanged features are.",
      'C69_features_never', 'C69_features_written', 'C69_no_data', 'C69_off', 'C69_derived')
claim('C70', 'proved', "REFUTED: parameters that are present are never read back, absent ones are.", 'C70_delta_never', 'C70_delta_absent')
claim('C71', 'proved', "REFUTED: without the feature the index of the last block is used; exact condition proved.",
      'C71_lossless_array', 'C71_lossless_exactly', 'C71_lossless_updated', 'C71_lossless_refuted')
claim('C72', 'proved', "REFUTED for mode deltas whose flags differ from the reference deltas; exact condition proved.",
      'C72_loop_filter_exactly', 'C72_monochrome_never', 'C72_lossless', 'C72_mode_delta_refuted')
claim('C73', 'proved', "REFUTED when written twice or without enable_cdef; the first header is read back exactly if the values fit.",
      'C73_cdef_exactly', 'C73_written_again', 'C73_disabled_never', 'C73_lossless')
claim('C74', 'proved', "REFUTED: the parameters are written exactly when restoration is disabled; where written, exact condition proved.",
      'C74_restoration_exactly', 'C74_restoration_needs', 'C74_inverted')
claim('C75', 'proved', "", 'C75_skip_mode_frames', 'C75_frames_unique', 'C75_not_allowed')
claim('C76', 'proved', "REFUTED for hidden frames and streams without film grain (one bit too many); read back otherwise.",
      'C76_grain_written', 'C76_grain_copied', 'C76_grain_not_applied', 'C76_extra_bit', 'C76_shifts_needed')
claim('C77', 'proved', "REFUTED: read back exactly for frames of the size of the sequence whose render size is not that of the downscaled frame.",
      'C77_sizes_exactly', 'C77_other_size_never', 'C77_override_never', 'C77_render_size_refuted')
claim('C78', 'proved', "REFUTED in the last part: the header after a frame shown again is dropped; identifiers and the header itself are right.",
      'C78_identifiers', 'C78_identifier_length', 'C78_show_existing', 'C78_next_header_dropped', 'C78_after_show_existing_refuted')
claim('C79', 'proved', "REFUTED: the caller's parameters are overwritten by the identity, and ALTREF is not written.",
      'C79_intra_identity', 'C79_inter_kept', 'C79_parameters_ignored', 'C79_never', 'C79_read_as', 'C79_translation_refuted', 'C79_models_panic')
claim('C80', 'proved', "For the frames described; which others are not decodable is C67 to C81.", 'C80_header_decoded')
claim('C81', 'proved', "REFUTED: exactly the headers of unscaled frames that are lossless by the current and by the base index are read to the end.",
      'C81_exactly_lossless', 'C81_lossy_never')
claim('C82', 'proved', "For frames and positions up to 2^50 and unit sizes from 8 (the standard has 32 to 256).", 'C82_units_of_av1', 'C82_each_once')
claim('C83', 'proved', "REFUTED: Wiener units panic; types that vary by unit are not written; flags and long weights bypass the arithmetic coder; exact set of weights that come back, none of them at the start of a tile.",
      'C83_wiener_never', 'C83_off_unit', 'C83_self_guided', 'C83_weight_exactly', 'C83_weight_never', 'C83_first_weights_never', 'C83_types_lost_refuted', 'C83_bits_refuted')
claim('C84', 'proved', "REFUTED: 1 << 4 stands for 1 << 7; right exactly for sets below 14 or a first weight of at most -79, and then the next weight panics.",
      'C84_references_exactly', 'C84_references_refuted', 'C84_largest_reference_never', 'C84_after_never')
claim('C85', 'proved', "REFUTED: panics unless intra block copy is allowed.", 'C85_new_frame_never')
claim('C86', 'proved', "For all trees and parameters.", 'C86_partition_tree_copy', 'C86_film_grain_copy')
claim('C87', 'proved', "REFUTED in one field: a shown frame that is not a key frame is showable for the decoder and not for the encoder; everything else agrees.",
      'C87_flags', 'C87_references', 'C87_untouched', 'C87_sizes', 'C87_decoder_agrees', 'C87_showable_refuted')
claim('C88', 'proved', "The reset is that of the standard for all states. REFUTED in its last clause: no tile is finished from it (see also C89).",
      'C88_tile_start', 'C88_tile_never_returns')
claim('C89', 'proved', "REFUTED: nothing calls init_encoder, so the range is 0 and the first symbol never ends; exactly the sessions that code nothing return.",
      'C89_range_zero_never', 'C89_new_coder_hangs', 'C89_without_init_never', 'C89_first_tile_hangs', 'C89_first_tile_refuted')
claim('C90', 'proved', "REFUTED: in no reachable state can a sequence header with order hints be written; each one that is written switches them off.",
      'C90_hints_never', 'C90_order_hint_refuted')
claim('C91', 'proved', "REFUTED in general: read exactly when the size fields, which drop a bit, happen to give the frame's size; never for a header made for the frame's own size; the caller must keep identifiers and decoder model equal by hand.",
      'C91_header_after_sequence', 'C91_own_size_never', 'C91_size_refuted', 'C91_identifiers_refuted', 'C91_frames_kept', 'C91_planes_kept', 'C91_private_kept', 'C91_monochrome_refuted')
claim('C92', 'proved', "REFUTED in one field: film grain is announced as soon as a frame header has been written; everything else is the same for all lists of OBUs.",
      'C92_sequence_again', 'C92_same_refuted')
claim('C93', 'proved', "Holds for all streams without frames shown again. REFUTED for copies (empty) and after a frame shown again.",
      'C93_headers_in_step', 'C93_copy_refuted', 'C93_shown_again_refuted')
claim('C94', 'proved', "Bytes for all programs. REFUTED for OBU_FRAME: the frame is ignored.",
      'C94_stream_bytes', 'C94_frames_lost', 'C94_frame_refuted')
claim('C95', 'proved', "For all levels, planes, sizes and coefficients.",
      'C95_transposed', 'C95_square', 'C95_tall', 'C95_square_or_tall', 'C95_values', 'C95_apart', 'C95_covered')
claim('C96', 'proved', "For all indices and bit depths.", 'C96_dc_grows', 'C96_ac_grows', 'C96_starts', 'C96_beside')
claim('C97', 'proved', "For all filters, positions and samples.", 'C97_interpolation', 'C97_warp', 'C97_upscaling')
claim('C98', 'proved', "For all entries; the cosine equation for all pairs of angles.",
      'C98_reciprocal', 'C98_wedge', 'C98_overlap', 'C98_inter_intra', 'C98_distance', 'C98_self_guided', 'C98_cosine_addition', 'C98_cosine_falls', 'C98_cosine_ends', 'C98_cosine_real')
claim('C99', 'proved', "REFUTED for blocks below 128: the CDF of blocks four times as wide is taken, and the flags say available instead of smaller. Exact for all sequences of choices with the CDFs taken; 128x128 blocks as in the standard.",
      'C99_index', 'C99_own_tables', 'C99_partition_128', 'C99_refuted', 'C99_vert_4', 'C99_context')
claim('C100', 'proved', "REFUTED: both writers panic in every state a tile can reach; exact outcome for all valid tables.",
      'C100_split_or_horz', 'C100_split_or_vert', 'C100_always_panics', 'C100_search', 'C100_refuted')
claim('C101', 'proved', "For all sessions, encoder and decoder.",
      'C101_encoder', 'C101_decoder', 'C101_session', 'C101_decode_session', 'C101_default', 'C101_size')
claim('C102', 'proved', "REFUTED: the number of the type is coded instead of its position in the list of the set; every type is read as another one or panics.",
      'C102_lists', 'C102_written_inter', 'C102_written_intra', 'C102_never_read_back', 'C102_outcome', 'C102_identity', 'C102_refuted')
claim('C103', 'proved', "For all entries.",
      'C103_directions', 'C103_chroma', 'C103_no_line', 'C103_taps', 'C103_row_shift', 'C103_signs')
claim('C104', 'proved', "REFUTED in general (a new vector is never read back, nor a global one in most frames with a warp); the exact condition is proved, for any global motion in C104_any_motion_exactly. With segmentation a block needs the skip feature and nothing is written (C104_segment_*). The contexts of the decoder are assumed to be those of the encoder (see C62 for when they are), and the list of the decoder is a parameter.",
      'C104_motion_exactly', 'C104_new_vector_refuted', 'C104_any_motion_exactly', 'C104_global_warp_exactly', 'C104_warp_refuted', 'C104_segment_panics', 'C104_segment_exactly')
claim('C105', 'proved', "For all sessions and arguments of the arithmetic coder and the header codecs; the rest of the encoder is C107.",
      'C105_debug_is_the_model', 'C105_sessions_agree', 'C105_codecs_agree', 'C105_release_round_trip')
claim('C106', 'proved', "REFUTED for uvlc, ns and le, with the exact value that is read back; holds for su up to 64 bits.",
      'C106_uvlc', 'C106_silent_uvlc_refuted', 'C106_su', 'C106_ns', 'C106_silent_ns_refuted', 'C106_le', 'C106_le_exactly')
claim('C107', 'proved', "For all arguments. The code of a block, where it is a parameter of the model, is assumed to agree in the same sense.",
      'C107_debug_is_the_model', 'C107_headers_agree', 'C107_tiles_agree', 'C107_streams_agree')
claim('C108', 'proved', "REFUTED for one frame or more with a width or height of 1 or 2, and only there; the output of the release build is given for every accepted size.",
      'C108_differs_iff', 'C108_release_output', 'C108_small_refuted')
claim('C109', 'proved', "For all frames, tiles and block coders, under the hypotheses of C37, C67, C88 and C89.",
      'C109_tile_group_never', 'C109_tile_never', 'C109_first_tile_hangs', 'C109_header_needs', 'C109_header_starts')
claim('C110', 'proved', "REFUTED: a split of a block of 16 or 128 is read as no split, blocks of 32 and 64 panic. The outcome is exact for all valid tables, coders and block sizes.",
      'C110_split_or_horz', 'C110_split_or_vert', 'C110_refuted')
claim('C111', 'proved', "REFUTED for large deltas and for differences that are no multiple of the resolution; the exact condition is proved for all blocks and states.",
      'C111_deltas_exactly', 'C111_once', 'C111_level_exactly', 'C111_large_refuted')
claim('C112', 'proved', "REFUTED: index and vectors are coded by the mode of the last block with one reference; the exact condition is proved for all blocks; with at least two candidates no mode with a new vector meets it. With fewer (C112_few_exactly) the list of the decoder is any of two entries.",
      'C112_pair_exactly', 'C112_any_motion_exactly', 'C112_few_exactly', 'C112_old_mode', 'C112_refuted')
claim('C113', 'proved', "For all blocks and palettes, on bits. Nothing in the encoder calls the two writers; the calls are those the order of the specification asks for, and the first colour, which is no symbol, is taken as known.",
      'C113_order', 'C113_calls_legal', 'C113_round_trip', 'C113_wrong_hash')
claim('C114', 'proved', "For all programs that read elements one by one (`prog`), and every reader of the earlier properties is shown to be one. For inter blocks, with or without segmentation, the contexts are in the ranges the tables have (`motion_ranges`). C114_deltas is an equivalence. The other direction for motion is shown for the witnesses of C104 and C112 (the `_refuted` theorems): wrongly coded elements can in principle be decoded into the right value by accident.",
      'C114_elements_to_bits', 'C114_readers', 'C114_more_readers', 'C114_motion', 'C114_deltas', 'C114_deltas_refuted', 'C114_new_vector_refuted', 'C114_pair_refuted')
claim('C115', 'proved', "For all differences, on bits, and the converse. The encoder itself writes only the joint type (C63); the calls are those the syntax asks for.",
      'C115_every_difference', 'C115_no_other')
claim('C116', 'proved', "REFUTED for every component that one would expect to be read back; what is read instead is given exactly.",
      'C116_never', 'C116_panics_iff', 'C116_read_as', 'C116_small')
claim('C117', 'proved', "REFUTED: the list is not cleared; the vector is the block's own exactly if there is a candidate for its mode. Witness: two blocks in a row.",
      'C117_not_cleared', 'C117_own_iff', 'C117_leftover_exactly', 'C117_refuted')
claim('C118', 'proved', "REFUTED in its last sentence: the size does not stop the decoder, which reads on beyond the segment (C118_past_end_refuted); it has no influence at all (C118_size_ignored), and exit_decoder finds its end only if nothing or all of it was read (C118_exit_exactly). All else is proved for all bits; sessions up to 2^26 symbols, beyond which the 32-bit count of bits may overflow.",
      'C118_any_bits', 'C118_panics_iff_cut_short', 'C118_any_parser', 'C118_any_fields', 'C118_any_uvlc', 'C118_past_end_refuted', 'C118_size_ignored', 'C118_size_ignored_long', 'C118_size_ignored_parser', 'C118_exit_exactly')
claim('C119', 'proved', "For superblocks, blocks and frames that are coded without a panic; the units of a superblock are those of 5.11.57, in any frame with unit sizes from 8 (lr_sizes_ok).",
      'C119_superblock', 'C119_frame', 'C119_block', 'C119_state', 'C119_grain', 'C119_grain_loaded', 'C119_grain_own')
claim('C120', 'proved', "For the syntax writers of bool_coder.rs (the calls of C45); the adaptation itself is the rule of C47.",
      'C120_own_row', 'C120_history', 'C120_order', 'C120_decoder')
claim('C121', 'proved', "REFUTED: an option after a frame rate N/D is lost (as in C31). With such a frame rate only at the end it is proved for all orders.",
      'C121_order_refuted', 'C121_order', 'C121_program', 'C121_repeated')
claim('C122', 'proved', "REFUTED: process::exit drops nothing, so the buffered bytes are lost and the file is empty after a read error; exactly then (C122_file_iff, sizes from 3x3 on, others panic). Output to a file only; standard output is not modelled.",
      'C122_kept_refuted', 'C122_file_iff', 'C122_stops_at_error', 'C122_held_back')
claim('C123', 'proved', "REFUTED: accepted sizes below 3 crash; all crashes are listed (C123_crash_iff), everything else is proved. Files that cannot be opened and errors on writing are not modelled.",
      'C123_accepted_runs_refuted', 'C123_crash_iff', 'C123_ends')
claim('C124', 'proved', "For every transform size and scan position, in the release reading of the model (BuildEncModel).",
      'C124_context', 'C124_coded')
claim('C125', 'proved', "For every valid CDF state, in the release reading of the model (BuildEncModel).",
      'C125_inside', 'C125_angle', 'C125_cfl_v')
claim('C126', 'proved', "For every string as flag and every list of arguments.",
      'C126_listed', 'C126_same')
