{
 "claims": [
  {
   "property": "C01",
   "status": "proved",
   "theorems": [
    "C01_list_behaves_as_sequence"
   ],
   "note": "All histories with fewer than 2^32 insertions refine the plain sequence; no undefined behaviour."
  },
  {
   "property": "C02",
   "status": "proved",
   "theorems": [
    "C02_handles_are_byte_strings",
    "C02_cat_leaves_others",
    "C02_self_cat_refuted",
    "C02_cat_4GiB_refuted"
   ],
   "note": "Every valid history of handle calls behaves as byte strings. Two corner cases where the code violates the claim (concatenating a handle to itself, sizes reaching 2^32) are proved as refutations."
  },
  {
   "property": "C03",
   "status": "proved",
   "theorems": [
    "C03_stream_reads",
    "C03_stream_reads_forward",
    "C03_memory_rewind_refuted",
    "C03_readers_match_streams"
   ],
   "note": "All histories of reads, skips and rewinds. Rewinding a memory stream past its start is not rejected by the code: refuted."
  },
  {
   "property": "C04",
   "status": "proved",
   "theorems": [
    "C04_header_32bit",
    "C04_header_64bit",
    "C04_full_header",
    "C04_size0_large_refuted"
   ],
   "note": "Every header written is read back. Size field 0 in a stream of 2^32 bytes or more is misread by the code (refuted)."
  },
  {
   "property": "C05",
   "status": "proved",
   "theorems": [
    "C05_parse_terminates_inside",
    "C05_bound_irrelevant",
    "C05_steps_bounded_refuted"
   ],
   "note": "For every byte string and every family of robust box codecs. The step bound is false for boxes with a 64-bit size field: proved as a refutation."
  },
  {
   "property": "C06",
   "status": "proved",
   "theorems": [
    "C06_tree_round_trip",
    "C06_truncated_tree_rejected"
   ],
   "note": "Every legal tree of the generic containers (moov trak mdia minf dinf edts stbl iprp ipco schi rinf jp2h), opaque, uuid, free boxes and any exact box codecs."
  },
  {
   "property": "C07",
   "status": "proved",
   "theorems": [
    "C07_times_are_sums",
    "C07_long_run_refuted"
   ],
   "note": "Every history of additions, extensions and lookups within the stated bounds. Totals of 2^32 or more are outside the claim (witness proved)."
  },
  {
   "property": "C08",
   "status": "proved",
   "theorems": [
    "C08_cache_transparent",
    "C08_lookup_order_irrelevant",
    "C08_stale_cache_refuted"
   ],
   "note": "Any lookup order on any fixed table, and any interleaving with additions when only existing samples are asked for. The code violates the claim when a sample beyond the end is asked for before the last run grows: refuted with a history."
  },
  {
   "property": "C09",
   "status": "proved",
   "theorems": [
    "C09_search_finds_covering_sample",
    "C09_covering_sample_unique",
    "C09_sample_number",
    "C09_forward_search",
    "C09_past_end",
    "C09_decoding_time_refuted",
    "C09_edge_search_refuted"
   ],
   "note": "Covering sample, duration and next start for every positive table and every time. 'Exact' and the decoding time are right only for the first sample of a run: characterised exactly and refuted elsewhere."
  },
  {
   "property": "C10",
   "status": "proved",
   "theorems": [
    "C10_offset_per_sample",
    "C10_late_offsets_refuted"
   ],
   "note": "All batch histories in which offsets, if used, are used from the first batch on. If the first batches come without offsets the code shifts the offsets to the wrong samples: refuted."
  },
  {
   "property": "C41",
   "status": "proved",
   "theorems": [
    "C41_summary_bounds",
    "C41_gap_refuted"
   ],
   "note": "All histories whose batches all carry offsets. Batches without offsets are not reported to the summary by the code: refuted."
  },
  {
   "property": "C11",
   "status": "proved",
   "theorems": [
    "C11_size_per_sample",
    "C11_reread_empty_refuted"
   ],
   "note": "All histories from a new table. A table read back empty and then extended loses sizes in the code: refuted."
  },
  {
   "property": "C12",
   "status": "proved",
   "theorems": [
    "C12_size_box_round_trip",
    "C12_same_sizes",
    "C12_histories_round_trip",
    "C12_too_wide_refuted",
    "C12_count_refuted"
   ],
   "note": "All tables and field widths 4, 8, 16, 32. Reading a table announcing 2^32-1 samples is undefined behaviour in the code: refuted."
  },
  {
   "property": "C16",
   "status": "proved",
   "theorems": [
    "C16_sync_as_marked",
    "C16_null_after_table_refuted",
    "C16_unordered_list_refuted",
    "C16_reread_empty_refuted"
   ],
   "note": "All batch histories where lists are ascending and, once a non-sync sample occurred, every batch says which samples are sync. The other cases are violated by the code: three refutations."
  },
  {
   "property": "C18",
   "status": "proved",
   "theorems": [
    "C18_stts_round_trip",
    "C18_ctts_round_trip",
    "C18_ctts_same_answers",
    "C18_cslg_round_trip",
    "C18_stss_round_trip",
    "C18_stss_same_answers",
    "C18_stss_count_refuted",
    "C18_stss_no_ub",
    "C18_stsh_round_trip",
    "C18_sdtp_round_trip",
    "C18_stdp_round_trip",
    "C18_padb_round_trip",
    "C18_padb_count_refuted"
   ],
   "note": "stts, ctts, cslg, stss, stsh, sdtp, stdp, padb."
  },
  {
   "property": "C42",
   "status": "proved",
   "theorems": [
    "C42_dependency_flags",
    "C42_before_start_refuted"
   ],
   "note": "All histories within the stated bounds; an index before the first sample writes out of bounds in the code: refuted."
  },
  {
   "property": "C43",
   "status": "proved",
   "theorems": [
    "C43_padding_per_sample",
    "C43_tables_writable",
    "C18_padb_round_trip"
   ],
   "note": "All batch histories."
  },
  {
   "property": "C13",
   "status": "proved",
   "theorems": [
    "C13_sample_to_chunk",
    "C13_description",
    "C13_one_description",
    "C13_description_refuted",
    "C13_empty_chunk_refuted",
    "C13_stsc_round_trip",
    "C13_same_chunks"
   ],
   "note": "Chunk number and first sample for every table, every growth history and every lookup order. The description index is that of the sample before, so wrong for the first sample of a chunk whose description differs from the previous chunk's: characterised and refuted."
  },
  {
   "property": "C14",
   "status": "proved",
   "theorems": [
    "C14_promotion",
    "C14_offsets_round_trip",
    "C14_offsets_in_order"
   ],
   "note": "Every list of 64-bit offsets that fits a box."
  },
  {
   "property": "C15",
   "status": "proved",
   "theorems": [
    "C15_save_keeps_movie",
    "C15_offsets_point_to_data",
    "C15_open_after_save",
    "C15_outside_refuted",
    "C15_saio_refuted",
    "C15_late_promotion_refuted",
    "C15_large_header_refuted"
   ],
   "note": "All movies with any number of tracks whose own chunks lie in the media data, head boxes below 2 GiB. Chunks outside, auxiliary information offsets, offsets pushed over 4 GiB and 2 GiB heads are violated by the code: four refutations."
  },
  {
   "property": "C38",
   "status": "proved",
   "theorems": [
    "C38_media_data_history",
    "C38_append_keeps",
    "C38_box_round_trip",
    "C38_size_wrap_refuted"
   ],
   "note": "All histories of appends and reads; box round trip below 2 GiB. The size field wraps for data of 2^32-8 to 2^32-1 bytes: refuted."
  },
  {
   "property": "C44",
   "status": "proved",
   "theorems": [
    "C44_media_data_merged",
    "C44_same_bytes",
    "C44_far_data_refuted"
   ],
   "note": "Any number of media data boxes in the first 2 GiB of a file; beyond that the code moves offsets the wrong way: refuted."
  },
  {
   "property": "C17",
   "status": "proved",
   "theorems": [
    "C17_samples_read_back",
    "C17_sample_at_time",
    "C17_empty_by_time_refuted",
    "C17_sizes_unchecked_refuted"
   ],
   "note": "Any number of tracks, any interleaving of batches and reads, by number and by time. Sizes whose sum differs from the data are not checked by the code and an empty sample cannot be fetched by time: both refuted."
  },
  {
   "property": "C19",
   "status": "proved",
   "theorems": [
    "C19_language_round_trip",
    "C19_codes_are_distinct",
    "C19_language_survives_write_and_read",
    "C19_upper_case_refuted"
   ],
   "note": "All triples in the packable range 96..127, also through the media header box."
  },
  {
   "property": "C37",
   "status": "proved",
   "theorems": [
    "C37_mvhd_round_trip",
    "C37_tkhd_round_trip",
    "C37_mdhd_round_trip",
    "C37_new_headers_round_trip",
    "C37_late_times_refuted"
   ],
   "note": "All field values in both versions. New headers always have version 0: times of 2^32 and more are cut off, refuted for every such time."
  },
  {
   "property": "C45",
   "status": "proved",
   "theorems": [
    "C45_smhd_round_trip",
    "C45_hmhd_round_trip",
    "C45_nmhd_round_trip",
    "C45_odhd_round_trip",
    "C45_crhd_round_trip",
    "C45_sdhd_round_trip",
    "C45_vvhd_round_trip",
    "C45_mfhd_round_trip",
    "C45_trex_round_trip",
    "C45_pitm_round_trip",
    "C45_mere_round_trip",
    "C45_prft_round_trip",
    "C45_frma_round_trip",
    "C45_pcmC_round_trip",
    "C45_vmhd_round_trip",
    "C45_tfdt_round_trip",
    "C45_btrt_round_trip",
    "C45_fixed_boxes_robust"
   ],
   "note": "All field values; the parsers on any input."
  },
  {
   "property": "C20",
   "status": "proved",
   "theorems": [
    "C20_edit_list_round_trip",
    "C20_same_edits",
    "C20_edit_list_robust",
    "C20_long_segment_refuted"
   ],
   "note": "All edit lists in both versions. New lists always have version 0: longer segments are cut off, refuted."
  },
  {
   "property": "C21",
   "status": "proved",
   "theorems": [
    "C21_segment_times",
    "C21_offset_set_get",
    "C21_offset_keeps_edits",
    "C21_insertions_become_segments",
    "C21_track_lasts_as_its_segments",
    "C21_last_segment",
    "C21_no_edits",
    "C21_fractions_refuted",
    "C21_later_segment_refuted",
    "C21_empty_edit_refuted"
   ],
   "note": "Segments, offsets and durations for all lists. The time map only without edits and inside the last segment at whole seconds; three refutations show how it fails elsewhere."
  },
  {
   "property": "C24",
   "status": "proved",
   "theorems": [
    "C24_group_per_sample",
    "C24_outside_rejected",
    "C24_track_groups",
    "C24_before_start_refuted",
    "C24_wrap_refuted"
   ],
   "note": "All histories, also of whole tracks with several group types and descriptions. Two kinds of ranges outside the table are not rejected by the code: refuted."
  },
  {
   "property": "C25",
   "status": "proved",
   "theorems": [
    "C25_sbgp_round_trip",
    "C25_runs",
    "C25_same_groups",
    "C25_histories_round_trip",
    "C25_empty_refuted",
    "C25_long_run_refuted"
   ],
   "note": "All maps with at least one sample whose box is below 4 GiB."
  },
  {
   "property": "C26",
   "status": "proved",
   "theorems": [
    "C26_patterns_lossless",
    "C26_fields_wide_enough",
    "C26_csgp_round_trip",
    "C26_same_groups",
    "C26_histories_fit",
    "C26_short_tables",
    "C26_auto_is_shorter",
    "C26_many_patterns_refuted",
    "C26_saved_again_refuted",
    "C26_after_save_refuted",
    "C26_reader_refuted"
   ],
   "note": "The pattern search for every table; the box round trip down to the packed bits for up to 34 patterns. Four ways in which the code loses or overruns are refuted."
  },
  {
   "property": "C27",
   "status": "proved",
   "theorems": [
    "C27_descriptions_stable",
    "C27_addition",
    "C27_bad_index",
    "C27_sgpd_round_trip",
    "C27_sgpd_robust",
    "C27_merge",
    "C27_merge_new",
    "C27_empty_refuted",
    "C27_other_versions_refuted"
   ],
   "note": "All sequences of additions; also the joining of a fragment's descriptions with the track's."
  },
  {
   "property": "C46",
   "status": "proved",
   "theorems": [
    "C46_run_ends",
    "C46_numbers",
    "C46_members",
    "C46_missing_refuted",
    "C46_empty_refuted"
   ],
   "note": "What is listed is characterised for every map; that neighbours are missing is refuted."
  },
  {
   "property": "C35",
   "status": "proved",
   "theorems": [
    "C35_information_per_sample",
    "C35_second_setup_rejected",
    "C35_saiz_round_trip",
    "C35_saio_round_trip",
    "C35_boxes_robust",
    "C35_boxes_writable",
    "C35_merge_sizes",
    "C35_merge_offsets",
    "C35_individual_sizes_overrun_refuted",
    "C35_far_offsets_refuted",
    "C35_long_information_refuted",
    "C35_refused_call_refuted",
    "C35_missing_offsets_refuted"
   ],
   "note": "All histories of set-up, addition and other media data; boxes, their joining, and five failures of the code."
  },
  {
   "property": "C22",
   "status": "proved",
   "theorems": [
    "C22_header_round_trip",
    "C22_run_round_trip",
    "C22_traf_round_trip",
    "C22_moof_round_trip",
    "C22_robust"
   ],
   "note": "All flag combinations, also the boxes around them: track fragment and movie fragment with any number of runs, groups and auxiliary information."
  },
  {
   "property": "C23",
   "status": "proved",
   "theorems": [
    "C23_defaults_lossless",
    "C23_movie_in_fragments_reads_back",
    "C23_sync_after_other_refuted",
    "C23_late_offset_refuted",
    "C23_padding_refuted",
    "C23_one_offset_refuted",
    "C23_empty_run_refuted",
    "C23_description_refuted",
    "C23_implied_offset_refuted",
    "C23_implied_base_refuted",
    "C23_unknown_track_refuted"
   ],
   "note": "Per fragment for every set of defaults, and end to end: any movie written in any number of fragments to any tracks is read back, sample data included. Nine failures of the code are refuted."
  },
  {
   "property": "C31",
   "status": "proved",
   "theorems": [
    "C31_track_ids_unique",
    "C31_new_movie_sound",
    "C31_chosen_id",
    "C31_automatic_id",
    "C31_found_by_id",
    "C31_last_id_refuted",
    "C31_lying_file_refuted"
   ],
   "note": "Id 2^32-1 wraps the next id to 0 (C31_last_id_refuted); files with a wrong next id are excluded (C31_lying_file_refuted)."
  },
  {
   "property": "C39",
   "status": "proved",
   "theorems": [
    "C39_references",
    "C39_index_is_stable",
    "C39_same_again",
    "C39_box_round_trip",
    "C39_type_box_round_trip",
    "C39_robust",
    "C39_asking_is_safe",
    "C39_same_again_index_refuted",
    "C39_type_zero_refuted"
   ],
   "note": "The index returned for an id added again is wrong unless it is the last one (C39_same_again_index_refuted)."
  },
  {
   "property": "C47",
   "status": "proved",
   "theorems": [
    "C47_group_last_set",
    "C47_group_add_succeeds",
    "C47_box_round_trip",
    "C47_robust",
    "C47_type_zero_refuted"
   ],
   "note": "Type 0 excluded (C47_type_zero_refuted)."
  },
  {
   "property": "C28",
   "status": "proved",
   "theorems": [
    "C28_round_trip",
    "C28_widths_wide_enough",
    "C28_widths_narrowest",
    "C28_any_widths",
    "C28_moved_after_sizing",
    "C28_any_input",
    "C28_item_data_round_trip",
    "C28_item_data_any_input",
    "C28_position_cut_refuted"
   ],
   "note": "All boxes and all inputs; a position moved past 4 GiB after the width was chosen is cut (C28_position_cut_refuted)."
  },
  {
   "property": "C29",
   "status": "proved",
   "theorems": [
    "C29_data_read_back",
    "C29_in_item_data",
    "C29_in_media_data",
    "C29_parts",
    "C29_reopened",
    "C29_later_item_misread",
    "C29_later_item_refuted",
    "C29_mixed_kinds_refuted",
    "C29_empty_piece_refuted",
    "C29_part_of_itself_refuted",
    "C29_untrusted_refuted",
    "C29_saved_position_refuted"
   ],
   "note": "All interleavings for items in the item data box, made of other items, or first in the media data. What later items in the media data read instead is characterised for all histories (C29_later_item_misread)."
  },
  {
   "property": "C30",
   "status": "proved",
   "theorems": [
    "C30_ids_distinct",
    "C30_automatic_fresh",
    "C30_zero_refused",
    "C30_in_use_accepted_refuted",
    "C30_in_use_refuted",
    "C30_after_the_last_refuted",
    "C30_reopened_refuted"
   ],
   "note": "Ids in use are accepted by the code (C30_in_use_accepted_refuted, for every state); distinctness holds when no chosen id is in use."
  },
  {
   "property": "C48",
   "status": "proved",
   "theorems": [
    "C48_references_kept",
    "C48_reference_leads_to_item",
    "C48_large_round_trip",
    "C48_written_as_specified",
    "C48_second_list_refuted",
    "C48_lost_references_refuted",
    "C48_empty_list_refuted",
    "C48_too_many_refuted",
    "C48_number_zero_refuted",
    "C48_small_read_refuted"
   ],
   "note": "All histories in which several references at once come first for their type."
  },
  {
   "property": "C40",
   "status": "proved",
   "theorems": [
    "C40_properties_kept",
    "C40_round_trip",
    "C40_robust",
    "C40_saved_associations",
    "C40_reopened",
    "C40_none_associated_refuted",
    "C40_wide_essential_refuted",
    "C40_wide_file_refuted",
    "C40_property_128_refuted",
    "C40_associations_256_refuted",
    "C40_property_65536_refuted"
   ],
   "note": "All histories of associations of fewer than 65536 properties; every association box in both versions and both index widths within the stated bounds; reopening for fewer than 128 properties."
  },
  {
   "property": "C36",
   "status": "proved",
   "theorems": [
    "C36_sidx_round_trip",
    "C36_reference_fields",
    "C36_sidx_bytes",
    "C36_sidx_robust",
    "C36_sidx_size_refuted",
    "C36_sidx_read_refuted",
    "C36_sidx_overrun_refuted",
    "C36_size_mask_refuted",
    "C36_ssix_reads",
    "C36_ssix_round_trip",
    "C36_ssix_robust",
    "C36_level_refuted",
    "C36_few_ranges_refuted",
    "C36_two_subsegments_refuted",
    "C36_repeated_range_refuted"
   ],
   "note": "The property is largely false of the code. What holds is proved: the bits of a single reference, an index without references, reading of every correct subsegment index, writing of subsegment indices with level 0 and equal ranges. Each departure is a universal refutation."
  },
  {
   "property": "C49",
   "status": "proved",
   "theorems": [
    "C49_added_returned",
    "C49_round_trip",
    "C49_robust",
    "C49_reopened",
    "C49_empty_entry_refuted",
    "C49_65536_refuted",
    "C49_priority_refuted",
    "C49_second_box_refuted",
    "C49_short_array_refuted"
   ],
   "note": "All histories of additions and flag changes; reopening for entries with 1 to 65535 sub-samples and 8-bit priorities and discardable fields."
  },
  {
   "property": "C32",
   "status": "proved",
   "theorems": [
    "C32_length_round_trip",
    "C32_length_any_form",
    "C32_descriptor_round_trip",
    "C32_cut_descriptor_rejected",
    "C32_rewritten_the_same",
    "C32_added_descriptors",
    "C32_second_refused",
    "C32_reader_total",
    "C32_longer_than_input_rejected",
    "C32_copy",
    "C32_esds_round_trip",
    "C32_iods_round_trip",
    "C32_iods_set_once",
    "C32_long_length_refuted",
    "C32_tool_description_refuted",
    "C32_longer_than_input_accepted_refuted",
    "C32_wrapped_size_accepted_refuted",
    "C32_priority_refuted",
    "C32_predefined_refuted",
    "C32_predefined_duration_refuted",
    "C32_url_drops_descriptors_refuted",
    "C32_copy_error_lost_refuted"
   ],
   "note": "all descriptor structures with nested descriptors to any depth; IPMP tools with parameters are not modelled beyond the undefined behaviour of their readers"
  },
  {
   "property": "C33",
   "status": "proved",
   "theorems": [
    "C34_readers_deliver_in_order",
    "C33_packet_at_time",
    "C33_giant_sample_refuted",
    "C33_configured_no_packets"
   ],
   "note": "Packets of readers: the k-th has number k mod 32 and opens to the flags, times and bytes of the access unit, in every history of readers, additions and reads. Packets by time: also the size before the bytes. Samples must leave room for the header in 32 bits (C33_giant_sample_refuted)."
  },
  {
   "property": "C34",
   "status": "proved",
   "theorems": [
    "C34_readers_deliver_in_order",
    "C34_whole_track",
    "C34_late_sample_refuted"
   ],
   "note": "Any number of readers on any tracks interleaved with additions and reads; each delivers the samples the track had when it was opened, in order, once, then the end. Object descriptor tracks are not modelled."
  },
  {
   "property": "C50",
   "status": "proved",
   "theorems": [
    "C50_edits_are_followed",
    "C50_edge_edits_refuted"
   ],
   "note": "plan and edits_ok are in ReaderSpec.v; the edits must lie in the media and not end with an empty one."
  },
  {
   "property": "C51",
   "status": "proved",
   "theorems": [
    "C51_items_by_key",
    "C51_malformed_items_refuted"
   ],
   "note": "Relative to the ordinary reader, whose results C34_whole_track and C50_edits_are_followed give."
  },
  {
   "property": "C52",
   "status": "proved",
   "theorems": [
    "C52_handler",
    "C52_url",
    "C52_language_tag",
    "C52_copyright",
    "C52_scheme",
    "C52_set_language_tag",
    "C52_handler_name_refuted",
    "C52_urn_exchanged_refuted",
    "C52_urn_resaved_refuted",
    "C52_second_language_tag_refuted"
   ],
   "note": "All texts and fields; handler names of at most 237 characters (127 in QuickTime form). Four departures of the code are refuted for every text."
  },
  {
   "property": "C53",
   "status": "proved",
   "theorems": [
    "C53_brands",
    "C53_file",
    "C53_zero_brand_refuted",
    "C53_no_brand_refuted"
   ],
   "note": "All histories."
  },
  {
   "property": "C54",
   "status": "proved",
   "theorems": [
    "C54_handler_name",
    "C54_url",
    "C54_alias",
    "C54_scheme",
    "C54_url_saved_refuted",
    "C54_language_tag_refuted",
    "C54_copyright_refuted"
   ],
   "note": "The property is false of the code; the theorems say exactly which contents break the readers of hdlr, url, alis and schm (if and only if), and what happens with unterminated locations and tags and an empty notice."
  },
  {
   "property": "C55",
   "status": "proved",
   "theorems": [
    "C55_descriptions",
    "C55_any_bytes",
    "C55_new_descriptions",
    "C55_reading_safe",
    "C55_tail_refuted",
    "C55_audio_tail_refuted",
    "C55_quicktime_sound_refuted"
   ],
   "note": "All histories; any codec of extension boxes that is faithful, and any faithful codec of further kinds of entries. Safety for all bytes, audio descriptions apart."
  },
  {
   "property": "C56",
   "status": "proved",
   "theorems": [
    "C56_dimensions",
    "C56_boxes",
    "C56_dimensions_refuted",
    "C56_boxes_refuted"
   ],
   "note": "All descriptions and values."
  },
  {
   "property": "C57",
   "status": "proved",
   "theorems": [
    "C57_added",
    "C57_references",
    "C57_reading_safe",
    "C57_urn_refuted"
   ],
   "note": "All histories; after reopening for references to this file and to url locations."
  },
  {
   "property": "C58",
   "status": "proved",
   "theorems": [
    "C58_save_and_open",
    "C58_no_media_refuted"
   ],
   "note": "All movies without metadata boxes, below 2 GiB; any faithful codecs of the boxes that do not take part, of sample entries and their extensions. Durations are taken to be up to date."
  },
  {
   "property": "C59",
   "status": "proved",
   "theorems": [
    "C59_samples_kept",
    "C59_sample_at_time",
    "C59_samples_added",
    "C59_saved",
    "C59_description_needed",
    "C59_offsets_refuted",
    "C59_no_sync_refuted",
    "C59_no_sample_refuted",
    "C59_padding_refuted"
   ],
   "note": "All histories over all movies without metadata boxes and with media data in the movie itself; batches with at least one byte. After the first saving: batches without composition offsets, to tracks with a sync sample; the others are refuted."
  },
  {
   "property": "C60",
   "status": "proved",
   "theorems": [
    "C60_history",
    "C60_round_trip",
    "C60_terminator",
    "C60_any_bytes",
    "C60_known_type_refuted",
    "C60_free_type_refuted"
   ],
   "note": "All histories; what is saved has types that the library has no reader for. The other types are refuted."
  },
  {
   "property": "C61",
   "status": "proved",
   "theorems": [
    "C61_hevc_description",
    "C61_config_boxes",
    "C61_any_avcC",
    "C61_without_vps_refuted",
    "C61_sps_alone_refuted",
    "C61_truncated_refuted",
    "C61_nine_arrays_refuted",
    "C61_profile_lost_refuted",
    "C61_short_avcC_refuted"
   ],
   "note": "The sequence parameter set is any bit string of the syntax, with emulation prevention; tables are the serialised handle."
  },
  {
   "property": "C62",
   "status": "proved",
   "theorems": [
    "C62_avc_description",
    "C62_avc_history",
    "C62_without_pps_refuted",
    "C62_chroma_refuted",
    "C62_extension_refuted",
    "C62_many_extensions_refuted",
    "C62_length_size_refuted"
   ],
   "note": "The reader does not remove emulation prevention; the set is as its bytes stand."
  },
  {
   "property": "C63",
   "status": "proved",
   "theorems": [
    "C63_vvc_description",
    "C63_vvc_history",
    "C63_subpicture_description",
    "C63_second_unit_refuted",
    "C63_subpicture_length_refuted",
    "C63_constraint_bits_refuted",
    "C63_sub_profile_refuted",
    "C63_eight_arrays_refuted",
    "C63_repeated_type_refuted",
    "C63_no_constraints_refuted"
   ],
   "note": "All histories of calls on the serialised handle."
  },
  {
   "property": "C64",
   "status": "proved",
   "theorems": [
    "C64_history",
    "C64_round_trip",
    "C64_quicktime",
    "C64_content_type_refuted",
    "C64_extension_type_refuted",
    "C64_name_lost_refuted",
    "C64_twice_refuted",
    "C64_hide_refuted",
    "C64_count_refuted",
    "C64_hostile_refuted"
   ],
   "note": "All other boxes of the meta box are any boxes with a faithful codec. Item information is set once per item; extension types read the same backwards."
  },
  {
   "property": "C65",
   "status": "proved",
   "theorems": [
    "C65_history",
    "C65_round_trip",
    "C65_no_scheme_refuted",
    "C65_address_refuted"
   ],
   "note": "Scheme information boxes are of types without their own reader."
  },
  {
   "property": "C66",
   "status": "proved",
   "theorems": [
    "C66_history",
    "C66_round_trip",
    "C66_hostile",
    "C66_rest_refuted",
    "C66_free_type_refuted"
   ],
   "note": "Same histories as C64."
  },
  {
   "property": "C67",
   "status": "proved",
   "theorems": [
    "C67_codec_parameters",
    "C67_protection",
    "C67_types",
    "C67_containers",
    "C67_video",
    "C67_audio",
    "C67_type_history",
    "C67_extension_history",
    "C67_meta_container",
    "C67_signature_refuted",
    "C67_image_header_refuted",
    "C67_bit_depths_refuted",
    "C67_colour_refuted",
    "C67_stereo_refuted",
    "C67_loudness_refuted",
    "C67_channels_refuted",
    "C67_downmix_refuted",
    "C67_segment_type_refuted",
    "C67_new_compatible_scheme_refuted",
    "C67_key_server_refuted"
   ],
   "note": "Child boxes are any boxes with a faithful codec."
  },
  {
   "property": "C68",
   "status": "proved",
   "theorems": [
    "C68_any_bytes",
    "C68_any_children",
    "C68_channels",
    "C68_loudness",
    "C68_stereo",
    "C68_no_bit_depths"
   ],
   "note": "Child boxes are any boxes with a robust reader."
  },
  {
   "property": "C69",
   "status": "proved",
   "theorems": [
    "C69_history",
    "C69_ids",
    "C69_ids_complete",
    "C69_keys_survive",
    "C69_other_boxes_kept",
    "C69_reading_safe",
    "C69_key_ids_refuted",
    "C69_short_value_refuted",
    "C69_empty_locale_refuted",
    "C69_uuid_refuted",
    "C69_quicktime_refuted",
    "C69_no_locale_refuted",
    "C69_other_kinds_refuted"
   ],
   "note": "Further boxes are any boxes with a faithful codec and types of their own."
  },
  {
   "property": "C70",
   "status": "proved",
   "theorems": [
    "C70_metadata",
    "C70_entries_survive",
    "C70_h263",
    "C70_amr",
    "C70_amrwp",
    "C70_timescale_refuted",
    "C70_long_string_refuted",
    "C70_two_strings_refuted"
   ],
   "note": ""
  },
  {
   "property": "C71",
   "status": "proved",
   "theorems": [
    "C71_isma",
    "C71_other_tracks",
    "C71_not_isma",
    "C71_twice_refuted",
    "C71_incomplete_refuted",
    "C71_parts_refuted"
   ],
   "note": "Boxes in the description are any boxes with a faithful codec that are read as they were written (no free space)."
  },
  {
   "property": "C72",
   "status": "proved",
   "theorems": [
    "C72_restricted",
    "C72_not_restricted",
    "C72_sets",
    "C72_nal_length",
    "C72_missing_refuted"
   ],
   "note": ""
  },
  {
   "property": "C73",
   "status": "proved",
   "theorems": [
    "C73_command",
    "C73_sample",
    "C73_reread",
    "C73_total",
    "C73_long_id_refuted",
    "C73_length_refuted"
   ],
   "note": ""
  },
  {
   "property": "C74",
   "status": "proved",
   "theorems": [
    "C74_add",
    "C74_read",
    "C74_history",
    "C74_same",
    "C74_one_sample",
    "C74_descriptor",
    "C74_no_configuration",
    "C74_beyond",
    "C74_known_stream_refuted",
    "C74_pointer_inside_refuted",
    "C74_errors_lost_refuted",
    "C74_model_total",
    "C74_unchecked_refuted",
    "C74_other_configuration_refuted"
   ],
   "note": "The descriptors the movie gives are a parameter of the theorems on reading; C74_descriptor says what the code makes of the media."
  },
  {
   "property": "C75",
   "status": "proved",
   "theorems": [
    "C75_new",
    "C75_root_od",
    "C75_fields",
    "C75_get",
    "C75_given_read",
    "C75_history",
    "C75_refused",
    "C75_no_box_refuted",
    "C75_root_od_read_refuted",
    "C75_failed_get_refuted",
    "C75_own_streams_refuted"
   ],
   "note": "The elementary stream descriptor of a track is a parameter; C74_descriptor says what it is."
  },
  {
   "property": "C76",
   "status": "proved",
   "theorems": [
    "C76_new",
    "C76_track",
    "C76_priority",
    "C76_add_descriptor",
    "C76_type",
    "C76_bitrate",
    "C76_priority_refuted",
    "C76_type_refuted",
    "C76_info_tag_refuted",
    "C76_info_error_refuted",
    "C76_content_refuted",
    "C76_unknown_type_refuted",
    "C76_other_descriptor_refuted"
   ],
   "note": "The codec of the other boxes and of the other kinds of entries are parameters; added descriptors are as a reader leaves them and have no tag from 74 to 95 (C76_content_refuted)."
  },
  {
   "property": "C77",
   "status": "proved",
   "theorems": [
    "C77_track_values",
    "C77_track",
    "C77_no_track_header",
    "C77_movie",
    "C77_movie_refusals",
    "C77_movie_values",
    "C77_graphics_mode",
    "C77_sound_balance",
    "C77_media_refusals",
    "C77_no_track_header_refuted",
    "C77_dimensions_refuted",
    "C77_graphics_mode_refuted",
    "C77_media_header_refuted"
   ],
   "note": ""
  },
  {
   "property": "C78",
   "status": "proved",
   "theorems": [
    "C78_media",
    "C78_track",
    "C78_movie",
    "C78_longest",
    "C78_end_edits",
    "C78_questions",
    "C78_movie_refuted",
    "C78_long_media_refuted",
    "C78_long_track_refuted",
    "C78_missing_refuted"
   ],
   "note": ""
  },
  {
   "property": "C79",
   "status": "proved",
   "theorems": [
    "C79_history",
    "C79_by_name",
    "C79_by_type",
    "C79_positions",
    "C79_data",
    "C79_primary_data",
    "C79_relation",
    "C79_untyped_refuted",
    "C79_short_data_refuted",
    "C79_nameless_refuted"
   ],
   "note": ""
  },
  {
   "property": "C80",
   "status": "proved",
   "theorems": [
    "C80_new_init",
    "C80_add_data",
    "C80_init_history",
    "C80_version_refused",
    "C80_new_tool",
    "C80_alternatives_refused",
    "C80_pointer",
    "C80_new_tool_descriptor",
    "C80_update_history",
    "C80_update_refused",
    "C80_many_pieces_refuted",
    "C80_many_alternatives_refuted",
    "C80_tool_unreadable_refuted",
    "C80_tool_descriptor_refuted",
    "C80_data_lost_refuted"
   ],
   "note": ""
  },
  {
   "property": "C81",
   "status": "proved",
   "theorems": [
    "C81_any_input",
    "C81_history_saved",
    "C81_first_defaults",
    "C81_first_fragment",
    "C81_no_defaults_no_fragment",
    "C81_delay",
    "C81_set_twice_refuted",
    "C81_set_after_read_refuted",
    "C81_continue_refuted",
    "C81_calls_in_fragment_refuted",
    "C81_lost_track_refuted",
    "C81_long_delay_refuted"
   ],
   "note": ""
  },
  {
   "property": "C82",
   "status": "proved",
   "theorems": [
    "C82_new",
    "C82_get",
    "C82_get_read",
    "C82_saved",
    "C82_same_type_refuted",
    "C82_get_absent_refuted",
    "C82_relation_level_refuted",
    "C82_relation_lost_refuted",
    "C82_relation_read_refuted"
   ],
   "note": ""
  },
  {
   "property": "C83",
   "status": "proved",
   "theorems": [
    "C83_history",
    "C83_references",
    "C83_extent_refused",
    "C83_read",
    "C83_whole",
    "C83_reading_order",
    "C83_missing",
    "C83_check",
    "C83_many_references_refuted",
    "C83_first_extent_refuted",
    "C83_unterminated_refuted",
    "C83_past_end_refuted"
   ],
   "note": "Items in other files only; items of this file are C29."
  },
  {
   "property": "C84",
   "status": "proved",
   "theorems": [
    "C84_history",
    "C84_mark_bits",
    "C84_description_refused",
    "C84_references",
    "C84_marks_read",
    "C84_leading_refuted",
    "C84_before_first_refuted",
    "C84_reference_sync_refuted",
    "C84_reference_offsets_refuted",
    "C84_reference_zero_refuted"
   ],
   "note": "Up to 2^28 samples in a fragment."
  },
  {
   "property": "C85",
   "status": "proved",
   "theorems": [
    "C85_one_description",
    "C85_inside_chunks",
    "C85_sample_before",
    "C85_after_end",
    "C85_new_description_refuted",
    "C85_at_end_refuted"
   ],
   "note": "Total time and sample count below 2^32; times after the end below 2^63."
  },
  {
   "property": "C86",
   "status": "proved",
   "theorems": [
    "C86_boxes_kept",
    "C86_told",
    "C86_refused_box_stays_refuted",
    "C86_known_type_refuted"
   ],
   "note": "For every set of boxes with exact codecs (C06); the movie below 4 GiB."
  },
  {
   "property": "C87",
   "status": "proved",
   "theorems": [
    "C87_read",
    "C87_sample_before",
    "C87_missing",
    "C87_check",
    "C87_tables",
    "C87_wrong_file_refuted",
    "C87_short_file_refuted"
   ],
   "note": "Files below 2 GiB that do not change meanwhile. C87_read covers samples that are not the first of a later chunk, and all samples when there is one description; for the others see the exception."
  },
  {
   "property": "C88",
   "status": "proved",
   "theorems": [
    "C88_last_settings",
    "C88_written",
    "C88_no_timestamps_refuted",
    "C88_start_times_refuted",
    "C88_predefined_refuted",
    "C88_wide_length_refuted"
   ],
   "note": "Settings within the widths of their fields."
  }
 ]
}