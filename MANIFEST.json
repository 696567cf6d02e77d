{
 "claims": [
  {
   "property": "C01",
   "status": "proved",
   "theorems": [
    "C01_transmitted_blocks_recognised",
    "C01_only_transmitted_blocks_recognised"
   ],
   "note": "Transmitter specified by polynomial division in Spec/RdsCode.v."
  },
  {
   "property": "C02",
   "status": "proved",
   "theorems": [
    "C02_short_bursts_corrected"
   ],
   "note": "The error flag of corrected blocks is part of C08."
  },
  {
   "property": "C03",
   "status": "proved",
   "theorems": [
    "C03_correction_sound",
    "C03_failure_changes_nothing",
    "C03_correction_iff"
   ],
   "note": ""
  },
  {
   "property": "C04",
   "status": "proved",
   "theorems": [
    "C04_long_bursts_not_corrected",
    "C04_bursts_detected"
   ],
   "note": ""
  },
  {
   "property": "C05",
   "status": "proved",
   "theorems": [
    "C05_sync_needs_three_blocks_in_rhythm",
    "C05_distances"
   ],
   "note": "Distances are exact for streams below 2^32 bits, modulo 2^32 beyond (32-bit bit counter)."
  },
  {
   "property": "C06",
   "status": "proved",
   "theorems": [
    "C06_sync_kept_iff_at_most_42_of_50",
    "C06_never_lost_inside_a_block",
    "C06_error_window_index_in_range"
   ],
   "note": ""
  },
  {
   "property": "C07",
   "status": "proved",
   "theorems": [
    "C07_error_free_groups_delivered"
   ],
   "note": ""
  },
  {
   "property": "C08",
   "status": "proved",
   "theorems": [
    "C08_correctable_errors_delivered"
   ],
   "note": ""
  },
  {
   "property": "C09",
   "status": "proved",
   "theorems": [
    "C09_lock_on"
   ],
   "note": "States the guarantee for receivers that have not locked on to something else before."
  },
  {
   "property": "C10",
   "status": "proved",
   "theorems": [
    "C10_one_group_per_104_bits"
   ],
   "note": ""
  },
  {
   "property": "C11",
   "status": "proved",
   "theorems": [
    "C11_buffering",
    "C11_chunking_bits"
   ],
   "note": "Same lines and same channel state for any two ways of feeding the same bits (times of reception not shown); C11_chunking_bits is the same for the groups of one bit stream."
  },
  {
   "property": "C12",
   "status": "proved",
   "theorems": [
    "C12_type_known_only_when_received"
   ],
   "note": ""
  },
  {
   "property": "C13",
   "status": "proved",
   "theorems": [
    "C13_pi_from_received_block"
   ],
   "note": ""
  },
  {
   "property": "C14",
   "status": "proved",
   "theorems": [
    "C14_hex_output_read_back"
   ],
   "note": "Stream numbers 0..3; a time format whose result contains no line feed."
  },
  {
   "property": "C15",
   "status": "proved",
   "theorems": [
    "C15_three_equal_codes_select_the_station",
    "C15_only_three_equal_codes_change_the_station",
    "C15_pi_zero_refuted"
   ],
   "note": "The refutation shows that the exclusion of PI 0000 is needed."
  },
  {
   "property": "C16",
   "status": "proved",
   "theorems": [
    "C16_lines_only_after_confirmation"
   ],
   "note": ""
  },
  {
   "property": "C17",
   "status": "proved",
   "theorems": [
    "C17_no_leftovers"
   ],
   "note": ""
  },
  {
   "property": "C18",
   "status": "proved",
   "theorems": [
    "C18_second_group_without_pi_not_printed",
    "C18_group_without_pi_follows_one_with_pi",
    "C18_empty_groups_not_printed",
    "C18_empty_groups_not_printed_as_hex"
   ],
   "note": ""
  },
  {
   "property": "C19",
   "status": "proved",
   "theorems": [
    "C19_error_rate"
   ],
   "note": ""
  },
  {
   "property": "C20",
   "status": "proved",
   "theorems": [
    "C20_demodulated_times_never_decrease",
    "C20_group_times",
    "C20_clock_going_back_refuted"
   ],
   "note": "Demodulated audio: whatever the clock. Other inputs: while the clock does not go back; that this is needed is C20_clock_going_back_refuted."
  },
  {
   "property": "C21",
   "status": "proved",
   "theorems": [
    "C21_well_formed_lines",
    "C21_at_most_one_line_per_group"
   ],
   "note": ""
  },
  {
   "property": "C22",
   "status": "proved",
   "theorems": [
    "C22_no_call_fails"
   ],
   "note": "Assumes that the keys of the TMC service key table are within range (host_ok)."
  },
  {
   "property": "C23",
   "status": "proved",
   "theorems": [
    "C23_name_received_in_order_is_shown"
   ],
   "note": "Any history after which the station is confirmed; names without the 0x0D byte."
  },
  {
   "property": "C24",
   "status": "proved",
   "theorems": [
    "C24_complete_name",
    "C24_radiotext",
    "C24_unfinished_radiotext",
    "C24_complete_pty_name",
    "C24_complete_long_name",
    "C24_mixed_versions_refuted",
    "C24_enhanced_radiotext_refuted"
   ],
   "note": "The refutations show that the exceptions (2A and 2B groups mixed, enhanced RadioText) are needed."
  },
  {
   "property": "C25",
   "status": "proved",
   "theorems": [
    "C25_message_received_in_order_is_shown"
   ],
   "note": ""
  },
  {
   "property": "C26",
   "status": "proved",
   "theorems": [
    "C26_flag_change_clears",
    "C26_flag_change_clears_unfinished",
    "C26_changing_group_refuted"
   ],
   "note": "The refutation shows that the exception for the changing group is needed."
  },
  {
   "property": "C27",
   "status": "proved",
   "theorems": [
    "C27_not_mixed",
    "C27_mixed_name_refuted",
    "C27_radiotext_not_mixed",
    "C27_radiotext_beginning",
    "C27_cut_off_refuted"
   ],
   "note": "The claim without the exception (no mixture even before the first segment of the new name) is FALSE of the code: C27_mixed_name_refuted. For RadioText, a line for a first part may show a beginning of the message only, even if the message has an end mark: C27_cut_off_refuted."
  },
  {
   "property": "C28",
   "status": "proved",
   "theorems": [
    "C28_every_byte_is_one_character"
   ],
   "note": ""
  },
  {
   "property": "C29",
   "status": "proved",
   "theorems": [
    "C29_tags_are_the_tagged_characters",
    "C29_tags_shown_are_true",
    "C29_new_item_new_text",
    "C29_new_item_begins_without_tags",
    "C29_accented_edge_refuted",
    "C29_end_of_full_text_refuted"
   ],
   "note": "The two refutations show that the exclusions are needed: a tag that ends with an accented character is cut inside that character and its line is lost; a tag up to the last of 64 characters is not shown."
  },
  {
   "property": "C30",
   "status": "proved",
   "theorems": [
    "C30_partial_only_on_request",
    "C30_fields_only_on_request"
   ],
   "note": ""
  },
  {
   "property": "C31",
   "status": "proved",
   "theorems": [
    "C31_frequencies",
    "C31_other_codes_are_invalid",
    "C31_different_codes"
   ],
   "note": ""
  },
  {
   "property": "C32",
   "status": "proved",
   "theorems": [
    "C32_method_a"
   ],
   "note": ""
  },
  {
   "property": "C33",
   "status": "proved",
   "theorems": [
    "C33_method_b"
   ],
   "note": ""
  },
  {
   "property": "C34",
   "status": "proved",
   "theorems": [
    "C34_clock_time",
    "C34_invalid_times_reported",
    "C34_after_2100_refuted"
   ],
   "note": "For hosts whose local time zone has no daylight saving time (plain_clock); the refutation shows that the date range cannot be extended."
  },
  {
   "property": "C35",
   "status": "proved",
   "theorems": [
    "C35_programme_item",
    "C35_invalid_programme_item",
    "C35_hour_24_refuted"
   ],
   "note": "The refutation shows that an hour of 24 is shown too."
  },
  {
   "property": "C36",
   "status": "proved",
   "theorems": [
    "C36_callsign"
   ],
   "note": ""
  },
  {
   "property": "C37",
   "status": "proved",
   "theorems": [
    "C37_base64_round_trip"
   ],
   "note": ""
  },
  {
   "property": "C38",
   "status": "proved",
   "theorems": [
    "C38_file_received",
    "C38_nothing_else",
    "C38_old_size_refuted"
   ],
   "note": "C38_old_size_refuted shows that the condition on the size is needed: a new file is cut off at the size of the one before it until its own size arrives."
  },
  {
   "property": "C39",
   "status": "proved",
   "theorems": [
    "C39_only_complete_files"
   ],
   "note": ""
  },
  {
   "property": "C40",
   "status": "proved",
   "theorems": [
    "C40_checksum"
   ],
   "note": ""
  },
  {
   "property": "C41",
   "status": "proved",
   "theorems": [
    "C41_encrypted_single_group_message",
    "C41_encrypted_multi_group_message",
    "C41_encrypted_three_and_four_groups"
   ],
   "note": "Messages of three and four groups are shown with the fields of their second group only (C43), but with the true location."
  },
  {
   "property": "C42",
   "status": "proved",
   "theorems": [
    "C42_multi_group_message"
   ],
   "note": "The description text assembled from the event table is not covered."
  },
  {
   "property": "C43",
   "status": "proved",
   "theorems": [
    "C43_two_groups",
    "C43_five_groups",
    "C43_three_and_four_groups",
    "C43_three_groups_refuted",
    "C43_four_groups_refuted"
   ],
   "note": "The claim that messages of three and four groups show all their fields is FALSE of the code: the two refuted theorems."
  },
  {
   "property": "C44",
   "status": "proved",
   "theorems": [
    "C44_locations_stay_hidden",
    "C44_after_becoming_encrypted_refuted"
   ],
   "note": "The refutation shows that 'all system information received' is needed: a service that becomes encrypted can reveal a location."
  },
  {
   "property": "C45",
   "status": "proved",
   "theorems": [
    "C45_only_complete_messages",
    "C45_only_complete_encrypted_messages"
   ],
   "note": ""
  },
  {
   "property": "C46",
   "status": "proved",
   "theorems": [
    "C46_places_single_group_message",
    "C46_places_multi_group_message",
    "C46_places_three_and_four_groups"
   ],
   "note": ""
  },
  {
   "property": "C47",
   "status": "proved",
   "theorems": [
    "C47_ascii_bits",
    "C47_bit_at_end_of_input_refuted"
   ],
   "note": "The refutation shows that the exception for the end of the input is needed."
  },
  {
   "property": "C48",
   "status": "proved",
   "theorems": [
    "C48_hex_line",
    "C48_short_line_refuted"
   ],
   "note": "The refutation shows that the condition on the number of characters is needed."
  },
  {
   "property": "C49",
   "status": "proved",
   "theorems": [
    "C49_tef_line",
    "C49_error_flags_of_other_blocks_refuted"
   ],
   "note": "Exactly what the code does; that the flags are per block, as meant, is FALSE of the code: C49_error_flags_of_other_blocks_refuted."
  },
  {
   "property": "C50",
   "status": "proved",
   "theorems": [
    "C50_each_channel_its_samples",
    "C50_nothing_lost_of_one_channel",
    "C50_short_buffer_refuted"
   ],
   "note": "The refutation shows that the exception for a last short buffer of several channels is needed."
  },
  {
   "property": "C51",
   "status": "proved",
   "theorems": [
    "C51_differential_decoding"
   ],
   "note": ""
  },
  {
   "property": "C52",
   "status": "proved",
   "theorems": [
    "C52_biphase_decoder"
   ],
   "note": ""
  },
  {
   "property": "C53",
   "status": "proved",
   "theorems": [
    "C53_validated",
    "C53_channels_truncated_refuted",
    "C53_rate_nan_refuted"
   ],
   "note": "The exceptions are real: the two refuted theorems show the values that are accepted though they are out of range."
  },
  {
   "property": "C54",
   "status": "proved",
   "theorems": [
    "C54_csv",
    "C54_empty_line_refuted"
   ],
   "note": "The refutation shows that the exception for the empty line is needed."
  },
  {
   "property": "C55",
   "status": "proved",
   "theorems": [
    "C55_fields",
    "C55_fields_of_two_words",
    "C55_flags"
   ],
   "note": ""
  },
  {
   "property": "C56",
   "status": "proved",
   "theorems": [
    "C56_streams_isolated",
    "C56_channels_isolated",
    "C56_short_buffer_refuted"
   ],
   "note": "The refutation shows that the exception for a last short buffer is needed."
  },
  {
   "property": "C57",
   "status": "proved",
   "theorems": [
    "C57_supported_rates",
    "C57_no_exception",
    "C57_highest_rates_refuted"
   ],
   "note": "The claim for every accepted rate is FALSE of the code: C57_highest_rates_refuted. C57_supported_rates gives the boundary to 1 Hz, in the binary32 arithmetic of the code."
  },
  {
   "property": "C58",
   "status": "proved",
   "theorems": [
    "C58_latest_application_decodes",
    "C58_no_application_assigned"
   ],
   "note": ""
  },
  {
   "property": "C59",
   "status": "proved",
   "theorems": [
    "C59_cprime_errors",
    "C59_cprime_block_miscorrected_refuted"
   ],
   "note": "The claim without the two exceptions is FALSE of the code: C59_cprime_block_miscorrected_refuted."
  },
  {
   "property": "C60",
   "status": "proved",
   "theorems": [
    "C60_blocks_are_what_was_received"
   ],
   "note": ""
  },
  {
   "property": "C61",
   "status": "partial",
   "theorems": [
    "C61_time_of_one_channel",
    "C61_clock_ignored_refuted"
   ],
   "note": "FALSE of the code: with several channels the output does not depend on the clock at all (proved for every input of whole buffers)."
  },
  {
   "property": "C62",
   "status": "proved",
   "theorems": [
    "C62_what_every_line_says"
   ],
   "note": ""
  },
  {
   "property": "C63",
   "status": "proved",
   "theorems": [
    "C63_program_ends"
   ],
   "note": "Assumes libsndfile's limit of 1024 channels and at most two samples per sample from the resampler (audio_ok), and host_ok."
  },
  {
   "property": "C64",
   "status": "proved",
   "theorems": [
    "C64_every_line_well_formed",
    "C64_lines_come_from_channels"
   ],
   "note": "Same assumptions as C63."
  },
  {
   "property": "C65",
   "status": "proved",
   "theorems": [
    "C65_type_name_received_is_shown",
    "C65_long_name_received_is_shown"
   ],
   "note": ""
  },
  {
   "property": "C66",
   "status": "proved",
   "theorems": [
    "C66_only_received_blocks",
    "C66_dab_without_blocks_refuted",
    "C66_transparent_data_refuted",
    "C66_type_from_lost_block_refuted",
    "C24_enhanced_radiotext_refuted"
   ],
   "note": "The refutations show that each exclusion is needed: DAB cross-reference, enhanced RadioText, transparent data, and group types taken from a block 2 with errors (TEF input)."
  },
  {
   "property": "C67",
   "status": "proved",
   "theorems": [
    "C67_shown_as_received"
   ],
   "note": ""
  },
  {
   "property": "C68",
   "status": "proved",
   "theorems": [
    "C68_complete_list_is_whole",
    "C68_lost_groups_refuted"
   ],
   "note": "The claim for every pattern of lost groups is FALSE of the code: C68_lost_groups_refuted."
  },
  {
   "property": "C69",
   "status": "proved",
   "theorems": [
    "C69_single_group_message"
   ],
   "note": ""
  },
  {
   "property": "C70",
   "status": "proved",
   "theorems": [
    "C70_flags"
   ],
   "note": ""
  },
  {
   "property": "C71",
   "status": "proved",
   "theorems": [
    "C71_slow_labelling",
    "C71_european_countries"
   ],
   "note": "The names of languages and of countries outside Europe are those of the code's tables."
  },
  {
   "property": "C72",
   "status": "proved",
   "theorems": [
    "C72_other_network",
    "C72_variants",
    "C72_programme_item",
    "C72_medium_wave_refuted"
   ],
   "note": "The refutation: variant 9 carries a medium wave frequency; the code shows it as an FM frequency. The other network's name and frequency list are not covered."
  },
  {
   "property": "C73",
   "status": "proved",
   "theorems": [
    "C73_announcement"
   ],
   "note": ""
  },
  {
   "property": "C74",
   "status": "proved",
   "theorems": [
    "C74_transparent_data",
    "C74_in_house_data"
   ],
   "note": "The text assembled from several groups of type 5 is not covered."
  },
  {
   "property": "C75",
   "status": "proved",
   "theorems": [
    "C75_hex_recording",
    "C75_version_B_refuted",
    "C75_identification_in_block_3_refuted",
    "C75_after_a_missed_group_refuted"
   ],
   "note": "The refutations show that the conditions of the theorem are needed."
  },
  {
   "property": "C76",
   "status": "proved",
   "theorems": [
    "C76_name_from_bits",
    "C76_bits_as_groups"
   ],
   "note": ""
  },
  {
   "property": "C77",
   "status": "proved",
   "theorems": [
    "C77_feed_through",
    "C77_unchanged_refuted",
    "C77_audio_feed_through",
    "C77_not_for_files"
   ],
   "note": "The refutation shows that the extra byte is always there. For audio the theorem is about the samples handed to libsndfile; its conversion to 16-bit numbers is not modelled."
  },
  {
   "property": "C78",
   "status": "proved",
   "theorems": [
    "C78_options_calls",
    "C78_options_inputs",
    "C78_partial_long_name_refuted"
   ],
   "note": "The refutation shows that the exception for partial texts is needed. Audio input is covered by the statement about calls (Bits_in)."
  },
  {
   "property": "C79",
   "status": "proved",
   "theorems": [
    "C79_words_shown",
    "C79_incomplete",
    "C79_application_of_the_pipe"
   ],
   "note": ""
  },
  {
   "property": "C80",
   "status": "proved",
   "theorems": [
    "C80_complete_name",
    "C80_complete_frequencies",
    "C80_name_received_is_shown",
    "C80_frequencies_received_are_shown"
   ],
   "note": "names of eight characters without an end mark in the round trip; the network a name belongs to is the one in block 4 of the group"
  },
  {
   "property": "C81",
   "status": "proved",
   "theorems": [
    "C81_complete_text",
    "C81_complete_bytes",
    "C81_data_received_are_shown",
    "C81_raw_bytes_refuted"
   ],
   "note": "Blocks 3 and 4 of a 5A group are taken as they are even if they were not received (see C66). That full_raw shows the bytes as received is refuted: 00 and 0D become 20 and the data end at the first 0D."
  },
  {
   "property": "C82",
   "status": "proved",
   "theorems": [
    "C82_hex",
    "C82_bits_and_tuner",
    "C82_audio",
    "C82_last_line_of_bits_refuted",
    "C82_last_line_of_tuner_refuted",
    "C82_unfinished_line_refuted"
   ],
   "note": "At the level of the whole program (main). The last line of bit and tuner input, and a hexadecimal line cut within a number, are excluded by the statement; the three _refuted theorems show why."
  },
  {
   "property": "C83",
   "status": "proved",
   "theorems": [
    "C83_administration",
    "C83_other_networks",
    "C83_provider",
    "C83_provider_is_complete",
    "C83_frequencies_refuted"
   ],
   "note": "Under the assumptions of the other traffic message properties (the service is in group type 8A). The frequencies of other networks are excluded: C83_frequencies_refuted; C83_other_networks states exactly what is shown of them. C83_provider_is_complete holds for every run, without assuming that the station stays the same."
  },
  {
   "property": "C84",
   "status": "proved",
   "theorems": [
    "C84_text_received_is_shown",
    "C84_text_shown_is_complete",
    "C84_long_text_refuted"
   ],
   "note": "For texts in UTF-8 of at most 64 bytes (C84_text_received_is_shown: without RadioText Plus for Enhanced RadioText, which may clear the text between items; C95_tags_sent_are_shown covers that case). A longer text is shown cut off: C84_long_text_refuted. A group without block 3: C24_enhanced_radiotext_refuted."
  },
  {
   "property": "C85",
   "status": "proved",
   "theorems": [
    "C85_bits_recovered",
    "C85_streams_apart"
   ],
   "note": "Symbols are multiples of a power of two with 17-bit coefficients, so that binary32 arithmetic on them is exact; the demodulator itself (filters, PLL, symbol synchroniser of liquid-dsp) is an oracle."
  },
  {
   "property": "C86",
   "status": "proved",
   "theorems": [
    "C86_audio_as_groups",
    "C86_name_from_audio"
   ],
   "note": "For any demodulator (the liquid-dsp part is an arbitrary oracle). The gap hypothesis is needed because after 10 s out of sync the PI is forgotten; it holds trivially for inputs shorter than 11876 bits. Together with C85 (symbols to bits) and C76 this covers the way from symbols to lines."
  },
  {
   "property": "C87",
   "status": "proved",
   "theorems": [
    "C87_audio_with_losses",
    "C87_new_start_after_loss",
    "C87_old_label_refuted"
   ],
   "note": "The 10 s and 5 s comparisons in 32-bit floats are proved to be exactly 11875 bits and 855000 samples for all 32-bit counters. The refuted theorem shows the exclusion is needed: after a loss, a group carrying another PI code is printed under the old station's PI and completes the old station's name."
  },
  {
   "property": "C88",
   "status": "proved",
   "theorems": [
    "C88_accepted",
    "C88_refused",
    "C88_program",
    "C88_unknown_option_refuted"
   ],
   "note": "getopt_long itself is not modelled: the theorems range over its possible results. The refuted theorem records that an option that does not exist is answered like --help, with exit status 0."
  },
  {
   "property": "C89",
   "status": "proved",
   "theorems": [
    "C89_isolated_wrong_codes",
    "C89_two_wrong_codes_refuted"
   ],
   "note": "Without --show-raw, which shows the code as received. The refuted theorem shows that the condition is needed: after codes 1111, 3333 in succession the complete name of 2204 is forgotten."
  },
  {
   "property": "C90",
   "status": "proved",
   "theorems": [
    "C90_single_group_description",
    "C90_multi_group_description",
    "C90_one_description",
    "C90_code_without_meaning_refuted"
   ],
   "note": "Restricted to codes of quantities that have a meaning; the refutation shows that a time of code 0 is shown as 00:-10.  For encrypted services and for messages of three and four groups the same statement is part of shows_content in C41 and C43."
  },
  {
   "property": "C91",
   "status": "proved",
   "theorems": [
    "C91_keys_of_the_file",
    "C91_message_decrypted",
    "C91_long_message_decrypted",
    "C91_any_key_refuted"
   ],
   "note": "Files are lists of lines given by an oracle; the composite theorems are stated for messages of one, two and five groups. C91_any_key_refuted: a key with position 40 makes the shift undefined."
  },
  {
   "property": "C92",
   "status": "proved",
   "theorems": [
    "C92_tables_of_the_directories",
    "C92_message_placed",
    "C92_long_message_placed",
    "C92_texts_valid",
    "C92_unknown_road_refuted",
    "C92_converted_refuted"
   ],
   "note": "iconv is an oracle. Hypotheses of is_directory say what each row may look like (numbers in range, identifiers not 0); rows with other contents are not covered. Two refutations: points lost with their road, road numbers not converted."
  },
  {
   "property": "C93",
   "status": "proved",
   "theorems": [
    "C93_tables_then_groups",
    "C93_no_tables_without_option",
    "C93_unknown_encoding_refuted",
    "C93_names_counted_refuted",
    "C93_hex_only_groups_refuted"
   ],
   "note": "The theorem relates program (with files) to main (with given tables), so that all theorems about main apply."
  },
  {
   "property": "C94",
   "status": "proved",
   "theorems": [
    "C94_lists_loaded",
    "C94_all_known",
    "C94_always_loaded",
    "C94_texts_valid",
    "C94_event_described",
    "C94_quantity_shown",
    "C94_quantity_refuted"
   ],
   "note": "The lists are generated from events_data.cc (Model/EventData.v). For 29 codes the text with a quantity has no place for it, and the quantity of a message is lost (C94_quantity_refuted)."
  },
  {
   "property": "C95",
   "status": "proved",
   "theorems": [
    "C95_tags_shown_are_true",
    "C95_tags_sent_are_shown"
   ],
   "note": "For texts in UTF-8 of at most 64 bytes, as C84."
  },
  {
   "property": "C96",
   "status": "proved",
   "theorems": [
    "C96_clock_time_shown",
    "C96_demodulated_times",
    "C96_audio_times",
    "C96_same_bits"
   ],
   "note": "With several channels the time is not the clock's at all (C61). Buffers of fewer than 2^40 bits."
  },
  {
   "property": "C97",
   "status": "proved",
   "theorems": [
    "C97_unfinished_groups_decoded",
    "C97_program_ends_channels",
    "C97_main_stream_refuted"
   ],
   "note": "C97_main_stream_refuted: the last group of stream 0 is dropped even when three of its blocks were received (Channel::flush starts at stream 1)."
  },
  {
   "property": "C98",
   "status": "proved",
   "theorems": [
    "C98_time_written",
    "C98_clock_time_written",
    "C98_hex_times_written",
    "C98_percent_refuted"
   ],
   "note": "strftime is an oracle constrained by strftime_is. C98_percent_refuted shows why \"%%f\" is excluded: the program takes the last two of those three characters for %f."
  },
  {
   "property": "C99",
   "status": "proved",
   "theorems": [
    "C99_partial_name",
    "C99_partial_long_name",
    "C99_name_so_far",
    "C99_long_name_so_far",
    "C99_radiotext_so_far",
    "C99_radiotext_flag",
    "C99_complete_shown_as_partial_refuted"
   ],
   "note": "Soundness for the station name and the long name (for RadioText: C24_unfinished_radiotext) and completeness for all three; the flag. The number of blanks is bounded, not fixed: an end mark of an earlier text may shorten it. The refuted theorem is a finding: a complete long name is shown as partial by a 15A group without blocks 3 and 4."
  },
  {
   "property": "C100",
   "status": "proved",
   "theorems": [
    "C100_words",
    "C100_end_of_options",
    "C100_program",
    "C100_same_options",
    "C100_any_words",
    "C100_program_ends",
    "C100_wrong_word",
    "C100_wrong_word_refuted"
   ],
   "note": "getopt_long itself is part of the C library and modelled as documented (GNU: permutation, abbreviations). The options are those of the usage text, stated separately in Spec/Words.v. The refuted theorem is a finding: a wrong word alone gives exit status success."
  },
  {
   "property": "C101",
   "status": "proved",
   "theorems": [
    "C101_streams_separate",
    "C101_reset_like_new_refuted"
   ],
   "note": "For all behaviours of liquid-dsp's objects. C101_reset_like_new_refuted: a reset demodulator does not receive like a new one, because the decoders of symbols and bits, the filters and the gain control are not reset."
  },
  {
   "property": "C102",
   "status": "proved",
   "theorems": [
    "C102_phases_within_half_a_turn",
    "C102_mixing_is_safe"
   ],
   "note": "Assumes that nco_crcf_get_phase returns a number between 0 and 2 pi (turning P). The bounds are those of the binary32 constant kPi."
  },
  {
   "property": "C103",
   "status": "proved",
   "theorems": [
    "C103_resampled_samples_fit",
    "C103_buffer_nearly_full",
    "C103_program"
   ],
   "note": "The pace of liquid-dsp's resampler (phase accumulator with 2^24 units per input sample) is an assumption about liquid-dsp, stated in Model/Subcarrier.v. C103_program: the demodulator meets the condition the program theorems put on it."
  },
  {
   "property": "C104",
   "status": "proved",
   "theorems": [
    "C104_even_grid",
    "C104_even_after_reset",
    "C104_recording_same",
    "C104_seven_hours_refuted"
   ],
   "note": "The values are observed by a demodulator that writes down when they are taken; C104_recording_same: it demodulates the same bits. C104_seven_hours_refuted: the claim without the limit is FALSE of the code (documented in a comment there)."
  },
  {
   "property": "C105",
   "status": "proved",
   "theorems": [
    "C105_recovers_from_anything",
    "C105_eleven_groups_refuted",
    "C105_two_readings_refuted",
    "C105_never_in_sync_refuted"
   ],
   "note": "Proved from every reachable state. The refutations show that 11 groups do not suffice and that the conditions on chance blocks are needed."
  },
  {
   "property": "C106",
   "status": "proved",
   "theorems": [
    "C106_text_is_converted",
    "C106_text_is_misread",
    "C106_text_received_is_shown",
    "C106_latin_refuted",
    "C106_end_mark_refuted",
    "C106_cut_off_refuted",
    "C106_byte_order_refuted"
   ],
   "note": "For announcements with bit 0 clear (UCS-2). The host's converter (iconv) is a parameter. Restricted, like C84, to the first 64 bytes and to stations without RadioText Plus for Enhanced RadioText."
  },
  {
   "property": "C107",
   "status": "proved",
   "theorems": [
    "C107_memory_is_bounded",
    "C107_text_input_has_such_words"
   ],
   "note": "Sizes are counted in stored bytes, numbers and table entries (Spec/Memory.v), not in allocator bytes; the host's UCS-2 converter is assumed to make at most three bytes of each byte."
  },
  {
   "property": "C108",
   "status": "proved",
   "theorems": [
    "C108_name_after_any_disturbance"
   ],
   "note": "Combines recovery of synchronisation (C105), confirmation of the station and reception of a name for the whole program reading bits. The two conditions on chance blocks are those of C105, where they are shown to be needed."
  },
  {
   "property": "C109",
   "status": "proved",
   "theorems": [
    "C109_complete_is_shown",
    "C109_not_in_order_not_shown",
    "C109_each_part_received_refuted",
    "C109_without_block_3_refuted"
   ],
   "note": "With C24 (what is shown is complete) this says exactly when a name is shown. What a user may expect, that a name is shown once each part was received, is refuted: with parts 2 and 1 lost alternately it is never shown."
  },
  {
   "property": "C110",
   "status": "proved",
   "theorems": [
    "C110_repeated_message_is_shown",
    "C110_after_an_end_mark_not_shown",
    "C110_repeated_message_refuted"
   ],
   "note": "The unconditional claim is false: an end mark left in the buffer by an earlier message blocks messages without one (C110_repeated_message_refuted, for every number of repetitions)."
  },
  {
   "property": "C111",
   "status": "proved",
   "theorems": [
    "C111_radiotext",
    "C111_type_name",
    "C111_long_name",
    "C111_enhanced_radiotext"
   ],
   "note": "For RadioText the parts since the message began have one A/B flag and one group version (C26 says what happens otherwise). Examples C111_radiotext_case, C111_type_name_case, C111_long_name_case and C111_enhanced_case run the model on jumbled and repeated parts."
  },
  {
   "property": "C112",
   "status": "proved",
   "theorems": [
    "C112_listed_options_exist",
    "C112_no_other_options",
    "C112_listed_formats",
    "C112_help"
   ],
   "note": "The usage text is copied into Model/Usage.v by a script; Spec/Help.v says how a reader finds options, arguments and formats in it. --help is not listed (C112_case)."
  },
  {
   "property": "C113",
   "status": "proved",
   "theorems": [
    "C113_text_from_bits",
    "C113_text_after_any_disturbance"
   ],
   "note": "Examples C113_bits_case and C113_disturbance_case meet all hypotheses. RadioText Plus is excluded because a change of its item toggle clears the text (C29)."
  },
  {
   "property": "C114",
   "status": "proved",
   "theorems": [
    "C114_every_byte_in_one_chunk",
    "C114_position_and_length",
    "C114_automatic_is_the_shortest"
   ],
   "note": "These functions are part of the header's interface; the program itself shows the checksum's mode and address and does not yet compare checksums."
  },
  {
   "property": "C115",
   "status": "proved",
   "theorems": [
    "C115_text_beside_plus",
    "C115_new_item_refuted"
   ],
   "note": "hello_meets, hello_complete and C115_case show a case that meets the hypotheses; C115_new_item_refuted shows that the condition on the item is needed."
  },
  {
   "property": "C116",
   "status": "proved",
   "theorems": [
    "C116_not_mixed",
    "C116_lost_group_refuted"
   ],
   "note": "The refutation shows why all groups must be received: of two messages with the same continuity index, the second shown with the speed limit of the first."
  },
  {
   "property": "C117",
   "status": "proved",
   "theorems": [
    "C117_clock_time",
    "C117_type_name",
    "C117_long_name",
    "C117_frequencies",
    "C117_traffic_message",
    "C117_long_traffic_message",
    "C117_flags",
    "C117_programme_item",
    "C117_slow_labelling",
    "C117_other_network",
    "C117_announcement",
    "C117_method_b",
    "C117_enhanced_radiotext",
    "C117_tags",
    "C117_data_channel",
    "C117_transparent_data",
    "C117_in_house_data"
   ],
   "note": "Combines C76/C105 (delivery of the groups) with C34, C111, C32, C33, C35, C69 to C74, C81, C29 and C116 for every history. What is heard is defined in Spec/Heard.v from the bits and the transmitted groups alone. For messages of three and four groups see C43: fields beyond the second group may be missing."
  },
  {
   "property": "C118",
   "status": "proved",
   "theorems": [
    "C118_one_line_each",
    "C118_in_hex",
    "C118_error_message_refuted"
   ],
   "note": "C118_case and C118_error_message_refuted show inputs that meet the hypotheses. The refutation shows that the exception is needed."
  },
  {
   "property": "C119",
   "status": "proved",
   "theorems": [
    "C119_one_line_each",
    "C119_in_hex",
    "C119_name",
    "C119_type_name",
    "C119_text",
    "C119_frequencies"
   ],
   "note": "C119_case and C119_text_case meet the hypotheses; C119_case is a file with a comment, a group of another station and lines written in various ways."
  },
  {
   "property": "C120",
   "status": "proved",
   "theorems": [
    "C120_one_line_each",
    "C120_in_hex",
    "C120_name",
    "C120_type_name",
    "C120_text",
    "C120_frequencies"
   ],
   "note": "C120_case and C120_text_case meet the hypotheses; C120_case has half a line and half a pair before the groups, other lines between them and half a line after them."
  },
  {
   "property": "C121",
   "status": "proved",
   "theorems": [
    "C121_clock_time",
    "C121_long_name",
    "C121_traffic_message",
    "C121_long_traffic_message",
    "C121_flags",
    "C121_programme_item",
    "C121_slow_labelling",
    "C121_other_network",
    "C121_announcement",
    "C121_method_b",
    "C121_enhanced_radiotext",
    "C121_tags",
    "C121_data_channel",
    "C121_transparent_data",
    "C121_in_house_data"
   ],
   "note": "The C121_..._case examples give files of both kinds with other text before and after the groups."
  }
 ]
}