{
 "claims": [
  {
   "property": "C01",
   "status": "proved",
   "theorems": [
    "C01_unsigned_le_read",
    "C01_only_field_bits_matter"
   ],
   "note": ""
  },
  {
   "property": "C02",
   "status": "proved",
   "theorems": [
    "C02_unsigned_be_read"
   ],
   "note": ""
  },
  {
   "property": "C03",
   "status": "proved",
   "theorems": [
    "C03_signed_read"
   ],
   "note": ""
  },
  {
   "property": "C04",
   "status": "partial",
   "theorems": [
    "C04_read_bounds_partial",
    "C04_index_wrap_refuted",
    "C04_offset_wrap_refuted",
    "C04_big_record_refuted",
    "C04_mlsd_wrap_refuted"
   ],
   "note": "True when the offset arithmetic does not wrap and the record is below 2^28 bytes; the full claim is false of the code: see the _refuted theorems (index wrap, 32-bit offset wrap, int overflow for big records, MLSD length wrap)."
  },
  {
   "property": "C05",
   "status": "proved",
   "theorems": [
    "C05_set_get",
    "C05_unsigned_modulo_width"
   ],
   "note": ""
  },
  {
   "property": "C06",
   "status": "proved",
   "theorems": [
    "C06_setter_frame",
    "C06_history_last_write"
   ],
   "note": "Including any history of sets on a prepared group."
  },
  {
   "property": "C07",
   "status": "partial",
   "theorems": [
    "C07_set_bounds_partial",
    "C07_unsigned_be_refuted",
    "C07_index_wrap_refuted",
    "C07_neighbour_refuted"
   ],
   "note": "True of every setter but SetUnsignedValueBe without 64-bit wrap; refuted for SetUnsignedValueBe, for index 2^64-1, and for indexes beyond the channel's own array (neighbour overwritten)."
  },
  {
   "property": "C08",
   "status": "proved",
   "theorems": [
    "C08_valid_bits_independent",
    "C08_valid_changes_one_bit"
   ],
   "note": ""
  },
  {
   "property": "C09",
   "status": "proved",
   "theorems": [
    "C09_layout"
   ],
   "note": "For records below 2^28 bytes."
  },
  {
   "property": "C10",
   "status": "proved",
   "theorems": [
    "C10_record_ids",
    "C10_id_fields_differ",
    "C10_groups_kept"
   ],
   "note": ""
  },
  {
   "property": "C11",
   "status": "partial",
   "theorems": [
    "C11_record_ids_partial",
    "C11_many_groups_refuted"
   ],
   "note": "Record ids are distinct exactly up to 256 groups; the full claim (any number) is false of the code (8-bit counter): C11_many_groups_refuted."
  },
  {
   "property": "C12",
   "status": "partial",
   "theorems": [
    "C12_measure_and_read",
    "C12_write_read",
    "C12_read_stream",
    "C12_cut_record",
    "C12_write_read_mdf3",
    "C12_zero_size_refuted"
   ],
   "note": "Proved for every interleaving, id size and block split (MDF4) and for MDF3, and end to end: any measurement schedule followed by reading (C12_measure_and_read). A group with no record bytes and no record id makes the reader loop forever (refuted)."
  },
  {
   "property": "C13",
   "status": "proved",
   "theorems": [
    "C13_split_records",
    "C13_split_any_bytes",
    "C13_split_range",
    "C13_empty_block_refuted"
   ],
   "note": "The statement asks for non-empty blocks; C13_empty_block_refuted shows that this condition is needed."
  },
  {
   "property": "C14",
   "status": "partial",
   "theorems": [
    "C14_subscription",
    "C14_cut_unsubscribed_refuted"
   ],
   "note": "Proved for every complete stream; refuted for a stream cut off inside a record of an unsubscribed group."
  },
  {
   "property": "C15",
   "status": "partial",
   "theorems": [
    "C15_range_slice_partial",
    "C15_range_slice_mdf3_partial",
    "C15_zero_based_refuted",
    "C15_mdf3_reduction_refuted",
    "C15_mdf3_numbered_group_refuted"
   ],
   "note": "Proved with positions counted from 1, which is what the code does; the reading with the observer's zero-based numbers is refuted, as are MDF3 files with sample reduction data or a numbered single group."
  },
  {
   "property": "C16",
   "status": "proved",
   "theorems": [
    "C16_index_of_value",
    "C16_index_of_sd_value",
    "C16_read_vlsd_group",
    "C16_read_signal_data"
   ],
   "note": "Writing side: the index stored in the record is the offset of the value in the VLSD data, and fetching that index from the data blocks returns exactly the value (VLSD groups and SD blocks). Reading side: requested offsets. Needs records of at least 8 bytes, values below 2^32-4 bytes, less than 2^64 bytes of values."
  },
  {
   "property": "C17",
   "status": "partial",
   "theorems": [
    "C17_sd_lookup_appended",
    "C17_vlsd_set_get",
    "C17_sd_lookup_safe_partial",
    "C17_index_wrap_refuted",
    "C17_vlsd_invalid_flag_refuted",
    "C17_fixed_bytes_set_get",
    "C17_fixed_text_set_get"
   ],
   "note": "Every appended value is retrieved; look-up is safe for every index below 2^64-4 and refuted for the last four. Also fixed-size text and byte arrays."
  },
  {
   "property": "C18",
   "status": "proved",
   "theorems": [
    "C18_inverse",
    "C18_inverse_first",
    "C18_columns",
    "C18_tail"
   ],
   "note": "Inverse in both directions, cell map, tail and length for every record size."
  },
  {
   "property": "C19",
   "status": "partial",
   "theorems": [
    "C19_round_trip",
    "C19_sizes",
    "C19_long_stream_refuted",
    "C19_wrong_size_refuted"
   ],
   "note": "Proved for every payload whose compressed stream is at most 100 bytes longer than the data (premise fits). Refuted beyond: the stream is cut and reading over-reads; also an over-read for a file with a wrong size field. zlib is a premise (zlib_ok)."
  },
  {
   "property": "C20",
   "status": "partial",
   "theorems": [
    "C20_same_stream",
    "C20_no_empty_block",
    "C20_block_size",
    "C20_empty_block_refuted"
   ],
   "note": "Same bytes and right list offsets for any two schedules saving the same samples; no empty block unless one sample is at least 4,000,000 bytes, in which case an empty block is stored that ends reading (refuted)."
  },
  {
   "property": "C21",
   "status": "proved",
   "theorems": [
    "C21_ledger",
    "C21_ledger_compressed",
    "C21_ledger_any",
    "C21_finalize",
    "C21_finalize_compressed"
   ],
   "note": "At every point of every schedule, both drains; including trimming and stop time in C21_ledger_any."
  },
  {
   "property": "C22",
   "status": "partial",
   "theorems": [
    "C22_size_partial",
    "C22_size_compressed_partial",
    "C22_size_no_pop",
    "C22_size_after_pop_refuted"
   ],
   "note": "Exact when the size read after the pop is the popped record's (it is read from a destroyed object); refuted otherwise. Exact without trimming."
  },
  {
   "property": "C23",
   "status": "partial",
   "theorems": [
    "C23_prefix",
    "C23_waiting",
    "C23_started",
    "C23_underflow_refuted",
    "C23_unordered_refuted"
   ],
   "note": "Proved for ordered time stamps with pre-trigger time at most the start time; the unsigned differences wrap otherwise (refuted)."
  },
  {
   "property": "C24",
   "status": "proved",
   "theorems": [
    "C24_counts",
    "C24_counts_compressed"
   ],
   "note": ""
  },
  {
   "property": "C25",
   "status": "partial",
   "theorems": [
    "C25_stored_partial",
    "C25_accounted",
    "C25_stop_time_refuted",
    "C25_race_refuted"
   ],
   "note": "Every sample in the window saved before the stop is stored, only older ones are missing; the claims that later samples are not stored and that samples saved during the stop are kept are refuted (stop time is set after the drain; queue destroyed)."
  },
  {
   "property": "C26",
   "status": "partial",
   "theorems": [
    "C26_counts",
    "C26_records_back",
    "C26_cut_partial",
    "C26_cut_records_back",
    "C26_already_final",
    "C26_cut_record_refuted",
    "C26_cut_header_refuted",
    "C26_vlsd_size_refuted",
    "C26_zero_size_refuted"
   ],
   "note": "Complete records: counts, block size and reading back proved for every stream, single or multiple groups, with or without VLSD groups. Refuted by the code: a record cut after its header is counted as complete, a cut inside a record id or VLSD length makes opening fail, VLSD sizes include the 4-byte length fields, records of zero bytes make the finalization loop forever. C26_cut_partial states exactly what happens at every crash point inside a record."
  },
  {
   "property": "C27",
   "status": "proved",
   "theorems": [
    "C27_block_round_trip",
    "C27_read",
    "C27_mdf3"
   ],
   "note": ""
  },
  {
   "property": "C28",
   "status": "proved",
   "theorems": [
    "C28_appended"
   ],
   "note": ""
  },
  {
   "property": "C29",
   "status": "proved",
   "theorems": [
    "C29_list_round_trip"
   ],
   "note": "Children are blocks with their own fields and what their Write appends after them; the further links of a child are fixed when it is first written."
  },
  {
   "property": "C30",
   "status": "proved",
   "theorems": [
    "C30_link",
    "C30_bad_index",
    "C30_size",
    "C30_mdf3_link",
    "C30_mdf3_wrap_refuted"
   ],
   "note": "MDF3 links above 4 GB are cut (refuted)."
  },
  {
   "property": "C31",
   "status": "proved",
   "theorems": [
    "C31_any_string",
    "C31_plain",
    "C31_trim",
    "C31_end_of_file_refuted"
   ],
   "note": "Every string, exact result; reading past the end of the file yields characters 255 (refuted that it fails)."
  },
  {
   "property": "C32",
   "status": "partial",
   "theorems": [
    "C32_text_partial",
    "C32_any_text",
    "C32_blank_refuted",
    "C32_mdf3_partial",
    "C32_mdf3_long_refuted"
   ],
   "note": "Holds for texts without NUL and white space at the ends (MDF3: up to 65530 characters); refuted otherwise. Exact result proved for every text."
  },
  {
   "property": "C33",
   "status": "partial",
   "theorems": [
    "C33_ends_iff_no_cycle_partial",
    "C33_length",
    "C33_cycle_refuted"
   ],
   "note": "False on cyclic links (refuted); proved: ends exactly when no block is reached twice."
  },
  {
   "property": "C34",
   "status": "proved",
   "theorems": [
    "C34_list_round_trip",
    "C34_by_offset",
    "C34_by_equal_length"
   ],
   "note": "List block written and read back; position located by offsets and by equal length."
  },
  {
   "property": "C35",
   "status": "partial",
   "theorems": [
    "C35_linear",
    "C35_linear_error",
    "C35_linear_integers",
    "C35_rational",
    "C35_polynomial",
    "C35_missing_parameters",
    "C35_exponential",
    "C35_exponential_second",
    "C35_exponential_neither",
    "C35_set_parameters",
    "C35_one_parameter_refuted"
   ],
   "note": "IEEE binary64 arithmetic through Flocq. Proved: a linear conversion is the rounded formula, with an error bound, and exact on integers; rational and polynomial conversions with integer parameters are the correctly rounded quotient and fail on a zero divisor; exponential and logarithmic ones with integer parameters compute the documented formula around std::exp and std::log (parameters of the model); missing parameters fail; parameters set in any order. Refuted: a linear conversion with its second parameter missing returns the first one. Missing: error bounds of rational and polynomial conversions for non-integer parameters."
  },
  {
   "property": "C36",
   "status": "partial",
   "theorems": [
    "C36_at_key",
    "C36_below",
    "C36_above",
    "C36_interpolated",
    "C36_between_partial",
    "C36_nearest_lower",
    "C36_nearest_upper_partial",
    "C36_a_neighbour",
    "C36_between_refuted",
    "C36_nearest_refuted",
    "C36_unwritten_refuted",
    "C36_written",
    "C36_nan"
   ],
   "note": "Proved over IEEE doubles for every table with increasing keys: the value at a key, the first/last value outside, the rounded formula of interpolation, the lower neighbour when it is nearer or on ties. Between-ness is proved when the difference of the two values is a double and refuted in general; the upper neighbour is proved when the key differences are doubles and refuted in general. Refuted: a table not yet written converts everything to its last value."
  },
  {
   "property": "C37",
   "status": "partial",
   "theorems": [
    "C37_value",
    "C37_default_value",
    "C37_text",
    "C37_nested",
    "C37_default_text",
    "C37_text3",
    "C37_float3_refuted"
   ],
   "note": "Proved for value ranges (MDF4), text ranges and nested conversions (MDF4) and text ranges (MDF3), with the default. Refuted for float channels in MDF3 files: the conversion never learns the data type of its channel."
  },
  {
   "property": "C38",
   "status": "partial",
   "theorems": [
    "C38_text",
    "C38_nested",
    "C38_default_text",
    "C38_text3",
    "C38_text_to_value",
    "C38_text_to_text",
    "C38_set_references",
    "C38_unwritten_refuted"
   ],
   "note": "Proved for value to text (MDF4 and MDF3, nested conversions too), text to value and text to text, of conversions that were written or read. Refuted before writing: text references are not found, and text conversions still report success."
  },
  {
   "property": "C39",
   "status": "partial",
   "theorems": [
    "C39_numeric",
    "C39_texts_partial",
    "C39_unwritten_partial",
    "C39_written_refuted"
   ],
   "note": "Proved for all numeric conversions, all MDF3 conversions, and MDF4 conversions with unwritten text references. Refuted for MDF4 text conversions that were written or read: the copy has no references."
  },
  {
   "property": "C40",
   "status": "partial",
   "theorems": [
    "C40_formula",
    "C40_text_table",
    "C40_shifted",
    "C40_parameters_refuted",
    "C40_single_partial",
    "C40_range_texts_refuted"
   ],
   "note": "Refuted for two or more parameters (each is written with 16 bytes and read with 8) and for range texts (lost); proved for formulas, text tables and single parameters."
  },
  {
   "property": "C41",
   "status": "proved",
   "theorems": [
    "C41_smallest_code",
    "C41_data_bytes",
    "C41_inverse",
    "C41_monotone",
    "C41_too_long"
   ],
   "note": "Every payload length 0..64 set by length or by bytes; the code is the smallest one that fits, inverse of the ISO table, monotone; lengths above 64 give code 0 (C41_too_long)."
  },
  {
   "property": "C42",
   "status": "partial",
   "theorems": [
    "C42_channels",
    "C42_observer_partial",
    "C42_reserved_bit_refuted",
    "C42_error_frame_refuted",
    "C42_code_refuted",
    "C42_error_buffer_refuted"
   ],
   "note": "Every message, type, storage and member set: every channel yields the value of the message (C42_channels). The observer decodes all properties except reserved bit R0, the error frame's bit position, error type and duration, and a user-changed DLC, for which the claim is refuted."
  },
  {
   "property": "C43",
   "status": "partial",
   "theorems": [
    "C43_setter_history",
    "C43_defaults",
    "C43_last_flag",
    "C43_identifier",
    "C43_extended_refuted",
    "C43_reset_refuted"
   ],
   "note": "Any history of setter calls: every property is what the calls make of it, flags independent. Refuted for identifier set after the extended flag (clears it) and for Reset (keeps the checksum)."
  },
  {
   "property": "C44",
   "status": "partial",
   "theorems": [
    "C44_round_trip_partial",
    "C44_data_bytes",
    "C44_setter_history",
    "C44_defaults",
    "C44_start_of_frame_stored",
    "C44_direction_refuted",
    "C44_start_of_frame_refuted",
    "C44_checksum_model_refuted"
   ],
   "note": "Proved for every message type and mandatory flag: the channels of the group decode the stored record to the message's values, data bytes and setter histories. Refuted by the code for the direction of mandatory checksum errors, the start of frame of wake-up and spike records and the checksum model of receive errors."
  },
  {
   "property": "C45",
   "status": "partial",
   "theorems": [
    "C45_to_utf8",
    "C45_from_utf8",
    "C45_round_trip",
    "C45_injective",
    "C45_any_wide_string",
    "C45_from_utf16",
    "C45_to_utf16_partial",
    "C45_to_utf16_refuted",
    "C45_channel_text_partial",
    "C45_channel_text_refuted"
   ],
   "note": "32-bit wide strings: UTF-8 encoding, decoding and round trip for every sequence of scalar values, no access outside for any wide string. 16-bit: conversion from UTF-16 proved; conversion to UTF-16 proved for code points of one unit, overflows for code points above 0xFFFF (refuted). UTF-16 channel texts proved for code points of one unit, refuted for surrogate pairs (each half encoded alone)."
  },
  {
   "property": "C46",
   "status": "partial",
   "theorems": [
    "C46_malformed_refuted",
    "C46_half_pair_refuted",
    "C46_reads_inside_partial"
   ],
   "note": "Refuted: a truncated sequence (for example the single byte F0) makes the conversion read behind the terminator, and half a surrogate pair runs past the end of a 16-bit string. Proved for every string none of whose bytes announces more than the string and its terminator hold."
  },
  {
   "property": "C47",
   "status": "proved",
   "theorems": [
    "C47_latin1",
    "C47_channel_text"
   ],
   "note": "Every Latin-1 byte string; also for the text of a Latin-1 channel, with decoding back."
  },
  {
   "property": "C48",
   "status": "partial",
   "theorems": [
    "C48_instant_partial",
    "C48_date_only",
    "C48_every_date",
    "C48_printed",
    "C48_print_read",
    "C48_printed_parts",
    "C48_short_fraction_refuted",
    "C48_long_fraction_refuted",
    "C48_west_minutes_refuted",
    "C48_basic_offset_refuted",
    "C48_before_1970_refuted",
    "C48_time_only_refuted",
    "C48_offset_overflow_refuted"
   ],
   "note": "Exact for every date from 1970, extended and basic forms, fractions of 0, 3, 6 or 9 digits, offsets Z, +hh, -hh, +hh:mm; print/read round trip for every time stamp. Refuted: other fraction lengths, -hh:mm, +hhmm, years before 1970, a printed time of day, overflow of the offset."
  },
  {
   "property": "C49",
   "status": "proved",
   "theorems": [
    "C49_time",
    "C49_epoch",
    "C49_date_fields",
    "C49_date",
    "C49_short_array_refuted"
   ],
   "note": "Time: every zone, all 65536 days from 1984. Date: every zone with an offset in whole minutes, local dates 1970 to 2069. Both the bytes and the round trip. mktime/localtime are modelled as a standard offset plus a one hour daylight saving shift. Short arrays are read out of bounds (refuted)."
  },
  {
   "property": "C50",
   "status": "proved",
   "theorems": [
    "C50_checksum",
    "C50_string",
    "C50_any_prefix",
    "C50_padding"
   ],
   "note": "Every chunking, byte values and lengths unbounded; the pieces are what fread returned, so a read error before the end of the file gives the digest of the bytes read."
  },
  {
   "property": "C51",
   "status": "partial",
   "theorems": [
    "C51_count",
    "C51_channel_count",
    "C51_bijection",
    "C51_places",
    "C51_empty_refuted",
    "C51_overflow_refuted"
   ],
   "note": "For positive sizes whose product fits 64 bits; a size of 0 and an overflow are refuted. Partial because the statement as written is false in the refuted cases."
  },
  {
   "property": "C52",
   "status": "partial",
   "theorems": [
    "C52_samples",
    "C52_offsets",
    "C52_vlsd_group_partial",
    "C52_file",
    "C52_file_vlsd_partial",
    "C52_shared_value_refuted",
    "C52_index_refuted",
    "C52_byte_array_refuted",
    "C52_byte_array_partial"
   ],
   "note": "Fully proved for channels without a separate variable length group, from the bytes of the data group to the observer; with such a group the value is paired by number and not by offset (refuted for shared values). Decoding one record is a parameter of the theorem; C91_file_unsigned and C91_file_signed fill it in for integer channels."
  },
  {
   "property": "C53",
   "status": "partial",
   "theorems": [
    "C53_attach_history",
    "C53_delivery_partial",
    "C53_delivery_stateful_partial",
    "C53_single_group",
    "C53_nobody",
    "C53_file",
    "C53_unsubscribed_refuted",
    "C53_once_refuted"
   ],
   "note": "Exact delivery proved when observers subscribe to two or more groups, or to the group in question, and for whole MDF4 data groups; refuted for unsubscribed observers when one group has subscribers, and for calling an observer once."
  },
  {
   "property": "C54",
   "status": "partial",
   "theorems": [
    "C54_history",
    "C54_rest_kept",
    "C54_same_stream"
   ],
   "note": "Proved under fits (see C19)."
  },
  {
   "property": "C55",
   "status": "partial",
   "theorems": [
    "C55_round_trip",
    "C55_values"
   ],
   "note": "Proved under fits (see C19)."
  },
  {
   "property": "C56",
   "status": "partial",
   "theorems": [
    "C56_round_trip",
    "C56_results",
    "C56_markup_refuted"
   ],
   "note": "Proved for conversions nested to any depth whose texts do not start with '<'; refuted for those (written as MD blocks, which are not read). The unit and meta data blocks of the conversion and its inverse are not part of the block modelled."
  },
  {
   "property": "C57",
   "status": "partial",
   "theorems": [
    "C57_round_trip",
    "C57_complete",
    "C57_setter_history",
    "C57_defaults",
    "C57_data_length",
    "C57_reset_refuted"
   ],
   "note": "Round trip of all message types through all channels, full and mandatory; completeness of the channel list; histories of setter calls. The claim that Reset gives a new message is false (C57_reset_refuted)."
  },
  {
   "property": "C58",
   "status": "partial",
   "theorems": [
    "C58_round_trip_partial",
    "C58_pdu_data",
    "C58_first_data",
    "C58_setter_history",
    "C58_defaults",
    "C58_channel_refuted",
    "C58_mask_refuted",
    "C58_data_refuted"
   ],
   "note": "Round trip of all six message types through all channels but three, full and mandatory; data bytes of full PDUs, and of any group when the payload is the first one; histories of setter calls. Missing because false: FlexRay channel (C58_channel_refuted), symbol channel mask (C58_mask_refuted), later payloads of the other groups (C58_data_refuted)."
  },
  {
   "property": "C59",
   "status": "partial",
   "theorems": [
    "C59_round_trip",
    "C59_complete",
    "C59_setter_history",
    "C59_defaults",
    "C59_byte_counts",
    "C59_counts_cover_data",
    "C59_long_data_refuted",
    "C59_tx_ack_refuted"
   ],
   "note": "All nine event types; contents in the range of their MOST fields. Data longer than 65535 bytes and acknowledge codes above 15 are outside these ranges, see the two refuted theorems. Partial because the statement as written is false in the refuted cases."
  },
  {
   "property": "C60",
   "status": "partial",
   "theorems": [
    "C60_can_fixed",
    "C60_can_callback_partial",
    "C60_can_buffer_partial",
    "C60_record_fixed",
    "C60_record_pairs_partial",
    "C60_order_refuted",
    "C60_overrun_refuted",
    "C60_stop_refuted",
    "C60_sample_time_refuted"
   ],
   "note": "Groups without variable length data: exact for every interleaving. With variable length data: proved when record and value of a sample are adjacent (either order) among the records of the two groups; other orders, surplus values, the callback's answer and GetSampleTime are refuted."
  },
  {
   "property": "C61",
   "status": "partial",
   "theorems": [
    "C61_fixed",
    "C61_vlsd_partial",
    "C61_own_files",
    "C61_order_refuted",
    "C61_empty_refuted",
    "C61_signal_data_refuted",
    "C61_position_refuted",
    "C61_two_values_refuted"
   ],
   "note": "Groups without variable length data: exact, end to end, for every interleaving, block division and schedule. With one variable length channel in its own group: proved for adjacent record/value pairs, which the library's own writer produces (C61_own_files). Refuted: other orders, empty records, values in signal data, offset not at the end of the record, two variable length channels. The time written by RecalculateTime is a parameter."
  },
  {
   "property": "C62",
   "status": "partial",
   "theorems": [
    "C62_mdf4",
    "C62_mdf4_ns",
    "C62_mdf4_west_refuted",
    "C62_mdf3_zone_partial",
    "C62_mdf3_utc_partial",
    "C62_mdf3_west_refuted",
    "C62_mdf3_half_hour_refuted"
   ],
   "note": "MDF 4: exact for every time stamp. MDF 3: exact for zones in whole hours and machines at or east of Greenwich. Refuted: negative machine offsets give a wrong hour count, half hours are lost, negative offsets are handed out unsigned."
  },
  {
   "property": "C63",
   "status": "partial",
   "theorems": [
    "C63_array",
    "C63_array_list",
    "C63_data_links_refuted",
    "C63_dimensions_refuted"
   ],
   "note": "For lists sized as the flags, storage and shape require (the library's own ResizeArrays does this); too few data links and more than 65535 dimensions are refuted. Partial because the statement as written is false in the refuted cases."
  },
  {
   "property": "C64",
   "status": "partial",
   "theorems": [
    "C64_channel",
    "C64_channels",
    "C64_conversion",
    "C64_same",
    "C64_mixed_refuted",
    "C64_composition_refuted"
   ],
   "note": "Conversions included, without their own name, unit and inverse; signal data links and the VLSD/MLSD references stored later are not part of the model; compositions of mixed blocks are refuted."
  },
  {
   "property": "C65",
   "status": "partial",
   "theorems": [
    "C65_channel_group_partial",
    "C65_links",
    "C65_data_group_partial",
    "C65_measurement_partial"
   ],
   "note": "Without sample reductions, data blocks and the links stored in channels by other groups."
  },
  {
   "property": "C66",
   "status": "partial",
   "theorems": [
    "C66_history",
    "C66_attachment_partial",
    "C66_event",
    "C66_hierarchy_partial",
    "C66_elements_refuted"
   ],
   "note": "Attachments with embedded, uncompressed data (compressed and external ones are C82); hierarchies without elements (elements are refuted)."
  },
  {
   "property": "C67",
   "status": "partial",
   "theorems": [
    "C67_id",
    "C67_file",
    "C67_class",
    "C67_only",
    "C67_minor",
    "C67_two_digits_refuted"
   ],
   "note": "MDF 3 headers are not part of it; texts without NUL that fit their fields; the writer's two-digit format text is refuted for minor versions from 101. Partial because the statement as written is false in the refuted cases."
  },
  {
   "property": "C68",
   "status": "partial",
   "theorems": [
    "C68_mark",
    "C68_undone",
    "C68_unfinished_refuted"
   ],
   "note": "The claim about interrupted measurements is refuted: the writer never sets the mark."
  },
  {
   "property": "C69",
   "status": "proved",
   "theorems": [
    "C69_file",
    "C69_start_time",
    "C69_records",
    "C69_measurement"
   ],
   "note": "uncompressed MDF 4, one measurement in a new file, data groups saved one after the other (as the writer does without compression)"
  },
  {
   "property": "C70",
   "status": "proved",
   "theorems": [
    "C70_writes",
    "C70_interrupted",
    "C70_records"
   ],
   "note": "uncompressed MDF 4 measurement in a new file; writes reach the file in the order of the code, a number rewritten in place is one write; no SD data"
  },
  {
   "property": "C71",
   "status": "proved",
   "theorems": [
    "C71_file",
    "C71_same_bytes",
    "C71_records",
    "C71_measurement"
   ],
   "note": "the file of a compressed measurement (zlib as a premise: inflate inverts deflate); not modelled: SD blocks, links of VLSD channels, a second measurement in the file"
  },
  {
   "property": "C72",
   "status": "partial",
   "theorems": [
    "C72_writes",
    "C72_interrupted",
    "C72_records",
    "C72_counters_refuted",
    "C72_first_refuted"
   ],
   "note": "Proved for data groups with data saved by an earlier call, and for the description in every case. Two parts are refuted: the counters are written before the data, and an interrupted first save of a data group can leave data that cannot be read."
  },
  {
   "property": "C73",
   "status": "partial",
   "theorems": [
    "C73_conversion_partial",
    "C73_channel_partial",
    "C73_channel_group_partial",
    "C73_data_group_partial",
    "C73_file_partial",
    "C73_name",
    "C73_reduction_refuted",
    "C73_author_refuted",
    "C73_blank_name_refuted"
   ],
   "note": "Round trips of conversions, channels, channel groups, data groups and the whole header for all shapes; refuted: the sample reduction link of a channel group is never read, header texts are cut to their fields, white space around names is lost. Missing: CE, CD, TR, PR and SR blocks; conversions whose tables the writer loses (C39, C40)."
  },
  {
   "property": "C74",
   "status": "proved",
   "theorems": [
    "C74_file",
    "C74_start_time"
   ],
   "note": "One measurement in a new file below 4 GiB; a data group is not saved again after another one."
  },
  {
   "property": "C75",
   "status": "proved",
   "theorems": [
    "C75_stopped"
   ],
   "note": "Stops between single writes to the file; a write itself is atomic and writes reach the file in order."
  },
  {
   "property": "C76",
   "status": "proved",
   "theorems": [
    "C76_xml",
    "C76_trimmed",
    "C76_distinct",
    "C76_control_refuted",
    "C76_mixed_refuted"
   ],
   "note": "Full round trip for texts that XML can hold; control characters and values beside children are refuted findings."
  },
  {
   "property": "C77",
   "status": "partial",
   "theorems": [
    "C77_string",
    "C77_common",
    "C77_once",
    "C77_file",
    "C77_readable",
    "C77_attributes_refuted",
    "C77_case_refuted",
    "C77_tree_refuted",
    "C77_stale_refuted",
    "C77_plain_refuted",
    "C77_control_refuted"
   ],
   "note": "Proved for texts that XML can hold; that every attribute of a property set twice is the new one, that names are case sensitive, that a tree set again is replaced and that a plain-text comment survives are refuted."
  },
  {
   "property": "C78",
   "status": "partial",
   "theorems": [
    "C78_header",
    "C78_file",
    "C78_comment_refuted"
   ],
   "note": "Proved for headers whose comment is XML or absent and texts that XML can hold; a plain-text comment is lost (refuted)."
  },
  {
   "property": "C79",
   "status": "partial",
   "theorems": [
    "C79_rows",
    "C79_columns",
    "C79_invalid_refuted",
    "C79_beyond_refuted",
    "C79_large_refuted",
    "C79_mdf3_refuted",
    "C79_mdf3_none"
   ],
   "note": "Row order (C79_rows) and column order (C79_columns) for every layout below 2 GiB. False in four cases, each refuted with a witness: invalidation links of LD blocks are ignored, sample numbers beyond the end give valid zeros, data of 4 GiB or more gives other samples' values, MDF 3 sample reductions never return a value. Partial because the statement as written is false in the refuted cases."
  },
  {
   "property": "C80",
   "status": "proved",
   "theorems": [
    "C80_file",
    "C80_program",
    "C80_measurement"
   ],
   "note": "C80_file for the samples of any program, C80_measurement for a whole measurement with the writer thread and the times. Numeric channels of groups without variable length data; the time master has no invalidation bit and no conversion, and can hold the times."
  },
  {
   "property": "C81",
   "status": "partial",
   "theorems": [
    "C81_error_partial",
    "C81_order",
    "C81_distinct_partial",
    "C81_distinct_refuted",
    "C81_whole",
    "C81_timestamp",
    "C81_too_small_refuted",
    "C81_pretrigger_refuted",
    "C81_conversion_refuted",
    "C81_race_refuted"
   ],
   "note": "C81_error_partial (104 days from the start), C81_order, C81_distinct_partial (97 days from the start), C81_whole, C81_timestamp. False in five cases, each refuted with a witness: equal times after 97 days, undefined cast for a small master, all pre-trigger times zero in an unsigned master, no time with a conversion that is not linear, no time for samples written while StartMeasurement runs."
  },
  {
   "property": "C82",
   "status": "partial",
   "theorems": [
    "C82_export",
    "C82_copy",
    "C82_checked",
    "C82_incompressible_refuted",
    "C82_missing_refuted",
    "C82_stream_refuted",
    "C82_copy_refuted"
   ],
   "note": "Files that are not empty and, when compressed, do not grow (or have at most about 100 bytes). False as stated beyond that: see the refutations (a file that does not shrink is left out or makes InitMeasurement fail, a missing file is attached as an empty one, exports to a stream are not checked, the copy of an empty attachment attaches the file anew)."
  },
  {
   "property": "C83",
   "status": "partial",
   "theorems": [
    "C83_md",
    "C83_fh",
    "C83_hd",
    "C83_property",
    "C83_calls",
    "C83_header",
    "C83_twice_refuted",
    "C83_clear_refuted",
    "C83_hex_refuted",
    "C83_tree_refuted",
    "C83_slash_refuted",
    "C83_index_refuted"
   ],
   "note": "Over the XML text of C76. Refuted parts: setting a header property a second time is ignored; a description cleared in a comment that was read comes back; a hexadecimal type becomes an integer; a list is lost when a tree of the same name is added after it; a property with '/' in its name is never found; a history index of 2^63 or more makes the reading fail. Alternative names, formula and extensions are not in the objects. Partial because the statement as written is false in the refuted cases."
  },
  {
   "property": "C84",
   "status": "partial",
   "theorems": [
    "C84_layouts",
    "C84_program",
    "C84_file",
    "C84_measurement",
    "C84_raw",
    "C84_kind_refuted",
    "C84_size_refuted",
    "C84_invalid_refuted",
    "C84_snapshot_refuted",
    "C84_early_refuted"
   ],
   "note": "Proved for every program: C84_file, C84_measurement (values, validity, times), C84_program (nothing undefined, one sample per save), C84_layouts, C84_raw. A value whose C++ type is not of the kind of the channel is stored by its bits (C84_kind_refuted), a value of another size is dropped silently (C84_size_refuted), SetValue never clears an invalid mark (C84_invalid_refuted), a data writer does not follow its group (C84_snapshot_refuted) and one made before InitMeasurement gives empty records (C84_early_refuted)."
  },
  {
   "property": "C85",
   "status": "partial",
   "theorems": [
    "C85_program",
    "C85_file",
    "C85_measurement",
    "C85_text_partial",
    "C85_bytes_partial",
    "C85_hex",
    "C85_utf16_partial",
    "C85_date",
    "C85_time",
    "C85_latin1_refuted",
    "C85_utf16_refuted",
    "C85_cut_refuted",
    "C85_length_refuted",
    "C85_dropped_refuted"
   ],
   "note": "Proved for every program: C85_program, C85_file and C85_measurement (numbers, texts, byte arrays and dates together, with the times), C85_text_partial, C85_bytes_partial, C85_utf16_partial (UTF-16 given as bytes), C85_hex, C85_date, C85_time. The rest is false: texts other than 7 bit in StringAscii channels (C85_latin1_refuted), texts in UTF-16 channels (C85_utf16_refuted), long texts (C85_cut_refuted), the length of short byte arrays (C85_length_refuted), values of another kind (C85_dropped_refuted)."
  },
  {
   "property": "C86",
   "status": "partial",
   "theorems": [
    "C86_config_partial",
    "C86_names",
    "C86_program",
    "C86_file_partial",
    "C86_measurement_partial",
    "C86_short_max_refuted",
    "C86_channel_name_refuted"
   ],
   "note": "From SaveCanMessage to the CAN bus observer of the finished file, for programs and whole measurements with times; the groups of CreateConfig and the names of MakeGroupName meet the hypotheses. Missing: storage of data bytes in SD blocks; refuted for MaxLength below 8 with data bytes in the record (records longer than declared); group names hold the channel number as a raw character."
  },
  {
   "property": "C87",
   "status": "partial",
   "theorems": [
    "C87_comment",
    "C87_channel",
    "C87_event",
    "C87_source",
    "C87_unit",
    "C87_number",
    "C87_array_refuted",
    "C87_default_refuted",
    "C87_variables_refuted",
    "C87_event_names_refuted",
    "C87_source_formula_refuted",
    "C87_type_refuted",
    "C87_rename_refuted"
   ],
   "note": "For MdComment at any block, CnComment, SiComment, EvComment and units. Refuted parts are findings: array indexes of variables, a default name alone, variables without a formula text, names of events, formulas of sources and the data type of numbers are not kept. The conversions between doubles and texts are parameters; extensions and CcComment are not modelled. Partial because the statement as written is false in the refuted cases."
  },
  {
   "property": "C88",
   "status": "partial",
   "theorems": [
    "C88_method",
    "C88_exact",
    "C88_prefix",
    "C88_names_refuted",
    "C88_validity_refuted",
    "C88_infinite_refuted",
    "C88_category_refuted",
    "C88_digits_refuted"
   ],
   "note": "For all comments that XML can hold; refuted and listed as findings: names and descriptions of the method, the validity of scales, infinite limits without a value, a category alone, and numbers of more than six digits are not kept. Partial because the statement as written is false in the refuted cases."
  },
  {
   "property": "C89",
   "status": "proved",
   "theorems": [
    "C89_date",
    "C89_dates",
    "C89_units",
    "C89_calls",
    "C89_exact",
    "C89_prefix",
    "C89_molar_refuted",
    "C89_luminous_refuted",
    "C89_identity",
    "C89_unit_name_refuted",
    "C89_dimension_name_refuted",
    "C89_spaces_refuted"
   ],
   "note": "C89_units, C89_calls, C89_exact and C89_prefix hold; the refuted theorems show that the exponents of amount and luminous intensity and the names of units and dimensions are lost, and that identities that differ in white space collide."
  },
  {
   "property": "C90",
   "status": "partial",
   "theorems": [
    "C90_number",
    "C90_flag",
    "C90_signed",
    "C90_texts",
    "C90_only",
    "C90_storable",
    "C90_file",
    "C90_date_refuted",
    "C90_time_refuted",
    "C90_hex_refuted",
    "C90_boolean_refuted",
    "C90_first_digit_refuted"
   ],
   "note": "Proved for text, decimal, integer, float, date and time, flags and signed numbers, in the same object and through the file, and for hexadecimal numbers through the file. The rest is false: dates are read as the year, times of day as the hour, hexadecimal numbers as 0 before the property was stored, booleans as the number 0, and a number as a flag by its first digit (all refuted). Floating-point values are not modelled."
  },
  {
   "property": "C91",
   "status": "proved",
   "theorems": [
    "C91_file_unsigned",
    "C91_file_signed",
    "C91_file_missing",
    "C91_value",
    "C91_unsigned",
    "C91_signed",
    "C91_other_sign",
    "C91_named",
    "C91_none",
    "C91_list",
    "C91_once",
    "C91_every_channel_refuted"
   ],
   "note": "The casts between float formats are parameters, assumed to keep what the narrower format holds. Text of floating-point values and virtual channels are not modelled. Refuted: every channel of the list has an observer (complex channels get a null pointer)."
  },
  {
   "property": "C92",
   "status": "partial",
   "theorems": [
    "C92_unsigned_partial",
    "C92_text_partial",
    "C92_signed",
    "C92_signed_refuted",
    "C92_float"
   ],
   "note": "Proved for unsigned channels (C92_unsigned_partial) and texts. Refuted for signed channels: the writer stores 0 bits and the reader observes 0 bytes in an int8_t, so numbers wrap at 128 (C92_signed says exactly what is shown). Floating-point channels show the number rounded to a float (C92_float). Byte arrays are not modelled."
  },
  {
   "property": "C93",
   "status": "partial",
   "theorems": [
    "C93_by_id",
    "C93_by_id3_partial",
    "C93_by_id3_refuted",
    "C93_get_group",
    "C93_groups_distinct",
    "C93_create_group",
    "C93_unnamed",
    "C93_create_channel",
    "C93_get_channel",
    "C93_get_channel_refuted",
    "C93_groups3",
    "C93_groups3_refuted",
    "C93_members",
    "C93_create_members",
    "C93_get_members",
    "C93_create_members_refuted"
   ],
   "note": "Proved for MDF 4 groups and for channels: created once per name, places kept, group found again (C93_get_group, C93_groups_distinct, C93_create_group, C93_create_channel); GetChannel is characterised as the first channel whose name has the asked name as a part (C93_get_channel). Two parts of the statement are false of the code and refuted: GetChannel by a channel's own name can give another channel (C93_get_channel_refuted), and MDF 3 groups have no name, so each call adds a group and none is found (C93_groups3, C93_groups3_refuted). By record id every MDF 4 group is found (C93_by_id), of MDF 3 groups only up to 256 (C93_by_id3_partial, C93_by_id3_refuted). Member channels: C93_members, C93_create_members, C93_get_members; CreateChannel with the name of a member returns the member (C93_create_members_refuted). Renaming is not modelled."
  }
 ]
}