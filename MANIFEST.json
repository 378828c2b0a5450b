{
 "claims": [
  {
   "property": "C01",
   "status": "proved",
   "theorems": [
    "base64_roundtrip",
    "base64_is_rfc4648",
    "base64_length",
    "base64_text"
   ],
   "note": "Both alphabets; equality with a bit string specification of RFC 4648."
  },
  {
   "property": "C02",
   "status": "partial",
   "theorems": [
    "hex_roundtrip",
    "hex_roundtrip_uppercase",
    "hex_text",
    "hex_length",
    "hex_decode_in_bounds_iff_even",
    "hex_decode_always_safe_refuted"
   ],
   "note": "Round trip proved. The bounds clause is false for texts of odd length (finding F01): exact characterisation proved."
  },
  {
   "property": "C03",
   "status": "proved",
   "theorems": [
    "url_roundtrip",
    "url_encode_text",
    "url_decode_shrinks"
   ],
   "note": ""
  },
  {
   "property": "C04",
   "status": "partial",
   "theorems": [
    "big_endian_fields_faithful",
    "little_endian_fields_faithful",
    "field_byte_order",
    "float_field_faithful",
    "double_field_refuted"
   ],
   "note": "Proved for all integer widths and 32 bit floats. False for 64 bit floats (finding F02)."
  },
  {
   "property": "C05",
   "status": "partial",
   "theorems": [
    "getMSB_partial",
    "getMSB_refuted",
    "setMSB_refuted",
    "string_to_bool"
   ],
   "note": "getMSB is right when the bits before the field in its first byte are zero; false in general (F03), setMSB false (F04)."
  },
  {
   "property": "C06",
   "status": "proved",
   "theorems": [
    "bitstream_writer_bits",
    "bitstream_reader_exact",
    "bitstream_round_trip",
    "bitstream_peek",
    "bitstream_flush",
    "exp_golomb_large_refuted",
    "lsbf_append_refuted"
   ],
   "note": "Proved for fields of 1..64 bits and Exp-Golomb values below 2^32-1 (the range of the codecs). Larger Exp-Golomb values overrun (F05); the LSB first reader overreads (F06)."
  },
  {
   "property": "C07",
   "status": "proved",
   "theorems": [
    "buffer_is_fifo"
   ],
   "note": "For every history of operations of a fresh buffer."
  },
  {
   "property": "C08",
   "status": "partial",
   "theorems": [
    "split_exact",
    "split_sound",
    "split_one_append_partial",
    "split_straddle_refuted"
   ],
   "note": "Exact for one byte separators over all histories. Longer separators: sound, and complete within one block; a separator straddling arrivals or blocks is missed (F07)."
  },
  {
   "property": "C09",
   "status": "proved",
   "theorems": [
    "websocket_roundtrip",
    "websocket_huge_length_refuted"
   ],
   "note": "All messages, length classes, keys and segmentations. Memory safety against a hostile length is false (F16)."
  },
  {
   "property": "C10",
   "status": "partial",
   "theorems": [
    "websocket_delivers_partial",
    "websocket_interleaved_ping_refuted"
   ],
   "note": "Proved for control frames between messages. Control frames between the fragments of one message break it (F15)."
  },
  {
   "property": "C11",
   "status": "proved",
   "theorems": [
    "nal_framing_roundtrip",
    "from_start_codes",
    "to_start_codes",
    "scan_finds_first_start",
    "nal_end_strips_zeros",
    "from_start_codes_bogus_refuted"
   ],
   "note": "For all sequences below 2 GiB."
  },
  {
   "property": "C12",
   "status": "partial",
   "theorems": [
    "emulation_prevention_roundtrip_partial",
    "emulation_prevention_roundtrip_refuted",
    "emulation_prevention_no_start",
    "emulation_prevention_identity"
   ],
   "note": "Missing: payloads whose second and third byte are zero (false, F13)."
  },
  {
   "property": "C13",
   "status": "partial",
   "theorems": [
    "rtmp_segmentation",
    "rtmp_receives",
    "rtmp_round_trip_partial",
    "rtmp_media_partial",
    "rtmp_jump_refuted",
    "rtmp_late_time_refuted",
    "rtmp_held_back_refuted",
    "rtmp_abandoned_refuted",
    "rtmp_media_same_time_refuted",
    "rtmp_short_control_refuted"
   ],
   "note": "Proved for every conforming peer and interleaving, and for what Pack and the media writer send, with times below 2^31 ms and jumps below 0xffffff ms, when two more bytes follow. The rest is false: F25 to F30."
  },
  {
   "property": "C14",
   "status": "partial",
   "theorems": [
    "amf_round_trip_partial",
    "amf_container_partial",
    "amf_consumes_partial",
    "amf_typed_refuted",
    "amf_nameless_refuted",
    "amf_movieclip_refuted"
   ],
   "note": "All trees of numbers, booleans, short and long strings, XML, dates, references, null, undefined, unsupported, objects, ECMA and strict arrays. False for typed objects, members without a name and tag-only types (F71, F72)."
  },
  {
   "property": "C15",
   "status": "partial",
   "theorems": [
    "amf_ends",
    "amf_string_overread_refuted",
    "amf_tag_overread_refuted",
    "amf_length_overflow_refuted",
    "amf_amplifies"
   ],
   "note": "Decoding ends on every input. It reads outside truncated ones (F68) and may create billions of objects (F70); encodings made by the library are read exactly (C14)."
  },
  {
   "property": "C16",
   "status": "partial",
   "theorems": [
    "json_text_round_trip_partial",
    "json_three_bytes_refuted",
    "json_lone_byte_refuted",
    "json_min_int_refuted",
    "json_exponent_refuted",
    "json_unset_refuted"
   ],
   "note": "All trees of nulls, booleans, integers above the smallest, strings of one, two and four byte characters, arrays and objects. False for three byte characters, invalid UTF-8, the smallest integer and doubles with exponents (F63 to F66)."
  },
  {
   "property": "C17",
   "status": "partial",
   "theorems": [
    "json_parse_ends",
    "json_parse_returns_partial",
    "json_overflow_refuted",
    "json_unterminated_refuted",
    "json_lenient"
   ],
   "note": "Parsing ends on every text, and returns a value if there are at most eighteen digits in it. Longer numbers overflow (F65); an unterminated string reads an uninitialised char (F67)."
  },
  {
   "property": "C18",
   "status": "partial",
   "theorems": [
    "dtmi_round_trip_partial",
    "dtmi_size_partial",
    "dtmi_scan_partial",
    "dtmi_scan_wire",
    "dtmi_double_size_refuted",
    "dtmi_double_refuted",
    "dtmi_empty_refuted",
    "dtmi_bool_refuted",
    "dtmi_name_refuted",
    "dtmi_decode_endless_refuted",
    "dtmi_decode_overread_refuted"
   ],
   "note": "All trees of nulls, integers, strings and non-empty arrays and objects with names, decoded and scanned; sizes for all values without doubles. False for doubles, booleans, empty containers and empty names (F55, F56)."
  },
  {
   "property": "C19",
   "status": "partial",
   "theorems": [
    "dtsc_fields",
    "dtsc_received",
    "dtsc_history",
    "dtsc_empty_payload_refuted",
    "dtsc_null_payload_refuted",
    "dtsc_set_key_refuted"
   ],
   "note": "All fields and every non-empty payload below 4 GiB, built, changed by any history of the mutators, sent and received. False for empty and null payloads (F59)."
  },
  {
   "property": "C20",
   "status": "partial",
   "theorems": [
    "dtsc_lookups_end",
    "dtsc_skip_partial",
    "dtsc_member_overread_refuted",
    "dtsc_member_far_refuted",
    "dtsc_header_overread_refuted"
   ],
   "note": "Every lookup in every content ends. It may read outside (F61, F62); stepping over one value reads at most one byte behind the end; lookups in well formed content stay inside (C18, C19)."
  },
  {
   "property": "C21",
   "status": "partial",
   "theorems": [
    "page_reader_partial",
    "page_stable",
    "page_next_time",
    "page_finished",
    "page_full_refuted",
    "page_gap_refuted"
   ],
   "note": "For every history of packets, every crash point and every succession of states a reader looks at. Missing: a page filled to its last byte (false, F80)."
  },
  {
   "property": "C22",
   "status": "partial",
   "theorems": [
    "live_pages_partial",
    "live_tables",
    "live_read",
    "live_nothing_dropped",
    "live_total",
    "live_parts_refuted",
    "live_dropped_refuted",
    "live_next_page"
   ],
   "note": "For every history of packets, evictions and closures. Missing: the number of parts in the record (false, F82); that every packet in the tables is on a page (false, F83, proved for keys that leave room)."
  },
  {
   "property": "C23",
   "status": "partial",
   "theorems": [
    "meta_tables_partial",
    "meta_packet_total",
    "meta_keys_contiguous",
    "meta_part_duration_refuted",
    "meta_jump_traps_refuted",
    "meta_key_times_strict_refuted"
   ],
   "note": "For every history of packets, evictions (that keep the newest fragment) and page changes with fields in range: one part per packet, keys and fragments exact, contiguous. False without the bounds (F73, F74) and for strict key times (F79)."
  },
  {
   "property": "C24",
   "status": "partial",
   "theorems": [
    "meta_tables_partial",
    "meta_evict_total",
    "meta_live_buffer_partial",
    "meta_evict_quits_refuted",
    "meta_evict_no_page_refuted"
   ],
   "note": "Eviction keeps the tables exact and, under the check of the live buffer, never ends the process. False without that check or without pages (F75, F76)."
  },
  {
   "property": "C25",
   "status": "partial",
   "theorems": [
    "meta_seek_key",
    "meta_seek_no_keys",
    "meta_key_index_partial",
    "meta_part_index_partial",
    "meta_part_time_partial",
    "meta_index_for_time",
    "meta_fragment_index",
    "meta_limited_view_partial",
    "meta_key_index_refuted",
    "meta_part_index_refuted",
    "meta_part_time_refuted"
   ],
   "note": "All lookups over every reachable state. False at the newest packet (F77) and for part times after evictions (F78); page lookups not modelled."
  },
  {
   "property": "C26",
   "status": "partial",
   "theorems": [
    "rax_history_partial",
    "rax_separate",
    "rax_signed24_refuted",
    "rax_int40_refuted"
   ],
   "note": "Proved for every layout and history except for signed integers of 3 bytes and integers of sizes other than 1, 2, 3, 4 and 8 bytes, for which it is false (F31, F32). Nested structures and flowFrom are not modelled."
  },
  {
   "property": "C27",
   "status": "proved",
   "theorems": [
    "rax_window",
    "rax_separate"
   ],
   "note": ""
  },
  {
   "property": "C28",
   "status": "partial",
   "theorems": [
    "comms_one_owner",
    "comms_record",
    "comms_register",
    "comms_killed_refuted",
    "comms_marked_refuted",
    "comms_restart_refuted",
    "comms_hidden_refuted"
   ],
   "note": "All numbers of processes, schedules and crash points, as long as the page is not replaced and no process marks its record and keeps it. Without these conditions it is false (F85, F86)."
  },
  {
   "property": "C29",
   "status": "partial",
   "theorems": [
    "session_kind",
    "session_same",
    "session_id_partial",
    "session_ambiguous_refuted"
   ],
   "note": "Agreeing connections share an id, always. The converse is proved when at most one selected component differs in length, and is false in general (F91)."
  },
  {
   "property": "C30",
   "status": "partial",
   "theorems": [
    "session_never_over",
    "session_totals",
    "session_window_refuted",
    "session_stale_refuted",
    "session_boot_refuted"
   ],
   "note": "Totals never exceed the counts, in every history. They are equal after every undisturbed round if nobody counts while its record is being read and records are read before they are freed; without that it is false (F88, F89, F90)."
  },
  {
   "property": "C31",
   "status": "partial",
   "theorems": [
    "rtp_sorter_in_order",
    "rtp_sorter_complete",
    "rtp_sorter_requests",
    "rtp_sorter_distance_refuted",
    "rtp_sorter_start_refuted",
    "rtp_sorter_stale_refuted"
   ],
   "note": "In order and never twice for all arrivals within a window of 32000 numbers; complete for streams of any length whose packets overtake by at most half the drop limit. False beyond: F52 to F54."
  },
  {
   "property": "C32",
   "status": "partial",
   "theorems": [
    "rtp_h264_aggregated",
    "rtp_h265_aggregated",
    "rtp_h264_small",
    "rtp_h264_fragmented_partial",
    "rtp_h264_frame_partial",
    "rtp_h264_extra_byte_refuted",
    "rtp_h264_overread_refuted",
    "rtp_h264_short_unit_refuted",
    "rtp_h264_wrap_refuted",
    "rtp_h264_receive_overread_refuted",
    "rtp_h265_small",
    "rtp_h265_fragmented_partial",
    "rtp_h265_extra_bytes_refuted",
    "rtp_h265_overread_refuted"
   ],
   "note": "Exact for units that fit in a packet and frames of such units; fragmented units come out with one or two extra bytes, always (F48), and are lost at the sequence wrap (F50). Not proved: parameter sets larger than a packet."
  },
  {
   "property": "C33",
   "status": "partial",
   "theorems": [
    "rtp_header_fields_partial",
    "rtp_contrib_count_partial",
    "rtp_contrib_count_refuted",
    "rtp_setters",
    "rtp_new_packet",
    "rtp_payload_partial",
    "rtp_payload_short_refuted"
   ],
   "note": "All fields but the contributing source count, which is only right when even (F46)."
  },
  {
   "property": "C34",
   "status": "proved",
   "theorems": [
    "ts_getters",
    "ts_setPID",
    "ts_setContinuityCounter",
    "ts_setUnitStart",
    "ts_setAdaptationField",
    "ts_flags",
    "ts_flag_getters"
   ],
   "note": "Every setter changes exactly its field in the 13818-1 view of the packet; every getter returns the field."
  },
  {
   "property": "C35",
   "status": "proved",
   "theorems": [
    "ts_one_packet",
    "ts_frame_carried",
    "ts_video_clock",
    "ts_counters_consecutive"
   ],
   "note": "For payloads of 1 byte or more; proved for single packets and for whole frames given to the packetizer in any number of pieces."
  },
  {
   "property": "C36",
   "status": "proved",
   "theorems": [
    "pes_timestamp_written",
    "pes_timestamp_read",
    "pes_timestamp_ms",
    "pes_lead_in",
    "pes_video_lead_in",
    "pes_es_rate_refuted",
    "pes_length_overflow_refuted"
   ],
   "note": "Time stamps proved for all 33 bit values, lead-ins equal the PES header of the standard. Beside the claim: ES_rate is half of what it should be (F19), the length field of large non-video frames is wrong (F20)."
  },
  {
   "property": "C37",
   "status": "partial",
   "theorems": [
    "pcr_written",
    "pcr_read_back_partial",
    "pcr_read_back_refuted"
   ],
   "note": "Writing is proved for all values. Reading back is proved for multiples of 300 below 2^31*300 and false otherwise (F18)."
  },
  {
   "property": "C38",
   "status": "proved",
   "theorems": [
    "vint_roundtrip",
    "vint_any_width",
    "vint_first_byte",
    "vint_unknown"
   ],
   "note": ""
  },
  {
   "property": "C39",
   "status": "partial",
   "theorems": [
    "xiph_lacing_exact",
    "ebml_lacing_exact",
    "fixed_lacing_exact",
    "no_lacing_exact",
    "fixed_lacing_refuted"
   ],
   "note": "Exact for all four kinds of lacing with up to 255 frames (fixed: 2 to 255). False for 256 frames and one fixed size frame (F12)."
  },
  {
   "property": "C40",
   "status": "partial",
   "theorems": [
    "crc32c_is_division",
    "crc32LE_is_division",
    "crc32_is_division",
    "crc16_is_division_partial",
    "crc16_unreduced_refuted",
    "crc8_is_division",
    "crc_incremental",
    "crc32_detects_bursts",
    "crc32_self_check"
   ],
   "note": "Every checksum routine equals polynomial division over GF(2) for every register and data, is incremental, crc32 detects all bursts up to 32 bits and leaves zero when run over data and its own checksum. crc16 alone is not reduced to 16 bits (finding F17; not called anywhere in the repository): its low half still satisfies the division."
  },
  {
   "property": "C41",
   "status": "partial",
   "theorems": [
    "md5_partial",
    "sha256_partial",
    "sha512_conforms",
    "hmac_partial"
   ],
   "note": "All messages below 2^51 bytes (MD5, SHA-256, HMAC) or 2^61 bytes (SHA-384, SHA-512) against RFC 1321, FIPS 180-4 and RFC 2104. From 2^51 bytes on MD5 and SHA-256 write a wrong length byte (F92)."
  },
  {
   "property": "C42",
   "status": "partial",
   "theorems": [
    "sanitize_exact_partial",
    "sanitize_safe_partial",
    "sanitize_query_refuted"
   ],
   "note": "Proved for names without a question mark before the wildcard separator; a question mark switches the filter off (F36)."
  },
  {
   "property": "C43",
   "status": "partial",
   "theorems": [
    "url_parts",
    "url_local",
    "url_stays_inside_partial",
    "url_no_dots_partial",
    "url_print_parse_partial",
    "url_link_relative",
    "url_link_absolute_partial",
    "url_link_from",
    "url_link_host",
    "url_usual_port",
    "url_ext",
    "url_set_port",
    "url_encoded_dots_refuted",
    "url_odd_end_refuted",
    "url_host_only_refuted",
    "url_file_refuted",
    "url_link_query_refuted",
    "url_nested_refuted",
    "url_query_only_refuted",
    "url_bare_v6_refuted"
   ],
   "note": "Every string for the root: local names and texts without percent encoding stay inside, encoded dots do not (F93). Printing and parsing: every value that the syntax can express (ordinary); the exceptions are F93 to F97. Links are proved to resolve as the walk through the path says."
  },
  {
   "property": "C44",
   "status": "partial",
   "theorems": [
    "http_vars_roundtrip",
    "http_vars_read",
    "http_vars_nameless_refuted"
   ],
   "note": "Every map comes back without its nameless entry, which argStr skips; reading is proved for every separator and every text of assignments."
  },
  {
   "property": "C45",
   "status": "partial",
   "theorems": [
    "http_packets",
    "http_body_length",
    "http_body_chunked",
    "http_body_chunks_so_far",
    "http_request_alone",
    "http_head_alone",
    "http_body_until_close",
    "http_skipped_line",
    "http_request_roundtrip",
    "http_get_roundtrip",
    "http_answer_roundtrip",
    "http_send_chunks",
    "http_send_chunk_total",
    "http_negative_length_refuted",
    "http_empty_answer_refuted",
    "http_chunk_extension_refuted",
    "http_trailer_refuted",
    "http_closed_early_refuted",
    "http_send_chunk_long_refuted",
    "http_request_question_refuted"
   ],
   "note": "Every byte stream, well formed or not, and every split; with a body callback up to 2^31 bytes per message. Bodies: announced lengths below 2^31, chunks without extensions (F102). Requests and answers as the library writes them are read back exactly."
  },
  {
   "property": "C46",
   "status": "proved",
   "theorems": [
    "sorter_history",
    "sorter_possible",
    "sorter_duplicate_refuted"
   ],
   "note": "For every history with one entry per track (how the output uses it, and what \"no duplicates\" in the code comments demands); without it entries are lost (F45)."
  },
  {
   "property": "C47",
   "status": "partial",
   "theorems": [
    "address_match_partial",
    "address_range_partial",
    "address_compare",
    "address_prefix_zero_refuted",
    "address_prefix_long_refuted",
    "address_range_zero_refuted"
   ],
   "note": "Proved for prefix lengths 1 to 128 (1 to 32 for IPv4); false for 0 (F39) and above (F40, F41). Name resolution is a parameter."
  },
  {
   "property": "C48",
   "status": "partial",
   "theorems": [
    "split_pieces_partial",
    "split_pieces_unique",
    "split_leading_refuted",
    "trim_exact_partial",
    "trim_single_refuted"
   ],
   "note": "False for texts that begin with the delimiter and hold another one (F33) and for texts whose only non-blank is the first character (F34)."
  },
  {
   "property": "C49",
   "status": "partial",
   "theorems": [
    "backoff_bounded",
    "backoff_monotone",
    "backoff_after",
    "backoff_total",
    "backoff_total_fits",
    "backoff_short_refuted"
   ],
   "note": "Bounds and monotony for limits from 4 ms; the sum is within the limit if the limit is at least 2^(iterations+2), and exceeds it by at most 2 ms per iteration otherwise (F37)."
  },
  {
   "property": "C50",
   "status": "partial",
   "theorems": [
    "buffer_history_partial",
    "buffer_failures",
    "buffer_order",
    "buffer_4gib_refuted",
    "buffer_self_refuted",
    "buffer_equal_refuted"
   ],
   "note": "Proved for histories writing less than 2^32 bytes from memory outside the buffer; false beyond (F42, F43); comparison is inverted (F44)."
  },
  {
   "property": "C51",
   "status": "partial",
   "theorems": [
    "element_need_bytes",
    "find_child_exact",
    "find_child_unknown_size_refuted",
    "sent_uint_reads_back",
    "sent_string_reads_back",
    "sent_int_reads_back_partial",
    "sent_int_reads_back_refuted",
    "sent_block_reads_back",
    "sent_cue_point",
    "sent_ebml_header_partial",
    "sent_ebml_header_refuted",
    "sent_seek_partial",
    "sent_seek_refuted",
    "sent_info_size_partial",
    "sent_info_size_refuted"
   ],
   "note": "Proved except for the refuted corner cases (F08 to F11)."
  },
  {
   "property": "C52",
   "status": "partial",
   "theorems": [
    "ts_mux_demux",
    "about_exact",
    "ts_offset_across_wrap_refuted",
    "ts_large_audio_frame_refuted",
    "psi_whole_way",
    "avc_whole_way_partial"
   ],
   "note": "Proved for codecs whose data goes through unchanged. False for offsets that straddle the wrap of the clock (F21) and for non-video frames of 65520 bytes or more (F20). AAC and opus framing are C63, PAT and PMT C64, H264 and HEVC C65. Not covered: JSON framing."
  },
  {
   "property": "C53",
   "status": "partial",
   "theorems": [
    "ts_demux_negative_length_refuted",
    "ts_demux_overread_refuted",
    "ts_demux_hangs_refuted",
    "ts_mux_demux"
   ],
   "note": "False: three kinds of hostile packets make it copy a negative length, read out of bounds or loop for ever (F22 to F24). Safe on what the server itself sends (C52)."
  },
  {
   "property": "C54",
   "status": "partial",
   "theorems": [
    "random_alphanumeric",
    "random_alphanumeric_onto",
    "uuid_form_partial",
    "uuid_overread_refuted"
   ],
   "note": "The UUID generator always reads past its 16 random bytes (F38); the form is right if that memory is readable."
  },
  {
   "property": "C55",
   "status": "proved",
   "theorems": [
    "shell_split_reads",
    "shell_split_round_trip",
    "shell_single_quote_refuted"
   ],
   "note": "It differs from a shell inside single quotes (F35)."
  },
  {
   "property": "C56",
   "status": "proved",
   "theorems": [
    "replace_all",
    "replace_empty"
   ],
   "note": ""
  },
  {
   "property": "C57",
   "status": "partial",
   "theorems": [
    "tracks_one_owner",
    "tracks_owner_visible",
    "tracks_one_owner_small",
    "tracks_numbers",
    "tracks_stale_claim_refuted",
    "tracks_real_time_refuted",
    "tracks_crash_blocks_refuted",
    "tracks_abandon_lost_refuted"
   ],
   "note": "Every history in which those who claim have mapped the current list, in particular every history in which the list does not grow; the exceptions are F107 and F108."
  },
  {
   "property": "C58",
   "status": "partial",
   "theorems": [
    "jwt_pattern_complete",
    "jwt_pattern_partial",
    "jwt_pattern_refuted",
    "jwt_form_partial",
    "jwt_form_refuted",
    "jwt_stored_partial",
    "jwt_stored_refuted",
    "jwt_signature_partial",
    "jwt_forged_refuted",
    "jwt_short_signature_refuted",
    "jwt_claims_partial",
    "jwt_expiry_refuted",
    "jwt_read",
    "jwt_issued",
    "jwt_viewer_partial",
    "jwt_push_partial",
    "jwt_scope_refuted"
   ],
   "note": "Who gets in is characterised exactly for tokens with a subject without stars whose named key, if there is one, has the type of the algorithm; the exceptions are F111 to F117."
  },
  {
   "property": "C59",
   "status": "partial",
   "theorems": [
    "win_stream",
    "win_track",
    "win_seek",
    "win_active_kept",
    "win_idle_gone",
    "win_idle_only",
    "win_idle_time_partial",
    "win_idle_time_refuted",
    "win_just_updated_refuted",
    "win_audio_partial",
    "win_audio_refuted"
   ],
   "note": "What a round evicts and keeps is characterised exactly for every history of every track; the exceptions to what one would expect are F118 to F120."
  },
  {
   "property": "C60",
   "status": "partial",
   "theorems": [
    "mp4_new",
    "mp4_set_field_partial",
    "mp4_get_field",
    "mp4_field_across_refuted",
    "mp4_text_partial",
    "mp4_container_partial",
    "mp4_fill",
    "mp4_read",
    "mp4_read_large_partial",
    "mp4_read_rest",
    "mp4_sizes",
    "mp4_large_child",
    "mp4_file_partial",
    "mp4_skip_large",
    "mp4_get_past_refuted",
    "mp4_endless_refuted",
    "mp4_child_outside_refuted",
    "mp4_empty_last_refuted",
    "mp4_text_replace_refuted",
    "mp4_stale_refuted",
    "mp4_set_past_refuted",
    "mp4_read_large_refuted",
    "mp4_short_last_refuted"
   ],
   "note": "Proved for fields inside or behind the box, appended texts and containers whose last box is not empty; the remaining cases are false as stated, see F121 to F130."
  },
  {
   "property": "C61",
   "status": "partial",
   "theorems": [
    "cmaf_segment_partial",
    "cmaf_same_time_refuted",
    "cmaf_late_start_refuted",
    "cmaf_negative_offset_refuted",
    "cmaf_newest_refuted",
    "cmaf_empty_refuted"
   ],
   "note": "Proved for ranges that start at a packet and end after the last packet sent, up to a later packet, with distinct times and no negative offsets; each of these conditions is needed, see F131 to F135."
  },
  {
   "property": "C62",
   "status": "partial",
   "theorems": [
    "stun_request",
    "stun_any",
    "stun_answer_partial",
    "stun_unchecked_refuted",
    "stun_last_refuted",
    "stun_length_refuted"
   ],
   "note": "Building is proved for all inputs; answering is exact for well-formed messages, except that a last attribute without value is not seen (F137) and integrity is not required (F136)."
  },
  {
   "property": "C63",
   "status": "partial",
   "theorems": [
    "adts_fields",
    "aac_stream_partial",
    "aac_sent_bytes",
    "aac_header_partial",
    "aac_config",
    "aac_config_of_header",
    "aac_through_ts",
    "aac_clock",
    "aac_clock_near",
    "aac_clock_order",
    "aac_file_read_partial",
    "opus_stream_partial",
    "opus_through_ts",
    "adts_any",
    "aac_header_cut_refuted",
    "aac_empty_refuted",
    "aac_wrap_refuted",
    "aac_objtype_refuted",
    "aac_long_refuted",
    "aac_file_cut_refuted",
    "aac_file_short_refuted",
    "opus_short_refuted",
    "opus_drift_refuted"
   ],
   "note": "Exact for well-formed frames cut outside of headers; cuts within headers, frames without data, object types above four, long packets, cut files and hostile Opus sizes are F139 to F146."
  },
  {
   "property": "C64",
   "status": "partial",
   "theorems": [
    "psi_assemble",
    "psi_assemble_junk",
    "psi_pat_read",
    "psi_pmt_read",
    "psi_buffer_new",
    "psi_pmt_written",
    "psi_pat_written",
    "psi_round_trip",
    "psi_service_buffer_new",
    "psi_sdt_written_partial",
    "psi_whole_way",
    "psi_stale_refuted",
    "psi_pmt_overread_refuted",
    "psi_sdt_descriptor_refuted",
    "psi_many_tracks_refuted",
    "psi_id3_init_refuted",
    "psi_raw_refuted",
    "psi_two_splices_refuted",
    "psi_changed_type_refuted",
    "psi_av1_json_refuted"
   ],
   "note": "Exact for streams in synchronisation and selections that fit; the exceptions are F147 to F156."
  },
  {
   "property": "C65",
   "status": "partial",
   "theorems": [
    "avc_init_sent_partial",
    "avc_init_rebuilt_partial",
    "avc_frame_sent_partial",
    "avc_slice_key_partial",
    "avc_received_partial",
    "avc_received_flags_partial",
    "avc_whole_way_partial",
    "avc_short_lengths_refuted",
    "avc_three_byte_lengths_refuted",
    "avc_size_wrap_refuted",
    "avc_truncated_refuted",
    "avc_key_misplaced_refuted",
    "avc_merged_refuted",
    "avc_split_unit_refuted",
    "avc_no_start_refuted"
   ],
   "note": "Proved for frames of non-empty units behind lengths of four bytes at rising times and parameter sets below 2^15 bytes; the exceptions are F157 to F164."
  },
  {
   "property": "C66",
   "status": "proved",
   "theorems": [
    "error_correction_corrects",
    "other_size_refuted"
   ],
   "note": "For packets of one size, which is what the only caller sends; other_size_refuted shows what happens otherwise. A row is sent when the next one begins."
  },
  {
   "property": "C67",
   "status": "partial",
   "theorems": [
    "redundant_media",
    "mask_understood",
    "made_up_refuted",
    "recovered_refuted",
    "sizes_refuted",
    "short_packet_refuted",
    "history_refuted"
   ],
   "note": "Redundant media packets are proved; recovery does not work (F165 to F170): the refutations say how."
  },
  {
   "property": "C68",
   "status": "partial",
   "theorems": [
    "ogg_stream_partial",
    "ogg_checksum_refuted",
    "ogg_multiple_refuted",
    "ogg_granule_refuted",
    "ogg_end_refuted",
    "ogg_large_header_refuted",
    "ogg_opus_tags_refuted"
   ],
   "note": "Missing because the code does not do it: checksums (F172), packets of a multiple of 255 bytes (F173), positions from 2^31 on (F174), the flag of the last page (F175), large headers (F176)."
  },
  {
   "property": "C69",
   "status": "partial",
   "theorems": [
    "flv_file_read",
    "flv_video",
    "flv_audio_partial",
    "flv_video_init",
    "flv_audio_init",
    "rtmp_video_layout",
    "rtmp_video_partial",
    "enhanced_offset_refuted",
    "av1_offset_refuted",
    "audio_offset_refuted",
    "short_message_refuted",
    "multitrack_audio_refuted"
   ],
   "note": "Missing because the code does not do it: offsets of HEVC alone (F178), of codecs without (F179), of audio (F180), messages with a wrong modifier (F181), the packet type of audio tracks (F182)."
  },
  {
   "property": "C70",
   "status": "partial",
   "theorems": [
    "wav_samples",
    "wav_bytes",
    "wav_file_partial",
    "wav_live",
    "wav_format_read",
    "riff_list_partial",
    "wav_pcm_size_refuted",
    "wav_block_size_refuted",
    "wav_info_refuted",
    "riff_odd_refuted",
    "wav_odd_refuted",
    "wav_32_bits_refuted",
    "wav_large_refuted",
    "riff_overflow_refuted"
   ],
   "note": "Missing because the code does not do it: the size of PCM files (F183), the block size (F184), odd sizes (F186, F187), 32 bits (F188), sizes from 2^32 on (F189, F190)."
  },
  {
   "property": "C71",
   "status": "partial",
   "theorems": [
    "av1_rtp_partial",
    "av1_leb128",
    "av1_unit",
    "av1_small_unit_refuted",
    "av1_cut_short_refuted",
    "av1_wide_size_refuted"
   ],
   "note": "Missing because the code does not do it: units of less than 4 bytes after another (F191), frames cut short (F192), sizes in 6 to 8 bytes (F193)."
  },
  {
   "property": "C72",
   "status": "partial",
   "theorems": [
    "flac_number_size",
    "flac_number_partial",
    "flac_next_partial",
    "flac_frame",
    "flac_info_partial",
    "flac_open",
    "flac_number_refuted",
    "flac_frame_65536_refuted",
    "flac_sample_size_refuted",
    "flac_md5_refuted"
   ],
   "note": "Missing because the code does not do it: frame numbers from 65536 on (F194, F195), sample sizes (F196), the checksum (F197)."
  }
 ]
}