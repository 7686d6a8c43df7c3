{
 "claims": [
  {
   "property": "C01",
   "status": "proved",
   "theorems": [
    "C01_encode_canonical"
   ],
   "note": "canonical grammar and Go-value predicates in BencodeSpec.v"
  },
  {
   "property": "C02",
   "status": "proved",
   "theorems": [
    "C02_decode_encode",
    "C02_min64_rejected",
    "C02_roundtrip_refuted"
   ],
   "note": "positive part plus: any value containing -2^63 is rejected by Decode; C02_roundtrip_refuted is the witness that the unrestricted round trip is false"
  },
  {
   "property": "C03",
   "status": "proved",
   "theorems": [
    "C03_decode_total"
   ],
   "note": "termination via an explicit iteration bound proved sufficient; Go stack exhaustion on deep nesting is not modelled"
  },
  {
   "property": "C04",
   "status": "proved",
   "theorems": [
    "C04_decode_canonical"
   ],
   "note": ""
  },
  {
   "property": "C05",
   "status": "proved",
   "theorems": [
    "C05_encode_order_independent",
    "C05_encode_injective"
   ],
   "note": ""
  },
  {
   "property": "C06",
   "status": "proved",
   "theorems": [
    "C06_container_or_int_input",
    "C06_non_string_value",
    "C06_top_string_refuted"
   ],
   "note": "C06_top_string_refuted is the counterexample for top-level strings"
  },
  {
   "property": "C07",
   "status": "proved",
   "theorems": [
    "C07_GetString",
    "C07_GetInt",
    "C07_GetDict",
    "C07_GetList",
    "C07_GetUint",
    "C07_last_binding"
   ],
   "note": ""
  },
  {
   "property": "C08",
   "status": "proved",
   "theorems": [
    "C08_infohash_raw_bytes",
    "C08_empty_name_collision",
    "C08_distinct_infohash_refuted"
   ],
   "note": "positive part plus the collision theorem for unnamed torrents"
  },
  {
   "property": "C09",
   "status": "proved",
   "theorems": [
    "C09_recomputed_infohash",
    "C09_private_required",
    "C09_one_entry_files_list"
   ],
   "note": "symlinks and the announce URL play no role; go_wf says lengths fit an int"
  },
  {
   "property": "C10",
   "status": "proved",
   "theorems": [
    "C10_vector",
    "C10_negative",
    "C10_Set_panics",
    "C10_Get_panics",
    "C10_spare_index_counts"
   ],
   "note": "agreement with an independent bit-vector over all in-domain call sequences, the exact panic domain, and the spare-bit behaviour"
  },
  {
   "property": "C11",
   "status": "proved",
   "theorems": [
    "C11_FromBytes",
    "C11_FromBytes_rejects"
   ],
   "note": ""
  },
  {
   "property": "C12",
   "status": "proved",
   "theorems": [
    "C12_SetNbits_panics",
    "C12_SetNbits_recounts",
    "C12_boundary_counts_extra_byte",
    "C12_recount_refuted"
   ],
   "note": "C12_recount_refuted is the witness at the excluded boundary"
  },
  {
   "property": "C13",
   "status": "proved",
   "theorems": [
    "C13_Fill",
    "C13_after_Fill",
    "C13_Data5"
   ],
   "note": ""
  },
  {
   "property": "C14",
   "status": "proved",
   "theorems": [
    "C14_Encode",
    "C14_Decode_Encode",
    "C14_Decode_sound",
    "C14_Length_Mtype"
   ],
   "note": "bitfields must have at least one data byte and the total must be below 2^32 bytes"
  },
  {
   "property": "C15",
   "status": "proved",
   "theorems": [
    "C15_DecodeAll_stream",
    "C15_DecodeAll_partial_tail"
   ],
   "note": ""
  },
  {
   "property": "C16",
   "status": "proved",
   "theorems": [
    "C16_Decode_panics",
    "C16_DecodeAll_panics"
   ],
   "note": "also the exact condition for DecodeAll"
  },
  {
   "property": "C17",
   "status": "proved",
   "theorems": [
    "C17_diverges_iff",
    "C17_otherwise_bounded",
    "C17_termination_refuted"
   ],
   "note": "C17_termination_refuted is the looping witness"
  },
  {
   "property": "C18",
   "status": "proved",
   "theorems": [
    "C18_Read_exact"
   ],
   "note": ""
  },
  {
   "property": "C19",
   "status": "proved",
   "theorems": [
    "C19_Encode_request",
    "C19_wire_refuted",
    "C19_own_encoding_lost",
    "C19_Decode_request"
   ],
   "note": "C19_wire_refuted shows the frame is wrong; the other theorems give what is produced and that decoding BEP 3 frames works"
  },
  {
   "property": "C20",
   "status": "proved",
   "theorems": [
    "C20_Encode_piece",
    "C20_DecodeMsgPiece",
    "C20_DecodeMsgPiece_refuses",
    "C20_DecodeMsgHave",
    "C20_DecodeMsgRequest",
    "C20_Decode_never_piece",
    "C20_Decode_piece_panics"
   ],
   "note": ""
  },
  {
   "property": "C21",
   "status": "proved",
   "theorems": [
    "C21_Decode_spare",
    "C21_DecodeAll_spare"
   ],
   "note": "contents only; aliasing of the returned bitfield with the receive buffer is not modelled (the code copies)"
  },
  {
   "property": "C22",
   "status": "proved",
   "theorems": [
    "C22_boundaries",
    "C22_cut_message_lost",
    "C22_any_cut_refuted",
    "C22_cut_hangs_refuted"
   ],
   "note": "positive part plus witnesses that arbitrary cuts lose messages or hang"
  },
  {
   "property": "C23",
   "status": "proved",
   "theorems": [
    "C23_accepts_iff",
    "C23_never_panics",
    "C23_bad_infohash_length"
   ],
   "note": ""
  },
  {
   "property": "C24",
   "status": "proved",
   "theorems": [
    "C24_layout",
    "C24_accessors",
    "C24_valid_iff",
    "C24_always_68"
   ],
   "note": ""
  },
  {
   "property": "C25",
   "status": "proved",
   "theorems": [
    "C25_accept_iff",
    "C25_reply",
    "C25_silent_on_bad",
    "C25_short_id_accepted",
    "C25_short_first_read"
   ],
   "note": ""
  },
  {
   "property": "C26",
   "status": "proved",
   "theorems": [
    "C26_MakeFileList_spans",
    "C26_empty_file_shifts_nothing"
   ],
   "note": "no-overflow domain: P and total below 2^62"
  },
  {
   "property": "C27",
   "status": "proved",
   "theorems": [
    "C27_PieceInfo_intersection"
   ],
   "note": "no-overflow domain as C26"
  },
  {
   "property": "C28",
   "status": "proved",
   "theorems": [
    "C28_PieceLookup_partition",
    "C28_pieces_cover_contents"
   ],
   "note": ""
  },
  {
   "property": "C29",
   "status": "proved",
   "theorems": [
    "C29_bad_hash_length",
    "C29_number_of_hashes",
    "C29_last_piece_exact",
    "C29_surplus_hashes",
    "C29_zero_piece_length"
   ],
   "note": "positive and failing cases, all hash counts"
  },
  {
   "property": "C30",
   "status": "proved",
   "theorems": [
    "C30_GetFiles",
    "C30_span_has_byte"
   ],
   "note": ""
  },
  {
   "property": "C31",
   "status": "proved",
   "theorems": [
    "C31_CalcNumPieces"
   ],
   "note": ""
  },
  {
   "property": "C32",
   "status": "proved",
   "theorems": [
    "C32_dictionary_round_trip",
    "C32_text_round_trip",
    "C32_single_renamed_refuted"
   ],
   "note": ""
  },
  {
   "property": "C33",
   "status": "proved",
   "theorems": [
    "C33_FromDict_terminates",
    "C33_empty_path_panics",
    "C33_FromDict_path_panic",
    "C33_piece_length_zero_panics",
    "C33_no_panic_refuted",
    "C33_negative_length_refuted"
   ],
   "note": "exact panic condition for path lists; C33_no_panic_refuted and C33_negative_length_refuted are witnesses"
  },
  {
   "property": "C34",
   "status": "proved",
   "theorems": [
    "C34_contained",
    "C34_local_path",
    "C34_containment_refuted"
   ],
   "note": "symbolic links are not modelled; C34_containment_refuted is the escape witness"
  },
  {
   "property": "C35",
   "status": "proved",
   "theorems": [
    "C35_OCAT",
    "C35_existing_kept",
    "C35_transient_open_error_refuted",
    "C35_negative_length_panics",
    "C35_negative_length_refused",
    "C35_OCATAll"
   ],
   "note": "C35_existing_kept covers failures after the open; C35_transient_open_error_refuted shows a failing open empties an existing file"
  },
  {
   "property": "C36",
   "status": "proved",
   "theorems": [
    "C36_out_of_range",
    "C36_bad_hash"
   ],
   "note": ""
  },
  {
   "property": "C37",
   "status": "proved",
   "theorems": [
    "C37_write_then_read",
    "C37_any_history"
   ],
   "note": "C37_any_history iterates over arbitrary sequences of writes"
  },
  {
   "property": "C38",
   "status": "proved",
   "theorems": [
    "C38_confined"
   ],
   "note": "a crash leaves the files as a failed system call at that point does; reordering by the disk cache is outside the model"
  },
  {
   "property": "C39",
   "status": "proved",
   "theorems": [
    "C39_Validate",
    "C39_faults",
    "C39_open_and_validate"
   ],
   "note": "C39_open_and_validate goes through Validate from files on disk"
  },
  {
   "property": "C40",
   "status": "proved",
   "theorems": [
    "C40_served",
    "C40_not_had",
    "C40_panics_iff_past_piece_length",
    "C40_stale_tail",
    "C40_bad_index",
    "C40_stale_refuted"
   ],
   "note": "C40_stale_refuted is the two-request witness; panics only past the piece length or, while incomplete, past the bitfield's last byte"
  },
  {
   "property": "C41",
   "status": "proved",
   "theorems": [
    "C41_hashes",
    "C41_large_pieces_diverge",
    "C41_zero_piece_length_panics",
    "C41_negative_piece_length",
    "C41_far_below_zero_diverges",
    "C41_any_reads",
    "C41_missing",
    "C41_read_error"
   ],
   "note": "reads return any positive count up to the buffer or fail; divergence stated as no fuel sufficing"
  },
  {
   "property": "C42",
   "status": "proved",
   "theorems": [
    "C42_create_then_validate"
   ],
   "note": ""
  },
  {
   "property": "C43",
   "status": "proved",
   "theorems": [
    "C43_bookkeeping",
    "C43_no_such_piece",
    "C43_bit_outside"
   ],
   "note": "histories of calls from a single goroutine holding the tracker lock; every method takes it"
  },
  {
   "property": "C44",
   "status": "proved",
   "theorems": [
    "C44_rarest_first"
   ],
   "note": ""
  },
  {
   "property": "C45",
   "status": "proved",
   "theorems": [
    "C45_not_exclusive",
    "C45_exclusive_refuted"
   ],
   "note": "C45_exclusive_refuted is the two-peer witness"
  },
  {
   "property": "C46",
   "status": "proved",
   "theorems": [
    "C46_64th_peer",
    "C46_largest_bucket_refuted"
   ],
   "note": "C46_largest_bucket_refuted is the 64-peer witness"
  },
  {
   "property": "C47",
   "status": "proved",
   "theorems": [
    "C47_Unregister"
   ],
   "note": ""
  },
  {
   "property": "C48",
   "status": "proved",
   "theorems": [
    "C48_handleBitfield",
    "C48_wrong_size",
    "C48_over_the_wire"
   ],
   "note": "C48_over_the_wire composes encoding, decoding and registration"
  },
  {
   "property": "C49",
   "status": "proved",
   "theorems": [
    "C49_diverges",
    "C49_exactly_when_nonzero",
    "C49_covering_refuted"
   ],
   "note": "divergence stated as no fuel sufficing; C49_covering_refuted is the witness against the intended property"
  },
  {
   "property": "C50",
   "status": "proved",
   "theorems": [
    "C50_every_admission",
    "C50_window",
    "C50_written_bytes_refuted"
   ],
   "note": "One direction modelled (Read and Write are the same code); sequentially consistent memory. C50_written_bytes_refuted: bytes written per window are unbounded."
  },
  {
   "property": "C51",
   "status": "proved",
   "theorems": [
    "C51_wedge",
    "C51_otherwise_live",
    "C51_no_ticks"
   ],
   "note": "Hypotheses: the spinning call is in a reachable state with limit <= 0 and a non-negative counter, and unlimited calls do not overflow the 64-bit counter. C51_case reaches both wedges."
  },
  {
   "property": "C52",
   "status": "proved",
   "theorems": [
    "C52_totals",
    "C52_read_total_refuted",
    "C52_limit"
   ],
   "note": "Counter compared modulo 2^64 wrap-around. C52_read_total_refuted: Read counts the buffer size."
  },
  {
   "property": "C53",
   "status": "proved",
   "theorems": [
    "C53_exclusive",
    "C53_order",
    "C53_looks",
    "C53_never_wait",
    "C53_whole_buffer",
    "C53_data_with_error_refuted",
    "C53_silent_end_refuted"
   ],
   "note": "Interleavings of Run and recvLoop with sequentially consistent memory; conn.Read is arbitrary (any data that fits, any error, partial writes into the buffer while pending). C53_data_with_error_refuted, C53_silent_end_refuted: the exceptions."
  },
  {
   "property": "C54",
   "status": "proved",
   "theorems": [
    "C54_deadline_after_end",
    "C54_needs_data",
    "C54_deadlock",
    "C54_leak",
    "C54_stuck"
   ],
   "note": "Same model as C53. C54_stuck characterises every dead end."
  },
  {
   "property": "C55",
   "status": "proved",
   "theorems": [
    "C55_never_returns",
    "C55_nil_send",
    "C55_one_error",
    "C55_second_error",
    "C55_both_fail",
    "C55_incomplete",
    "C55_quiet_end",
    "C55_wait_count",
    "C55_wait_early_refuted"
   ],
   "note": "Loop, pingLoop, recvLoop, requestLoop and the WaitGroup; the work between channel operations is nondeterministic. C55_wait_early_refuted: Wait passes before requestLoop starts. WaitGroup panics are steps of C105."
  },
  {
   "property": "C56",
   "status": "proved",
   "theorems": [
    "C56_compact",
    "C56_exactly"
   ],
   "note": ""
  },
  {
   "property": "C57",
   "status": "proved",
   "theorems": [
    "C57_params",
    "C57_any_url",
    "C57_bare_url",
    "C57_id_iff",
    "C57_own_id",
    "C57_peer_id_refuted",
    "C57_bad_url_panics"
   ],
   "note": "The announce URL enters as its raw query (None: it does not parse); url.Parse itself is not modelled. Decoding is a lenient form decoder written independently. C57_peer_id_refuted is the double-escape witness."
  },
  {
   "property": "C58",
   "status": "proved",
   "theorems": [
    "C58_response",
    "C58_failure_reason",
    "C58_body",
    "C58_body_total",
    "C58_negative_refuted"
   ],
   "note": "net.ParseIP is an arbitrary function here (C103 models it); HTTP transport is outside the model. C58_negative_refuted is the wrap-around witness."
  },
  {
   "property": "C59",
   "status": "proved",
   "theorems": [
    "C59_stats"
   ],
   "note": ""
  },
  {
   "property": "C60",
   "status": "proved",
   "theorems": [
    "C60_left_is_zero",
    "C60_left_refuted"
   ],
   "note": "C60_left_refuted: partially present torrent, left=0 announced."
  },
  {
   "property": "C61",
   "status": "proved",
   "theorems": [
    "C61_SegmentData",
    "C61_positions",
    "C61_bad_size_panics",
    "C61_HashSlices"
   ],
   "note": "C61_bad_size_panics gives the behaviour for segSize <= 0"
  },
  {
   "property": "C62",
   "status": "proved",
   "theorems": [
    "C62_lists",
    "C62_remove_checks_nothing"
   ],
   "note": "C62_remove_checks_nothing shows what happens outside the domain"
  },
  {
   "property": "C63",
   "status": "proved",
   "theorems": [
    "C63_set",
    "C63_Items",
    "C63_Items_refuted"
   ],
   "note": "map iteration order is an arbitrary permutation"
  },
  {
   "property": "C64",
   "status": "proved",
   "theorems": [
    "C64_remove_swap",
    "C64_panics"
   ],
   "note": "For all slices and indices; also states what the shared backing array holds."
  },
  {
   "property": "C65",
   "status": "proved",
   "theorems": [
    "C65_accepts",
    "C65_only",
    "C65_rejects",
    "C65_exact",
    "C65_wrap_refuted",
    "C65_sign_refuted"
   ],
   "note": "strings.ToUpper on text with non-ASCII bytes is a parameter assumed (unicode_ok) to leave a byte that is no digit, sign or unit letter. Silent wrap-around shown by two _refuted theorems."
  },
  {
   "property": "C66",
   "status": "proved",
   "theorems": [
    "C66_shape",
    "C66_terminates",
    "C66_first",
    "C66_diverges"
   ],
   "note": "The 63-bit source is universally quantified; termination is characterised exactly."
  },
  {
   "property": "C67",
   "status": "proved",
   "theorems": [
    "C67_small",
    "C67_big",
    "C67_float"
   ],
   "note": "float64 conversion modelled as an exact integer with 53 significant bits; the formatted text (fmt) is not modelled, the number is given as an exact fraction."
  },
  {
   "property": "C68",
   "status": "proved",
   "theorems": [
    "C68_validate",
    "C68_start",
    "C68_start_bad",
    "C68_refused",
    "C68_no_package_variable",
    "C68_receiver_refuted"
   ],
   "note": "flag parsing is outside the model: Validate starts from the filled fields. Includes the refutation that Validate checks its receiver's limits."
  },
  {
   "property": "C69",
   "status": "proved",
   "theorems": [
    "C69_same",
    "C69_ipv4_text",
    "C69_ipv6_text",
    "C69_rfc5952_injective",
    "C69_any"
   ],
   "note": "addresses of 4 or 16 bytes; C69_any covers slices of other lengths up to their text."
  },
  {
   "property": "C70",
   "status": "proved",
   "theorems": [
    "C70_choke_refuted"
   ],
   "note": ""
  },
  {
   "property": "C71",
   "status": "proved",
   "theorems": [
    "C71_reply_and_rest_dropped",
    "C71_bitfield_lost_refuted"
   ],
   "note": ""
  },
  {
   "property": "C72",
   "status": "proved",
   "theorems": [
    "C72_PieceHash"
   ],
   "note": ""
  },
  {
   "property": "C73",
   "status": "proved",
   "theorems": [
    "C73_ipv4",
    "C73_ipv6_refuted",
    "C73_no_address",
    "C73_dialled"
   ],
   "note": "C73_ipv6_refuted holds for every IPv6 address."
  },
  {
   "property": "C74",
   "status": "proved",
   "theorems": [
    "C74_flags",
    "C74_MakeState",
    "C74_initial_state_refuted"
   ],
   "note": ""
  },
  {
   "property": "C75",
   "status": "proved",
   "theorems": [
    "C75_accepts",
    "C75_only",
    "C75_overrun",
    "C75_unambiguous",
    "C75_canonical_only_refuted"
   ],
   "note": "C75_accepts and C75_only are the two directions, C75_overrun the capacity case; C75_canonical_only_refuted: non-canonical text is accepted."
  },
  {
   "property": "C76",
   "status": "proved",
   "theorems": [
    "C76_rejects",
    "C76_error_or_message",
    "C76_after_error",
    "C76_gives_up",
    "C76_skips_frame_refuted"
   ],
   "note": "With C14_Decode_sound (messages) and C16_Decode_panics this covers every input. C76_skips_frame_refuted: the decoder does not skip the bad frame."
  },
  {
   "property": "C77",
   "status": "proved",
   "theorems": [
    "C77_polite_peer_served",
    "C77_every_answer_genuine",
    "C77_bad_index_ends_session",
    "C77_oversized_request_panics"
   ],
   "note": "Answers to other messages of a read are those of C22/C40; polite, reply and genuine are in SessionSpec.v."
  },
  {
   "property": "C78",
   "status": "proved",
   "theorems": [
    "C78_requestLoop_sends_nothing",
    "C78_requestLoop_stuck",
    "C78_received_piece_panics",
    "C78_files_never_written"
   ],
   "note": "C78_requestLoop_stuck needs a non-empty piece; files_never_written is the last part. A piece message after other messages of the same read: the decoder panics on it as well, by C16."
  },
  {
   "property": "C79",
   "status": "proved",
   "theorems": [
    "C79_connection_bytes",
    "C79_stops"
   ],
   "note": "net.Conn.Write is atomic with respect to other Writes (documented by package net); after a failed Write nothing more can be written."
  },
  {
   "property": "C80",
   "status": "proved",
   "theorems": [
    "C80_alone",
    "C80_bytes",
    "C80_results",
    "C80_read",
    "C80_read_after_write",
    "C80_torn_refuted"
   ],
   "note": "Granularity: one WriteAt/ReadAt under the file's RWMutex is one action; the map lfps is not modified meanwhile. Each call has its own slice."
  },
  {
   "property": "C81",
   "status": "proved",
   "theorems": [
    "C81_Move",
    "C81_Move_fails",
    "C81_Move_then_write",
    "C81_Close",
    "C81_closed_pieces",
    "C81_unopened_pieces",
    "C81_CloseAll",
    "C81_CloseAll_leaves_open_refuted"
   ],
   "note": "A file's lock is held for one call (not represented); a close(2) that fails has closed the descriptor."
  },
  {
   "property": "C82",
   "status": "proved",
   "theorems": [
    "C82_CreateZeroFilledFile",
    "C82_negative",
    "C82_AppendZeros"
   ],
   "note": "Directories are not represented: MkdirAll only succeeds or fails."
  },
  {
   "property": "C83",
   "status": "proved",
   "theorems": [
    "C83_NewSwarm",
    "C83_announce",
    "C83_tracker_outcomes",
    "C83_no_torrent",
    "C83_files",
    "C83_failed_start_changes_nothing_refuted",
    "C83_torrent_file_kept_refuted"
   ],
   "note": "told in C83_NewSwarm is tracker.Get, described by C83_announce, C83_tracker_outcomes and C58. HTTP is not represented beyond the query sent and the body received; HTTP status codes are ignored by the code."
  },
  {
   "property": "C84",
   "status": "proved",
   "theorems": [
    "C84_main_swarm",
    "C84_main_other",
    "C84_swarm_fails",
    "C84_info_status",
    "C84_no_listen",
    "C84_listener"
   ],
   "note": "The handlers launched are the subject of C50-C55 and C77-C79; printing is left out."
  },
  {
   "property": "C85",
   "status": "proved",
   "theorems": [
    "C85_dies",
    "C85_dies_iff",
    "C85_at_most_63",
    "C85_one_peer_kills",
    "C85_polite_peers_harmless_refuted"
   ],
   "note": "Handling one message is one step (RegisterBF holds the tracker's mutex; handleRequest only reads). Buffers shorter than 2^32 bytes, piece length below 2^32 - 13. Deaths of other kinds (Accept error: C84; out of memory) are not steps of this model."
  },
  {
   "property": "C86",
   "status": "proved",
   "theorems": [
    "C86_dialled_not_told",
    "C86_accepted_told"
   ],
   "note": "begins: a prefix, for connections whose writes failed."
  },
  {
   "property": "C87",
   "status": "proved",
   "theorems": [
    "C87_lawful",
    "C87_own_messages",
    "C87_files",
    "C87_isolated",
    "C87_started"
   ],
   "note": "lawful (RunSpec) is the first part; C87_own_messages the second. swarm.Bf is not written after Validate. C87_isolated assumes no disk faults, since a shared fault oracle would couple connections."
  },
  {
   "property": "C88",
   "status": "proved",
   "theorems": [
    "C88_tracker",
    "C88_never_forgotten",
    "C88_next"
   ],
   "note": "Dead connections stay in the model's list so that their announcements can be referred to."
  },
  {
   "property": "C89",
   "status": "proved",
   "theorems": [
    "C89_directions",
    "C89_apart",
    "C89_throughput_written",
    "C89_throughput_read",
    "C89_resets",
    "C89_stop_pairs",
    "C89_can_stop",
    "C89_refill",
    "C89_lets_in_write",
    "C89_lets_in_read",
    "C89_idle",
    "C89_idle_write_stuck",
    "C89_idle_read_stuck",
    "C89_new_unlimited",
    "C89_new_set"
   ],
   "note": "The ticker's channel holds one tick; ticks fired while it is full are lost (C89_resets is an upper bound). SetRate calls are operations of the direction models (RateModel)."
  },
  {
   "property": "C90",
   "status": "proved",
   "theorems": [
    "C90_linearizable",
    "C90_real_time",
    "C90_waits",
    "C90_released",
    "C90_dies",
    "C90_safe",
    "C90_tracker",
    "C90_next"
   ],
   "note": "Sequentially consistent memory; a step is one registration, one node of Unregister, one node visited by NextPiece. The swarm bitfield read by NextPiece is not written after Validate."
  },
  {
   "property": "C91",
   "status": "proved",
   "theorems": [
    "C91_number",
    "C91_reads",
    "C91_only",
    "C91_program",
    "C91_runs",
    "C91_refused"
   ],
   "note": "Packages flag (CommandLine, ExitOnError) and strconv.ParseUint of Go 1.18 are transcribed from their documentation and source as known, not from this repository; the usage text is not modelled."
  },
  {
   "property": "C92",
   "status": "proved",
   "theorems": [
    "C92_never_wrong",
    "C92_received",
    "C92_served",
    "C92_download",
    "C92_started"
   ],
   "note": "The downloader is LeechSpec.leech. Requests past the end of a piece are excluded here (C40, C85 say what they do); TCP is assumed to deliver the written bytes in order."
  },
  {
   "property": "C93",
   "status": "proved",
   "theorems": [
    "C93_publishable",
    "C93_text",
    "C93_loaded",
    "C93_seeded",
    "C93_renamed_refuted"
   ],
   "note": "The program has no command that writes a torrent file; the file is any canonical bencoding of a dictionary containing announce and the encoded info dictionary. C93_renamed_refuted shows the single-file naming condition is needed."
  },
  {
   "property": "C94",
   "status": "proved",
   "theorems": [
    "C94_report",
    "C94_distinct",
    "C94_forged_refuted",
    "C94_silent",
    "C94_main",
    "C94_state",
    "C94_peers",
    "C94_five",
    "C94_response",
    "C94_message"
   ],
   "note": "fmt's %v of a float (strconv's shortest text) is an arbitrary function whose output has no colon and no newline. Standard error (log lines, panics, usage) is not modelled. C94_forged_refuted is the newline case."
  },
  {
   "property": "C95",
   "status": "proved",
   "theorems": [
    "C95_quiet",
    "C95_silent",
    "C95_patient",
    "C95_pings",
    "C95_two",
    "C95_two_refuted",
    "C95_left",
    "C95_late",
    "C95_closed",
    "C95_timely"
   ],
   "note": "Clocks do not drift and a ticker ticks on time; the time from a tick to the arrival of the keep-alive (scheduling, write, network) is the delay of C95_two. Data available before the deadline is read (poll.FD.Read). C95_two_refuted shows the bound of one minute is exact."
  },
  {
   "property": "C96",
   "status": "proved",
   "theorems": [
    "C96_survive",
    "C96_truth",
    "C96_quiet",
    "C96_files",
    "C96_deaf",
    "C96_whole",
    "C96_large",
    "C96_any_reads_refuted"
   ],
   "note": "C96_survive is the part about deaths. aligned (NetSpec) says a read ends at a message boundary of what was written so far; TCP delivers bytes in order and keeps them. C96_any_reads_refuted is the 40-piece case; C96_large_case shows the hypotheses of C96_large are met by a torrent of exactly 130528 pieces. What a gotor receives from other programs is C85-C88."
  },
  {
   "property": "C97",
   "status": "proved",
   "theorems": [
    "C97_start",
    "C97_main",
    "C97_running",
    "C97_program",
    "C97_contained",
    "C97_ends",
    "C97_contained_refuted",
    "C97_accepted_starts_refuted"
   ],
   "note": "named (SafeSpec) reads the torrent from the disk as it is before the start. C97_contained_refuted is the '..' case and C97_accepted_starts_refuted the crash. Directories are not part of the disk model; memory exhaustion by a huge piece length or file is not modelled. C83 has the exact outcome for well-formed torrents."
  },
  {
   "property": "C98",
   "status": "proved",
   "theorems": [
    "C98_swarm",
    "C98_channels",
    "C98_lawful",
    "C98_handled",
    "C98_dies",
    "C98_dies_iff",
    "C98_lock",
    "C98_settles",
    "C98_zero_limit"
   ],
   "note": "Memory is sequentially consistent: a step of gstep is a channel operation, a lock operation, a system call or an access to the shared budget. C98_swarm and C98_channels are the refinements (views in ProcSpec). C98_settles is possibility from every state (no fairness is assumed of Go's scheduler). The read side of the limiter is not used by the code (C51)."
  },
  {
   "property": "C99",
   "status": "proved",
   "theorems": [
    "C99_sockets",
    "C99_never_fewer",
    "C99_few",
    "C99_visitors",
    "C99_silent",
    "C99_asks_forever",
    "C99_five",
    "C99_takes_one",
    "C99_busy"
   ],
   "note": "A process with all its sockets in use gets an error from Accept, on which runListener panics (pc_socks is the number it may have open besides the listener's). C99_visitors and C99_silent give the runs."
  },
  {
   "property": "C100",
   "status": "proved",
   "theorems": [
    "C100_one_by_one",
    "C100_one_by_one_safe",
    "C100_length",
    "C100_five_safe",
    "C100_steps",
    "C100_never_waits",
    "C100_five_finish",
    "C100_safe_refuted",
    "C100_kept_refuted"
   ],
   "note": "C100_safe_refuted (six connections) and C100_kept_refuted (two) are the violations. Words are loaded and stored atomically, in any order within an append; growslice copies at once. No code reads phs, so that a lost handler has no further consequence; a write outside of the array has any."
  },
  {
   "property": "C101",
   "status": "proved",
   "theorems": [
    "C101_loaded",
    "C101_unique",
    "C101_exactly",
    "C101_no_files",
    "C101_zero",
    "C101_pathless",
    "C101_refused"
   ],
   "note": "The statement about crashes is C101_exactly (fourth part), C101_zero and C101_pathless. Reading the file is C83. For numbers outside the range loading ends (C33) with an outcome not described here."
  },
  {
   "property": "C102",
   "status": "proved",
   "theorems": [
    "C102_served",
    "C102_starts",
    "C102_newcomer",
    "C102_seeds"
   ],
   "note": "Composes C91, C101, C83, C85-C88 and C98. WholeSpec has the notions; describes is C101's header, lists_files and lies. C102_newcomer is possibility from every state (no fairness is assumed of Go's scheduler), for requests inside pieces in groups of at most a buffer. Assumes no file of the torrent is listed twice and SHA-1 gives 20 bytes."
  },
  {
   "property": "C103",
   "status": "proved",
   "theorems": [
    "C103_parse",
    "C103_none",
    "C103_round_trip",
    "C103_round_trip_4",
    "C103_dialled",
    "C103_peers",
    "C103_named_refuted"
   ],
   "note": "net.ParseIP is modelled as in Go 1.18 (not in the repository). In C58 it is still an arbitrary function, so C58 holds for it too. C103_named_refuted is an answer naming a DNS name and an IPv6 address."
  },
  {
   "property": "C104",
   "status": "proved",
   "theorems": [
    "C104_one_file",
    "C104_started",
    "C104_crash",
    "C104_total_wraps_refuted"
   ],
   "note": "Domain: absolute values below 2^62 for the one-file table (numbers nearer the edge wrap); the starting theorems have no bounds. Torrents of several files with negative numbers are covered by the starting theorems only."
  },
  {
   "property": "C105",
   "status": "proved",
   "theorems": [
    "C105_two_started",
    "C105_panics",
    "C105_in_time",
    "C105_late",
    "C105_visitor_refuted"
   ],
   "note": "sync.WaitGroup as in Go 1.18 (not in the repository): sleeping, waking and checking are separate steps; a blocked step in LoopModel for which dies holds is a panic, a death in ProcModel. C105_late and C105_visitor_refuted are possibilities, and say nothing about how likely the schedule is."
  },
  {
   "property": "C106",
   "status": "proved",
   "theorems": [
    "C106_parses",
    "C106_refuses",
    "C106_parts",
    "C106_asked",
    "C106_unreachable",
    "C106_crash",
    "C106_needs_http",
    "C106_start_fails",
    "C106_bad_announce_reported_refuted",
    "C106_udp_tracker_refuted"
   ],
   "note": "net/url.Parse and the checks of net/http before a connection is opened are modelled as in Go 1.18 (not in the repository). In the other properties the network is arbitrary, so they hold for this one. Servers, redirects and proxies are one arbitrary function from URL and query to an answer; the user part is parsed but its header is left out."
  },
  {
   "property": "C107",
   "status": "proved",
   "theorems": [
    "C107_executions",
    "C107_records",
    "C107_greeting",
    "C107_only_races",
    "C107_connections_race",
    "C107_limiter_race",
    "C107_late_start_race",
    "C107_no_races_refuted"
   ],
   "note": "RaceModel adds to every step of ProcModel the accesses the code of that step makes; C107_executions says its runs are exactly ProcModel's. Happens-before has more edges than Go promises in one place (atomic operations), so C107_only_races holds for the traces as given and the converses are the stronger for it: they give pairs unordered even so. FromIncoming is one step, so with log's lock counted the greetings are ordered by it; the converse of (a) is stated without."
  },
  {
   "property": "C108",
   "status": "proved",
   "theorems": [
    "C108_loaded_clean",
    "C108_opens",
    "C108_any",
    "C108_refines",
    "C108_nested_refuted",
    "C108_tree",
    "C108_calls_refine",
    "C108_move",
    "C108_move_works",
    "C108_move_safe",
    "C108_account",
    "C108_all_account",
    "C108_too_few",
    "C108_close",
    "C108_leak_refuted",
    "C108_emptied_refuted"
   ],
   "note": "TreeModel puts directories and descriptors under FsModel's calls; C108_refines says each of its runs is a run of FsModel with some failures. No links, permissions or other processes; descriptors of sockets and of other users of the limit are part of the number given. os.MkdirAll works on the components of the path's place. A directory at the path of a missing file, rename over directories and so on are errors as on Linux."
  },
  {
   "property": "C109",
   "status": "proved",
   "theorems": [
    "C109_still",
    "C109_exactly",
    "C109_made",
    "C109_fills",
    "C109_fails",
    "C109_read_error",
    "C109_descriptors",
    "C109_large_pieces_diverge",
    "C109_grown_refuted",
    "C109_shrunk_refuted"
   ],
   "note": "SeenModel generalises CreateModel: size and data of a file are independent, and failing calls and open descriptors are visible. C109_still says it is CreateModel when they agree. Sizes are not negative and the totals below 2^62. Files without end are outside (reading does not stop)."
  },
  {
   "property": "C110",
   "status": "proved",
   "theorems": [
    "C110_done",
    "C110_never",
    "C110_safe",
    "C110_late",
    "C110_screen",
    "C110_final",
    "C110_clean_end_refuted"
   ],
   "note": "Characters are code points (Printf's UTF-8 and the terminal's reading of it cancel), one column each; the time of printing is not counted. No code in the repository calls Spinner."
  },
  {
   "property": "C111",
   "status": "proved",
   "theorems": [
    "C111_refines",
    "C111_main",
    "C111_any",
    "C111_starts",
    "C111_exactly",
    "C111_too_few",
    "C111_none",
    "C111_listens",
    "C111_no_listener",
    "C111_started_listens_refuted",
    "C111_nested_refuted",
    "C111_life"
   ],
   "note": "BootModel is StartModel over TreeModel. One descriptor is counted for the tracker's connection; it is never closed by the program (the body is read but not closed) and counts as collectable afterwards. Descriptors needed for name lookup, by the runtime or by standard streams are part of the number given. C111_life takes ProcModel's number of sockets to be what the listener leaves."
  },
  {
   "property": "C112",
   "status": "proved",
   "theorems": [
    "C112_used",
    "C112_passed",
    "C112_upload",
    "C112_strict_refuted",
    "C112_greeting_refuted"
   ],
   "note": "Over ProcModel. Counted are the bytes handed to the socket, also by a write that fails part of the way. Bytes sent to a connection whose handshake fails (it gets no handler) are not counted. C112_strict_refuted and C112_greeting_refuted are the false halves. With R = -1 there is no limit; with R <= 0 otherwise nothing passes (C98)."
  },
  {
   "property": "C113",
   "status": "proved",
   "theorems": [
    "C113_refines",
    "C113_fits",
    "C113_dies",
    "C113_round",
    "C113_complete",
    "C113_enough",
    "C113_visitors",
    "C113_making",
    "C113_makes",
    "C113_making_dies",
    "C113_seeder",
    "C113_seeder_kills",
    "C113_memory_refuted"
   ],
   "note": "MemModel is ProcModel with a count of bytes; only what cannot be given back is counted, so the process needs at least that much: the theorems that it dies hold a fortiori of the real process, C113_enough says only that these bytes fit. Sizes are Go's on a 64-bit machine (a request message of 20 bytes and a pointer to it of 8); growing msgs by append copies more."
  },
  {
   "property": "C114",
   "status": "proved",
   "theorems": [
    "C114_refines",
    "C114_lift",
    "C114_state",
    "C114_names",
    "C114_decoded",
    "C114_registered",
    "C114_keepalives",
    "C114_never",
    "C114_clients",
    "C114_lines",
    "C114_boot",
    "C114_keepalive_refuted",
    "C114_forged_refuted"
   ],
   "note": "LogModel attaches the log lines to the steps of ProcModel and to NewSwarm. A line that a goroutine writes between two of its steps is logged with the step before it, so the order of lines of different goroutines is one of those possible, not all of them; the theorems count lines or look at one goroutine's. The header (date and time), error texts and %v of a percentage are arbitrary bytes. 'Listening on port' is a constructor but not placed: the process starts listening. C114_keepalive_refuted and C114_forged_refuted are the false halves; the forged line holds for every header and error text."
  },
  {
   "property": "C115",
   "status": "proved",
   "theorems": [
    "C115_same",
    "C115_place",
    "C115_final",
    "C115_byte",
    "C115_truncated",
    "C115_text",
    "C115_number",
    "C115_end_refuted",
    "C115_hopeless_refuted"
   ],
   "note": "DiagModel is BencodeModel's decoder with the cause and the cursor; C115_same ties it to Decode for any capacity, the others are for slices without spare capacity. C115_place gives what stands on both sides of the cursor for each error (so also when the panic is in the middle of a string). The bound of 18 digits is needed: C115_hopeless_refuted. C115_end_refuted is the other false half."
  },
  {
   "property": "C116",
   "status": "proved",
   "theorems": [
    "C116_fips",
    "C116_conform",
    "C116_writes",
    "C116_padded",
    "C116_length",
    "C116_valid",
    "C116_refused",
    "C116_infohash",
    "C116_collision",
    "C116_twins",
    "C116_same_torrent",
    "C116_only_twins",
    "C116_seeded",
    "C116_genuine_refuted"
   ],
   "note": "crypto/sha1 is not in the repository; ShaModel is its Go 1.18 source (sha1.go, blockGeneric). ShaSpec is FIPS 180-4 as a relation, so C116_fips is both existence and uniqueness; beyond 2^61 bytes the length field wraps and the standard says nothing. C116_seeded is for any hash function and any twins; the seeder's directory has the creator's name. C116_genuine_refuted is the false half, with the SHAttered blocks."
  },
  {
   "property": "C117",
   "status": "proved",
   "theorems": [
    "C117_same",
    "C117_same_answer",
    "C117_file",
    "C117_first",
    "C117_answer",
    "C117_reason",
    "C117_tells",
    "C117_path",
    "C117_path_format",
    "C117_path_other",
    "C117_kind",
    "C117_fatal",
    "C117_source_refuted",
    "C117_missing_refuted",
    "C117_both_refuted",
    "C117_nil_refuted",
    "C117_percent_refuted",
    "C117_peers_refuted",
    "C117_want_refuted"
   ],
   "note": "SayModel is LayoutModel's and TrackerModel's loading with the error kept, and the text of each error; C117_same and C117_same_answer tie it to them. The place of a dictionary in memory is an arbitrary function, as are the texts of errors of the operating system and net/http and what fmt prints for a verb with flags or width in a bad path. Without sane numbers C117_file still gives the fault, but not the numbers a and b. The error text depends on a Go map's order nowhere, except in %v of a dictionary, which fmt sorts."
  },
  {
   "property": "C118",
   "status": "proved",
   "theorems": [
    "C118_flags",
    "C118_values",
    "C118_only",
    "C118_silent",
    "C118_tells",
    "C118_panic_tells",
    "C118_apart",
    "C118_usage",
    "C118_form",
    "C118_wd",
    "C118_text",
    "C118_number",
    "C118_quoted",
    "C118_quoted_one",
    "C118_which_refuted",
    "C118_range_refuted",
    "C118_helped_refuted"
   ],
   "note": "UsageModel is FlagModel's flag.Parse and UtilsModel's Validate with the reason kept, the texts of package flag (Go 1.18: failf, PrintDefaults, strconv.Quote) and of the runtime's panic. C118_flags and C118_values are tied to gotor, FlagModel's program. How a value that is not ASCII is quoted and put into upper case are arbitrary functions; so are the program's name and the goroutine trace. C118_only covers every complaint; which fault a panic names is stated for ASCII limits."
  },
  {
   "property": "C119",
   "status": "proved",
   "theorems": [
    "C119_frames",
    "C119_decode",
    "C119_bits",
    "C119_limits",
    "C119_lookup",
    "C119_entry",
    "C119_write",
    "C119_refused",
    "C119_path",
    "C119_opened",
    "C119_encode",
    "C119_encodes",
    "C119_texts",
    "C119_piece_refuted",
    "C119_piece",
    "C119_cut_refuted",
    "C119_exists_refuted",
    "C119_never"
   ],
   "note": "TellModel is WireModel's, BitfieldModel's, LayoutModel's, FsModel's and BencodeModel's functions with the reason kept; C119_decode, C119_refused, C119_path and C119_encodes tie it to them. %T of a Go value with no encoding is a parameter (values other than strings, integers, dictionaries and lists are one case of the model)."
  },
  {
   "property": "C120",
   "status": "proved",
   "theorems": [
    "C120_write",
    "C120_write_iff",
    "C120_write_faults",
    "C120_write_others",
    "C120_write_nil",
    "C120_write_leak_refuted",
    "C120_round",
    "C120_clean",
    "C120_close_clean",
    "C120_closed",
    "C120_absolute_refuted",
    "C120_dot_refuted",
    "C120_parent_refuted",
    "C120_dummies",
    "C120_memory",
    "C120_negative",
    "C120_wraps_refuted",
    "C120_no_panic",
    "C120_CheckError",
    "C120_CheckFatal",
    "C120_CheckFatal_passes"
   ],
   "note": "HelpModel, over TreeModel's file system; os.RemoveAll (Go 1.18) for one path element, its own descriptors not counted; what a failed removal leaves is arbitrary. Of package testing only the failed flag, the log and the end of a test are kept."
  },
  {
   "property": "C121",
   "status": "proved",
   "theorems": [
    "C121_leads",
    "C121_no_links",
    "C121_same_as",
    "C121_loop",
    "C121_elsewhere",
    "C121_contained",
    "C121_outside",
    "C121_directory",
    "C121_link_inside_refuted",
    "C121_directory_refuted",
    "C121_two_are_one_refuted",
    "C121_program",
    "C121_same_program",
    "C121_program_refuted"
   ],
   "note": "LinkModel is FsModel's OCAT with paths resolved through a table of links, which no call changes. That the directories on the way exist is not checked (any call may fail instead); os.Rename of a link is in C122. LinkStartModel is StartModel's NewSwarm and main on it. C121_link_inside_refuted, C121_program_refuted, C121_directory_refuted and C121_two_are_one_refuted are the false halves."
  },
  {
   "property": "C122",
   "status": "proved",
   "theorems": [
    "C122_names",
    "C122_new",
    "C122_kept",
    "C122_there",
    "C122_resized",
    "C122_outside",
    "C122_program",
    "C122_holds",
    "C122_write",
    "C122_outside_refuted",
    "C122_written_refuted",
    "C122_entry",
    "C122_Move_file",
    "C122_Move_link",
    "C122_Move_any",
    "C122_Move_refused",
    "C122_Move_same",
    "C122_Move_gone_refuted",
    "C122_Move_there_refuted"
   ],
   "note": "LinkModel and LinkStartModel in a world without the assumption that each inode has one name (HardSpec.names_there). RenameModel is Move with rename(2) of links and of two names of one file; C122_Move_same ties it to FsModel.Move. Directories are not renamed. C122_outside_refuted, C122_written_refuted, C122_Move_gone_refuted and C122_Move_there_refuted are the false statements."
  }
 ]
}