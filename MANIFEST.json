{
 "claims": [
  {
   "property": "C01",
   "status": "proved",
   "theorems": [
    "C01_frame_before_connect",
    "C01_silence"
   ],
   "note": "Full statement, for every configuration and history without CONNECT."
  },
  {
   "property": "C02",
   "status": "proved",
   "theorems": [
    "C02_connect"
   ],
   "note": "Full statement. Hypothesis dlc_ok: where frames are filled up to the CAN maximum, MAX_CTO is 8 (otherwise Xcp_Send8 sends a different frame, see C64)."
  },
  {
   "property": "C03",
   "status": "proved",
   "theorems": [
    "C03_refuted",
    "C03_connected_until_init"
   ],
   "note": "Refuted: the claim is false of the code, a disconnected slave goes on answering commands. Also proved: only Xcp_Init ends a session."
  },
  {
   "property": "C04",
   "status": "proved",
   "theorems": [
    "C04_busy"
   ],
   "note": "Full statement."
  },
  {
   "property": "C05",
   "status": "proved",
   "theorems": [
    "C05_unimplemented",
    "C05_refuted"
   ],
   "note": "Refuted for every command byte below 0xC7 (read past the end of the command table, in every connected state); the rest of the claim is proved for 0xC7..0xFF."
  },
  {
   "property": "C06",
   "status": "proved",
   "theorems": [
    "C06_one_response",
    "C06_refuted",
    "C06_list_refuted",
    "C06_list_mode"
   ],
   "note": "Refuted for START_STOP_DAQ_LIST and GET_DAQ_LIST_INFO with an invalid list number (two responses); proved for every other command and state."
  },
  {
   "property": "C07",
   "status": "proved",
   "theorems": [
    "C07_frames"
   ],
   "note": "Full statement for all frames of every execution."
  },
  {
   "property": "C08",
   "status": "proved",
   "theorems": [
    "C08_counters",
    "C08_from_power_on"
   ],
   "note": "Full statement, including wrap-around."
  },
  {
   "property": "C09",
   "status": "proved",
   "theorems": [
    "C09_stream"
   ],
   "note": "Full statement."
  },
  {
   "property": "C10",
   "status": "proved",
   "theorems": [
    "C10_word",
    "C10_dword",
    "C10_layout_word",
    "C10_layout_dword"
   ],
   "note": "Full statement, both byte orders."
  },
  {
   "property": "C11",
   "status": "proved",
   "theorems": [
    "C11_connect",
    "C11_get_id",
    "C11_daq_clock",
    "C11_processor_info",
    "C11_intel",
    "C11_refuted"
   ],
   "note": "Refuted: with Motorola byte order CONNECT reports MAX_DTO in Intel order. Proved for the other fields and for Intel builds."
  },
  {
   "property": "C12",
   "status": "proved",
   "theorems": [
    "C12_locked_daq",
    "C12_no_start"
   ],
   "note": "Full statement, over every stretch of operations during which DAQ stays locked."
  },
  {
   "property": "C13",
   "status": "proved",
   "theorems": [
    "C13_only_by_key",
    "C13_pending_origin",
    "C13_default_bits",
    "C13_accepted"
   ],
   "note": "Full statement, and the exact effect of an accepted key."
  },
  {
   "property": "C14",
   "status": "proved",
   "theorems": [
    "C14_disconnect",
    "C14_rejected_key",
    "C14_api"
   ],
   "note": "Full statement."
  },
  {
   "property": "C15",
   "status": "proved",
   "theorems": [
    "C15_refuted"
   ],
   "note": "Refuted: the claim is false of the code, DOWNLOAD writes although CAL/PAG is locked (no memory command asks for the protection status)."
  },
  {
   "property": "C16",
   "status": "proved",
   "theorems": [
    "C16_exclusion",
    "C16_programming_entry",
    "C16_measurement_entry"
   ],
   "note": "Full statement."
  },
  {
   "property": "C17",
   "status": "proved",
   "theorems": [
    "C17_other_commands",
    "C17_refuted"
   ],
   "note": "Refuted for MODIFY_BITS; proved for every other command."
  },
  {
   "property": "C18",
   "status": "proved",
   "theorems": [
    "C18_other_commands",
    "C18_range",
    "C18_refuted_download_max",
    "C18_refuted_download_next",
    "C18_modify_bits_refuted"
   ],
   "note": "Refuted for DOWNLOAD_MAX and DOWNLOAD_NEXT, and for MODIFY_BITS, which writes more than it asks for; proved for every other command."
  },
  {
   "property": "C19",
   "status": "proved",
   "theorems": [
    "C19_upload",
    "C19_refuted"
   ],
   "note": "Refuted for SHORT_UPLOAD (the hook is asked about the old MTA); proved for UPLOAD."
  },
  {
   "property": "C20",
   "status": "proved",
   "theorems": [
    "C20_upload",
    "C20_too_long",
    "C20_denied",
    "C20_programming"
   ],
   "note": "All states, memories, lengths 1..MAX_CTO-1 and hooks; the length 0 is C30. With full-length CAN frames the frame is longer by bytes not said to be zero."
  },
  {
   "property": "C21",
   "status": "proved",
   "theorems": [
    "C21_short_upload",
    "C21_short_upload_block"
   ],
   "note": "With and without slave block mode. The access check applied is that for the old MTA (C19)."
  },
  {
   "property": "C22",
   "status": "proved",
   "theorems": [
    "C22_first",
    "C22_progress",
    "C22_complete"
   ],
   "note": "Any operations of master and application interleaved. Needs a recursive lock (C50) and no background checksum in progress."
  },
  {
   "property": "C23",
   "status": "proved",
   "theorems": [
    "C23_download",
    "C23_refused",
    "C23_read_back"
   ],
   "note": "For a receive buffer below 4 GiB; otherwise the address is truncated."
  },
  {
   "property": "C24",
   "status": "proved",
   "theorems": [
    "C24_master_block"
   ],
   "note": "By induction over the DOWNLOAD_NEXT frames."
  },
  {
   "property": "C25",
   "status": "proved",
   "theorems": [
    "C25_inactive",
    "C25_refuted",
    "C25_overrun_refuted"
   ],
   "note": "Refuted: every wrong count is accepted and its data stored, excess data included; only DOWNLOAD_NEXT outside a block is refused."
  },
  {
   "property": "C26",
   "status": "proved",
   "theorems": [
    "C26_short_download",
    "C26_mta_refuted"
   ],
   "note": "Refuted in part: the data is stored as claimed; the MTA is correct exactly when it pointed there before."
  },
  {
   "property": "C27",
   "status": "proved",
   "theorems": [
    "C27_refuted",
    "C27_shift_refuted"
   ],
   "note": "Refuted: exact value stored, equal to the specified one iff no bit to be set is clear; large shifts are undefined behaviour."
  },
  {
   "property": "C28",
   "status": "proved",
   "theorems": [
    "C28_only_writes"
   ],
   "note": "By induction over runs."
  },
  {
   "property": "C29",
   "status": "proved",
   "theorems": [
    "C29_refuted"
   ],
   "note": "Refuted for every PROGRAM: positive response, memory unchanged."
  },
  {
   "property": "C30",
   "status": "proved",
   "theorems": [
    "C30_upload_refuted",
    "C30_short_upload_refuted",
    "C30_download_refuted"
   ],
   "note": "Refuted: length 0 and address 0 fail an assertion."
  },
  {
   "property": "C31",
   "status": "proved",
   "theorems": [
    "C31_complete",
    "C31_refuted"
   ],
   "note": "Refuted for frames shorter than the command; proved for every complete frame and every table entry."
  },
  {
   "property": "C32",
   "status": "proved",
   "theorems": [
    "C32_phases",
    "C32_out_of_sequence",
    "C32_overflow",
    "C32_free",
    "C32_alloc_daq",
    "C32_alloc_odt",
    "C32_alloc_odt_entry"
   ],
   "note": "All transitions of the allocation phase over every operation; exact answers in, out of sequence and on overflow. With the build option that resets the configuration on sequence errors the tables are emptied instead of kept. Pools of 65536 and more entities are excluded in the acceptance theorems."
  },
  {
   "property": "C33",
   "status": "proved",
   "theorems": [
    "C33_counts",
    "C33_layout"
   ],
   "note": "Invariant of every reachable state."
  },
  {
   "property": "C34",
   "status": "proved",
   "theorems": [
    "C34_power_on",
    "C34_history",
    "C34_unique"
   ],
   "note": "Induction over arbitrary histories of a rule-abiding master (ODTs once per list, entries once per ODT, existing numbers); the tables determine the configuration."
  },
  {
   "property": "C35",
   "status": "proved",
   "theorems": [
    "C35_refuted",
    "C35_out_of_bounds"
   ],
   "note": "Refuted: numbers are not checked; universal refutation for list numbers between allocated part and pool end, and out-of-bounds write beyond the pool."
  },
  {
   "property": "C36",
   "status": "proved",
   "theorems": [
    "C36_set_daq_ptr"
   ],
   "note": "Both directions, exact state change."
  },
  {
   "property": "C37",
   "status": "proved",
   "theorems": [
    "C37_write_daq",
    "C37_write_daq_multiple",
    "C37_one_entry"
   ],
   "note": "Single and multiple writes through valid pointers."
  },
  {
   "property": "C38",
   "status": "proved",
   "theorems": [
    "C38_refuted",
    "C38_out_of_bounds"
   ],
   "note": "Refuted: the pointer is not checked by WRITE_DAQ; behind the last entry it defines entries of another ODT, and finally writes outside the pool."
  },
  {
   "property": "C39",
   "status": "proved",
   "theorems": [
    "C39_first_pid",
    "C39_unique",
    "C39_refuted"
   ],
   "note": "Proved up to 252 ODTs; Refuted beyond: more ODTs can be allocated, and then identifiers are reserved ones or shared."
  },
  {
   "property": "C40",
   "status": "proved",
   "theorems": [
    "C40_event",
    "C40_assign",
    "C40_synch",
    "C40_synch_refuse",
    "C40_session"
   ],
   "note": "For queues with enough unused slots (see C43)."
  },
  {
   "property": "C41",
   "status": "proved",
   "theorems": [
    "C41_idle",
    "C41_before_start",
    "C41_stop_all",
    "C41_disconnect",
    "C41_calls"
   ],
   "note": ""
  },
  {
   "property": "C42",
   "status": "proved",
   "theorems": [
    "C42_refuted",
    "C42_shared_mode_refuted"
   ],
   "note": "Refuted: unassigned events sample list 0, lists need not be started, and the mode is shared by all lists."
  },
  {
   "property": "C43",
   "status": "proved",
   "theorems": [
    "C43_fifo",
    "C43_drained",
    "C43_overload",
    "C43_flag_kept",
    "C43_flag_raised",
    "C43_flag_origin",
    "C43_refuted"
   ],
   "note": "FIFO for the first four frames after initialisation; Refuted beyond: the next frame is written behind the queue. The overload flag is raised by dropped frames and by nothing else."
  },
  {
   "property": "C44",
   "status": "proved",
   "theorems": [
    "C44_frozen",
    "C44_active",
    "C44_refuted",
    "C44_alloc_refuted"
   ],
   "note": "Proved for all commands but the allocation commands; Refuted for FREE_DAQ and ALLOC_DAQ."
  },
  {
   "property": "C45",
   "status": "proved",
   "theorems": [
    "C45_refuted",
    "C45_event_refuted"
   ],
   "note": "Refuted: list numbers are not checked, event numbers lead to an out-of-bounds write."
  },
  {
   "property": "C51",
   "status": "proved",
   "theorems": [
    "C51_clock",
    "C51_refuted"
   ],
   "note": "Refuted: the option is ignored, a locked slave always refuses."
  },
  {
   "property": "C52",
   "status": "proved",
   "theorems": [
    "C52_info",
    "C52_refuted"
   ],
   "note": "Counts proved; Refuted for the prescaler bit."
  },
  {
   "property": "C46",
   "status": "proved",
   "theorems": [
    "C46_definition",
    "C46_crc_16",
    "C46_crc_16_citt",
    "C46_crc_32_refuted"
   ],
   "note": "Proved for CRC-16 and CRC-16-CITT, messages of any length, against a specification itself proved to be the polynomial remainder. Refuted for CRC-32: wrong for every one-byte block."
  },
  {
   "property": "C47",
   "status": "proved",
   "theorems": [
    "C47_sums"
   ],
   "note": "All six sums; words in the byte order of the host, a trailing incomplete word is ignored."
  },
  {
   "property": "C48",
   "status": "proved",
   "theorems": [
    "C48_start",
    "C48_progress",
    "C48_complete",
    "C48_short_refuted",
    "C48_overread_refuted",
    "C48_crc_16_refuted",
    "C48_words_refuted"
   ],
   "note": "Proved, with arbitrary interleaving, for blocks of at least two chunks and the methods that compose over chunks. Refuted for blocks between one and two chunks (for every such block), for CRC-16, and for word sums with chunks that split a word."
  },
  {
   "property": "C49",
   "status": "proved",
   "theorems": [
    "C49_limit",
    "C49_mta_refuted"
   ],
   "note": "Limit proved; Refuted for the MTA: it is never advanced."
  },
  {
   "property": "C50",
   "status": "proved",
   "theorems": [
    "C50_released",
    "C50_recursive",
    "C50_no_nesting",
    "C50_upload_refuted",
    "C50_checksum_refuted"
   ],
   "note": "Locks are released by every call; no dead-lock with recursive locks, nor without the two nesting features. Refuted for non-recursive mutexes (the POSIX port): slave block mode uploads and background checksums always dead-lock."
  },
  {
   "property": "C53",
   "status": "proved",
   "theorems": [
    "C53_event",
    "C53_service"
   ],
   "note": ""
  },
  {
   "property": "C54",
   "status": "proved",
   "theorems": [
    "C54_value",
    "C54_unequal",
    "C54_overread_refuted"
   ],
   "note": "Result proved where the byte behind both ranges may be read; Refuted: on equal ranges that end with their objects the comparison reads one byte too many."
  },
  {
   "property": "C55",
   "status": "proved",
   "theorems": [
    "C55_unique",
    "C55_exists",
    "C55_itoa",
    "C55_min_refuted"
   ],
   "note": "Against a specification of numerals; Refuted for INT32_MIN where long has 32 bits (signed overflow)."
  },
  {
   "property": "C65",
   "status": "proved",
   "theorems": [
    "C65_copy",
    "C65_overlap_refuted",
    "C65_set",
    "C65_set_bounds"
   ],
   "note": "Proved for disjoint ranges and moves to lower addresses; Refuted for overlapping moves to higher addresses."
  },
  {
   "property": "C56",
   "status": "proved",
   "theorems": [
    "C56_frames",
    "C56_commands",
    "C56_checksum_refuted"
   ],
   "note": "Proved for frames without check sum, with the commands exactly characterised (an empty frame re-submits the previous contents). Refuted for frames that carry the configured check sum: it is taken for the next length field."
  },
  {
   "property": "C57",
   "status": "proved",
   "theorems": [
    "C57_well_formed",
    "C57_refuted",
    "C57_wrap_refuted"
   ],
   "note": "Refuted: every length field too large for the buffer leads to a write behind it; proved for frames that fit."
  },
  {
   "property": "C58",
   "status": "proved",
   "theorems": [
    "C58_exact",
    "C58_early_refuted",
    "C58_late_refuted"
   ],
   "note": "Refuted: the configured time is overwritten by the start time; the limit is the clock reading of the last byte."
  },
  {
   "property": "C59",
   "status": "proved",
   "theorems": [
    "C59_stream",
    "C59_halves_refuted",
    "C59_one_refuted",
    "C59_last_refuted",
    "C59_error_refuted"
   ],
   "note": "Proved for every sequence of frames and every fragmentation that splits no header. Refuted where a header comes in two portions, or when the connection ends or fails right behind a frame."
  },
  {
   "property": "C60",
   "status": "proved",
   "theorems": [
    "C60_refuted",
    "C60_assert_refuted"
   ],
   "note": "Refuted: for every length field beyond the buffer the receiver writes outside of it, or ends in a failed assertion."
  },
  {
   "property": "C73",
   "status": "proved",
   "theorems": [
    "C73_lost_refuted",
    "C73_mixed_refuted",
    "C73_apart"
   ],
   "note": "Refuted: header and body are read by two recv() calls, so that every complete datagram is lost; proved for peers that send header and body in separate datagrams."
  },
  {
   "property": "C61",
   "status": "proved",
   "theorems": [
    "C61_block",
    "C61_page",
    "C61_page_refuted",
    "C61_sector",
    "C61_sector_refuted"
   ],
   "note": "Proved for blocks, and for pages before any page selection. Refuted for pages after one, and for sectors: erased is the sector at twice the address."
  },
  {
   "property": "C62",
   "status": "proved",
   "theorems": [
    "C62_mapping",
    "C62_refuted"
   ],
   "note": "Exact behaviour after any history of calls; Refuted for page 0 once another page has been demanded."
  },
  {
   "property": "C63",
   "status": "proved",
   "theorems": [
    "C63_difference"
   ],
   "note": ""
  },
  {
   "property": "C64",
   "status": "proved",
   "theorems": [
    "C64_exact",
    "C64_refuted",
    "C64_connect_refuted"
   ],
   "note": "Proved without padding and for frames of eight bytes; Refuted for full-length frames of more than eight bytes: the response is lost and the old contents of the buffer are sent."
  },
  {
   "property": "C66",
   "status": "proved",
   "theorems": [
    "C66_refuted"
   ],
   "note": "Refuted for counts from 256 on; smaller counts are part of C32."
  },
  {
   "property": "C67",
   "status": "proved",
   "theorems": [
    "C67_refuted"
   ],
   "note": "Refuted: the padding is what the previous frame contained."
  },
  {
   "property": "C68",
   "status": "proved",
   "theorems": [
    "C68_ms",
    "C68_units_refuted",
    "C68_ns_refuted",
    "C68_exact"
   ],
   "note": "The millisecond clock is proved, given the start and later times from clocks that agree (see C163). Refuted for the DAQ clock: units are ignored and it counts modulo 2^32 - 1."
  },
  {
   "property": "C69",
   "status": "proved",
   "theorems": [
    "C69_exact",
    "C69_drift_refuted",
    "C69_div_refuted"
   ],
   "note": "Proved if the unit is a multiple of the tick; Refuted otherwise."
  },
  {
   "property": "C70",
   "status": "proved",
   "theorems": [
    "C70_refuted"
   ],
   "note": "Refuted: segments are never opened, every use follows a null pointer."
  },
  {
   "property": "C71",
   "status": "proved",
   "theorems": [
    "C71_own",
    "C71_standard",
    "C71_standard_refuted",
    "C71_extended_refuted"
   ],
   "note": "Own frames are accepted (proved). Refuted: extended and remote frames match standard filters, and every extended frame matches an extended filter."
  },
  {
   "property": "C72",
   "status": "proved",
   "theorems": [
    "C72_signal_refuted",
    "C72_wait_refuted"
   ],
   "note": "Refuted: signalling leaves the mutex locked; waiting does not own it."
  },
  {
   "property": "C74",
   "status": "proved",
   "theorems": [
    "C74_refuted",
    "C74_takeover_refuted",
    "C74_answers"
   ],
   "note": "Refuted: the sender of a datagram is not compared with the connected master; what is proved is where answers go."
  },
  {
   "property": "C75",
   "status": "proved",
   "theorems": [
    "C75_receive",
    "C75_receive_refuted",
    "C75_send",
    "C75_send_refuted"
   ],
   "note": "Proved for frames that fit; Refuted for every longer one, both directions."
  },
  {
   "property": "C76",
   "status": "proved",
   "theorems": [
    "C76_key",
    "C76_overread_refuted",
    "C76_pairs",
    "C76_algorithm",
    "C76_seeds_refuted"
   ],
   "note": "The comparison is proved where the byte behind the key may be read. Refuted: 65536 seeds only; the right key is read over its end."
  },
  {
   "property": "C77",
   "status": "proved",
   "theorems": [
    "C77_refuted"
   ],
   "note": "Refuted: nothing of the session ends with the connection."
  },
  {
   "property": "C78",
   "status": "proved",
   "theorems": [
    "C78_status",
    "C78_running_refuted",
    "C78_synch"
   ],
   "note": "Answers proved exactly. Refuted: a running measurement is never announced."
  },
  {
   "property": "C79",
   "status": "proved",
   "theorems": [
    "C79_announced",
    "C79_uploaded",
    "C79_unknown"
   ],
   "note": ""
  },
  {
   "property": "C80",
   "status": "proved",
   "theorems": [
    "C80_comm_mode",
    "C80_event",
    "C80_no_event",
    "C80_resolution",
    "C80_time_stamp_refuted",
    "C80_size_refuted",
    "C80_entry_refuted",
    "C80_pgm",
    "C80_no_sector",
    "C80_sector_refuted"
   ],
   "note": "Exact answers proved. Refuted: time stamps are always announced as 4 bytes, sizes above 255 are truncated, an entry of the announced size does not fit beside a time stamp, sectors have neither address nor length."
  },
  {
   "property": "C81",
   "status": "proved",
   "theorems": [
    "C81_start",
    "C81_sequence",
    "C81_reset"
   ],
   "note": ""
  },
  {
   "property": "C82",
   "status": "proved",
   "theorems": [
    "C82_seed",
    "C82_rest_refuted",
    "C82_free",
    "C82_unknown",
    "C82_no_seed",
    "C82_unlock"
   ],
   "note": "Answers proved exactly. Refuted: of a seed longer than MAX_CTO - 2 the rest cannot be obtained."
  },
  {
   "property": "C83",
   "status": "proved",
   "theorems": [
    "C83_clear_refuted",
    "C83_mode_refuted"
   ],
   "note": "Refuted: both commands are acknowledged without any effect or contents, for any list number."
  },
  {
   "property": "C84",
   "status": "proved",
   "theorems": [
    "C84_slave_id",
    "C84_daq_id",
    "C84_motorola_refuted"
   ],
   "note": "Proved for Intel byte order and list numbers below 256. Refuted for Motorola slaves: always the identifier of list 0."
  },
  {
   "property": "C85",
   "status": "proved",
   "theorems": [
    "C85_stores"
   ],
   "note": ""
  },
  {
   "property": "C86",
   "status": "proved",
   "theorems": [
    "C86_harmless",
    "C86_unready",
    "C86_low_codes_refuted",
    "C86_long_frame_refuted",
    "C86_upload",
    "C86_short_upload",
    "C86_checksum",
    "C86_download",
    "C86_download_next",
    "C86_download_max",
    "C86_short_download",
    "C86_modify_bits",
    "C86_seed",
    "C86_list_mode",
    "C86_main",
    "C86_daq",
    "C86_trigger",
    "C86_run"
   ],
   "note": "If and only if for memory commands, GET_SEED, SET_DAQ_LIST_MODE and the main function (locks recursive where the code nests them); sufficient conditions for the commands on DAQ tables and for events (pools below 65536 entities). Refuted: command codes below 0xC7 and frames longer than the buffer are never defined in a connected slave."
  },
  {
   "property": "C87",
   "status": "proved",
   "theorems": [
    "C87_entries",
    "C87_write",
    "C87_write_multiple",
    "C87_no_list_refuted"
   ],
   "note": "Proved if there is at least one list. Refuted for an empty table: the check reads outside it."
  },
  {
   "property": "C88",
   "status": "proved",
   "theorems": [
    "C88_event",
    "C88_idle",
    "C88_stopped_refuted",
    "C88_unassigned_refuted",
    "C88_far_refuted"
   ],
   "note": "Sampling of the assigned list proved for tables whose indices fit the entity type. Refuted: lists not started are sampled, unassigned events sample list 0, table positions are truncated to 8 bits."
  },
  {
   "property": "C89",
   "status": "proved",
   "theorems": [
    "C89_set_mode",
    "C89_set_mode_refuted",
    "C89_list",
    "C89_list_refuted",
    "C89_synch",
    "C89_kept_refuted"
   ],
   "note": "Effects on existing lists proved exactly. Refuted: lists that do not exist are written to; assignments outlive the session and Xcp_Init."
  },
  {
   "property": "C90",
   "status": "proved",
   "theorems": [
    "C90_processor",
    "C90_list_refuted",
    "C90_no_list_refuted"
   ],
   "note": "Exact answers proved. Refuted: MAX_ODT_ENTRIES is always 0 and lists that do not exist are read."
  },
  {
   "property": "C91",
   "status": "proved",
   "theorems": [
    "C91_paced"
   ],
   "note": ""
  },
  {
   "property": "C92",
   "status": "proved",
   "theorems": [
    "C92_refuted"
   ],
   "note": "Refuted; the theorem states exactly what is executed for every point at which the second frame arrives."
  },
  {
   "property": "C93",
   "status": "proved",
   "theorems": [
    "C93_ident_refuted",
    "C93_remote_refuted",
    "C93_repeat_refuted",
    "C93_empty_refuted",
    "C93_long_refuted"
   ],
   "note": "Refuted for every class of frames (board without filters)."
  },
  {
   "property": "C94",
   "status": "proved",
   "theorems": [
    "C94_one_each",
    "C94_refuted"
   ],
   "note": "Refuted in general: C94_refuted states exactly what each completion executes; true if each completion carries one frame (C94_one_each)."
  },
  {
   "property": "C95",
   "status": "proved",
   "theorems": [
    "C95_foreign",
    "C95_refuted"
   ],
   "note": "Refuted for the destination of frames; true of the execution of commands (C95_foreign)."
  },
  {
   "property": "C96",
   "status": "proved",
   "theorems": [
    "C96_stopped",
    "C96_init",
    "C96_refuted"
   ],
   "note": "Refuted: the slave stays connected; true of protection and measurement (C96_stopped)."
  },
  {
   "property": "C97",
   "status": "proved",
   "theorems": [
    "C97_filter",
    "C97_own"
   ],
   "note": ""
  },
  {
   "property": "C98",
   "status": "proved",
   "theorems": [
    "C98_own",
    "C98_others",
    "C98_flags_refuted",
    "C98_lost_refuted"
   ],
   "note": "True of undisturbed data frames. Refuted for remote frames and frames with further flags."
  },
  {
   "property": "C99",
   "status": "proved",
   "theorems": [
    "C99_fits",
    "C99_refuted"
   ],
   "note": "True if MAX_CTO and MAX_DTO are at most 8. Refuted otherwise: longer frames are lost and the lock stays held."
  },
  {
   "property": "C100",
   "status": "proved",
   "theorems": [
    "C100_payloads",
    "C100_refuted",
    "C100_torn_refuted"
   ],
   "note": "Payloads proved for all schedules. Refuted for the counters: in every state schedules exist with repeated and with torn counters."
  },
  {
   "property": "C101",
   "status": "proved",
   "theorems": [
    "C101_refuted"
   ],
   "note": "Refuted in every state with an active transfer."
  },
  {
   "property": "C102",
   "status": "proved",
   "theorems": [
    "C102_refuted"
   ],
   "note": "Refuted for every length that fits one frame."
  },
  {
   "property": "C103",
   "status": "proved",
   "theorems": [
    "C103_fifo",
    "C103_small",
    "C103_refuted"
   ],
   "note": "Order and contents proved for all schedules. Refuted for the array bound: overrun as soon as more frames have been accepted than there are slots."
  },
  {
   "property": "C104",
   "status": "proved",
   "theorems": [
    "C104_refuted"
   ],
   "note": "Refuted for all frames of equal length."
  },
  {
   "property": "C105",
   "status": "proved",
   "theorems": [
    "C105_size",
    "C105_refuted"
   ],
   "note": "Proved for pages up to the granularity. Refuted for all larger pages."
  },
  {
   "property": "C106",
   "status": "proved",
   "theorems": [
    "C106_mapping",
    "C106_moved_refuted",
    "C106_lost_refuted"
   ],
   "note": "Proved while views stay in place, for all pages but the one whose number is in the uninitialised array member. Refuted for views that move or cannot be created."
  },
  {
   "property": "C107",
   "status": "proved",
   "theorems": [
    "C107_deinit",
    "C107_refuted",
    "C107_each_refuted"
   ],
   "note": "Proved for open segments. Refuted after FlsEmu_Init, for all configurations."
  },
  {
   "property": "C108",
   "status": "proved",
   "theorems": [
    "C108_read",
    "C108_write",
    "C108_invalid_refuted",
    "C108_init_refuted"
   ],
   "note": "Proved for opened segments (page 0 as in C62). Refuted for invalid addresses and for the state FlsEmu_Init leaves."
  },
  {
   "property": "C109",
   "status": "proved",
   "theorems": [
    "C109_configure",
    "C109_measurement",
    "C109_longer_refuted"
   ],
   "note": "Proved for every configuration up to four frames in all (the queue). Refuted for all longer measurements: undefined behaviour in the DAQ queue."
  },
  {
   "property": "C110",
   "status": "proved",
   "theorems": [
    "C110_visits",
    "C110_streams",
    "C110_empty_refuted",
    "C110_empty_session"
   ],
   "note": "Proved for streams that do not cut headers (cut headers: C59). Refuted for empty frames: a peer without a session that sends one is abandoned, for all continuations."
  },
  {
   "property": "C111",
   "status": "proved",
   "theorems": [
    "C111_short_refuted"
   ],
   "note": "Refuted: the stream can be split into the frames exactly if no send() was short."
  },
  {
   "property": "C112",
   "status": "proved",
   "theorems": [
    "C112_serial",
    "C112_repeats",
    "C112_empty_refuted"
   ],
   "note": "The claim holds for complete commands (C112_serial). Refuted for empty frames: each executes the command before once more (C112_repeats, exactly), e.g. a DOWNLOAD writes again behind its data (C112_empty_refuted)."
  },
  {
   "property": "C113",
   "status": "proved",
   "theorems": [
    "C113_counts",
    "C113_start",
    "C113_init",
    "C113_received_refuted",
    "C113_sent_refuted",
    "C113_negative_refuted"
   ],
   "note": "What is counted is proved exactly. Refuted as regards the names shown: commands answered busy are not counted as received, other frames are counted as responses, and numbers from 2^31 on are shown negative."
  },
  {
   "property": "C114",
   "status": "proved",
   "theorems": [
    "C114_accepts",
    "C114_refuses",
    "C114_helps",
    "C114_dashes",
    "C114_stops",
    "C114_port_refuted",
    "C114_garbage_refuted"
   ],
   "note": "Proved for transport, IP version, exit codes and ports below 2^16 given as numbers. Refuted for other ports and for the announced port. getopt and atoi are modelled after POSIX and C."
  },
  {
   "property": "C115",
   "status": "proved",
   "theorems": [
    "C115_interface",
    "C115_helps",
    "C115_long_refuted",
    "C115_longer_refuted"
   ],
   "note": "Proved for names of up to 15 letters. Refuted for all longer ones."
  },
  {
   "property": "C116",
   "status": "proved",
   "theorems": [
    "C116_last",
    "C116_port_refuted",
    "C116_cluster_refuted"
   ],
   "note": "Proved for the switches. Refuted for ports and for several letters in one word."
  },
  {
   "property": "C117",
   "status": "proved",
   "theorems": [
    "C117_holds",
    "C117_displaced_refuted"
   ],
   "note": "Proved from CONNECT on. Refuted for peers that have not sent CONNECT: any later one replaces them."
  },
  {
   "property": "C118",
   "status": "proved",
   "theorems": [
    "C118_details",
    "C118_readable",
    "C118_summary",
    "C118_modes_refuted"
   ],
   "note": "Refuted for the mode words: all lists share one mode."
  },
  {
   "property": "C119",
   "status": "proved",
   "theorems": [
    "C119_refines",
    "C119_continues",
    "C119_resync",
    "C119_deterministic"
   ],
   "note": "Simulation; the reference has no rule where the code departs from the protocol (see the refuted properties) and for flash programming data and user commands; blocks and checksums over several calls of the main function are in C131."
  },
  {
   "property": "C120",
   "status": "proved",
   "theorems": [
    "C120_tcp",
    "C120_tcp_open"
   ],
   "note": "Composition of C110 and C119."
  },
  {
   "property": "C121",
   "status": "proved",
   "theorems": [
    "C121_serial"
   ],
   "note": "Composition of C112 and C119."
  },
  {
   "property": "C122",
   "status": "proved",
   "theorems": [
    "C122_leaves"
   ],
   "note": "Four ways to leave (close, reset, inside a header, inside contents), any sequence of peers, any portions with whole headers."
  },
  {
   "property": "C123",
   "status": "proved",
   "theorems": [
    "C123_taken",
    "C123_refused_refuted"
   ],
   "note": "Refuted for every frame that cannot be sent, at every position; C123_taken: frame-by-frame execution does what the commands alone do if everything can be sent (also justifies that Tcp.v reads ahead)."
  },
  {
   "property": "C124",
   "status": "proved",
   "theorems": [
    "C124_keys",
    "C124_burst_refuted"
   ],
   "note": "Exact effect of any input; refuted for keys that arrive together."
  },
  {
   "property": "C125",
   "status": "proved",
   "theorems": [
    "C125_posix_refuted",
    "C125_orderly",
    "C125_stopped_refuted"
   ],
   "note": "Refuted on POSIX for all schedules; holds (order and completeness) on Windows and where SIGINT is ignored; that threads are stopped before is refuted everywhere."
  },
  {
   "property": "C126",
   "status": "proved",
   "theorems": [
    "C126_socketcan"
   ],
   "note": "Composition of C71, C75 and C119, with padding (C31)."
  },
  {
   "property": "C127",
   "status": "proved",
   "theorems": [
    "C127_kvaser"
   ],
   "note": "Composition of C97-C99 and C119, with padding (C31)."
  },
  {
   "property": "C128",
   "status": "proved",
   "theorems": [
    "C128_iocp"
   ],
   "note": "Composition of C94 and C119."
  },
  {
   "property": "C129",
   "status": "proved",
   "theorems": [
    "C129_arduino"
   ],
   "note": "Composition of C91 and C119, with padding (C31)."
  },
  {
   "property": "C130",
   "status": "proved",
   "theorems": [
    "C130_harmless",
    "C130_unready",
    "C130_code_refuted",
    "C130_shared",
    "C130_main",
    "C130_write",
    "C130_write_multiple",
    "C130_mode",
    "C130_select",
    "C130_info",
    "C130_trigger",
    "C130_run"
   ],
   "note": "Equivalences for commands and the main function; for events the rule is sufficient (C130_trigger)."
  },
  {
   "property": "C131",
   "status": "proved",
   "theorems": [
    "C131_refines",
    "C131_continues",
    "C131_deterministic"
   ],
   "note": "Simulation; no rule for checksums of fewer than two parts plus a byte (see C48), for checksums that do not compose, and for DOWNLOAD_NEXT with a wrong count (see C25)."
  },
  {
   "property": "C132",
   "status": "proved",
   "theorems": [
    "C132_socketcan",
    "C132_kvaser",
    "C132_arduino"
   ],
   "note": "Traffic that conveys operations is defined in SpecConvey.v (frames with all the parameters of their command; others' frames with other identifiers)."
  },
  {
   "property": "C133",
   "status": "proved",
   "theorems": [
    "C133_socketcan",
    "C133_kvaser",
    "C133_arduino",
    "C133_serial",
    "C133_iocp"
   ],
   "note": "Composition of C131 with C132 (CAN), C118 (serial) and C94 (completion port)."
  },
  {
   "property": "C134",
   "status": "proved",
   "theorems": [
    "C134_event",
    "C134_ends",
    "C134_safe",
    "C134_stable",
    "C134_alone",
    "C134_free_refuted"
   ],
   "note": "One access is one step of Sampler.v (its comment says what counts as one); operations of the other thread are not interrupted. Refuted for FREE_DAQ during the event (C134_free_refuted)."
  },
  {
   "property": "C135",
   "status": "proved",
   "theorems": [
    "C135_stop_refuted",
    "C135_disconnect_refuted"
   ],
   "note": "Refuted for every reachable measuring state and event, by an interleaving."
  },
  {
   "property": "C136",
   "status": "proved",
   "theorems": [
    "C136_refuted"
   ],
   "note": "Refuted for every reachable measuring state, event and new value; what holds is C134_event: each byte is that of some moment."
  },
  {
   "property": "C137",
   "status": "proved",
   "theorems": [
    "C137_outcome",
    "C137_which",
    "C137_path",
    "C137_banner"
   ],
   "note": "Python's graphlib.TopologicalSorter and pathlib are modelled (not part of the repository); its cycle search is replaced by its meaning. The case has the repository's headers, in the order of the file in tools/arduino/hello_xcp."
  },
  {
   "property": "C138",
   "status": "proved",
   "theorems": [
    "C138_unique",
    "C138_kept",
    "C138_refuted"
   ],
   "note": "First part proved (C138_unique, C138_kept); refuted for lines of sections (C138_refuted)."
  },
  {
   "property": "C139",
   "status": "proved",
   "theorems": [
    "C139_stop",
    "C139_refuted"
   ],
   "note": "Proved for paths as the host spells them (C139_stop); refuted on hosts with slashes (C139_refuted)."
  },
  {
   "property": "C140",
   "status": "proved",
   "theorems": [
    "C140_start",
    "C140_busy",
    "C140_exact",
    "C140_small"
   ],
   "note": "Single accesses as in Conc.v (Job.v); a response is sent in one access (C100, C101 treat the buffer), the bytes of a chunk are read in one access (no thread writes them). C140_start shows that the state the others start from is reached."
  },
  {
   "property": "C141",
   "status": "proved",
   "theorems": [
    "C141_stale",
    "C141_refuted"
   ],
   "note": "Refuted: C141_stale gives the bytes summed up for every method that can be continued; C141_refuted shows the answer is wrong for sums of bytes."
  },
  {
   "property": "C142",
   "status": "proved",
   "theorems": [
    "C142_refuted",
    "C142_stuck"
   ],
   "note": "Refuted twice: a lost command (any lock), and a thread that waits for itself (POSIX locks), for all schedules."
  },
  {
   "property": "C143",
   "status": "proved",
   "theorems": [
    "C143_from_start",
    "C143_entries",
    "C143_set_daq_ptr",
    "C143_write",
    "C143_refuted"
   ],
   "note": "Holds for entries. Refuted for ODTs: after a second ALLOC_ODT the list claims ODTs whose table slots are those of entries allocated later; every command is accepted until an entry is taken for an ODT."
  },
  {
   "property": "C144",
   "status": "proved",
   "theorems": [
    "C144_measurement",
    "C144_like_dynamic"
   ],
   "note": "Whole sessions from any state in which no measurement runs; four frames in all, which is what the queue can take (C145)."
  },
  {
   "property": "C145",
   "status": "proved",
   "theorems": [
    "C145_drop_refuted",
    "C145_event_refuted",
    "C145_measurement_refuted"
   ],
   "note": "Refuted, universally: for every list, event and measurement that exceeds the queue."
  },
  {
   "property": "C146",
   "status": "proved",
   "theorems": [
    "C146_word",
    "C146_word_narrow_refuted",
    "C146_dword",
    "C146_dword_refuted",
    "C146_model",
    "C146_address_refuted"
   ],
   "note": "Refuted: Xcp_GetDWord multiplies a promoted uint16_t by 0x10000 in signed arithmetic, so every field of 2^31 and more is undefined, on every target; with a 16-bit int so is Xcp_GetWord from 2^15 on. Proved: all other values are read right, and the model reads what C reads wherever C defines it."
  },
  {
   "property": "C147",
   "status": "proved",
   "theorems": [
    "C147_word",
    "C147_dword",
    "C147_macros"
   ],
   "note": ""
  },
  {
   "property": "C148",
   "status": "proved",
   "theorems": [
    "C148_defined",
    "C148_model",
    "C148_narrow_refuted"
   ],
   "note": "Proved for a 32-bit int, including agreement with the model on what is undefined. Refuted for a 16-bit int: the upper half of the value can not be changed and shifts from 16 on are undefined."
  },
  {
   "property": "C149",
   "status": "proved",
   "theorems": [
    "C149_crc_16",
    "C149_crc_16_citt",
    "C149_crc_16_narrow_refuted",
    "C149_crc_32_refuted"
   ],
   "note": "Proved for CRC-16 (32-bit int) and CRC-16-CITT (every target). Refuted for CRC-32, where 1 << 31 is evaluated for every block whose result lies below 2^31, and for CRC-16 with a 16-bit int."
  },
  {
   "property": "C150",
   "status": "proved",
   "theorems": [
    "C150_indices",
    "C150_transport"
   ],
   "note": ""
  },
  {
   "property": "C151",
   "status": "proved",
   "theorems": [
    "C151_refuted",
    "C151_soon_refuted",
    "C151_until",
    "C151_only",
    "C151_stops"
   ],
   "note": "Refuted for every interleaving; C151_until: not before twenty ticks."
  },
  {
   "property": "C152",
   "status": "proved",
   "theorems": [
    "C152_commands",
    "C152_events",
    "C152_histories",
    "C152_macos",
    "C152_macos_refuted"
   ],
   "note": "Proved for builds with dynamic lists (Core.v); that GET_DAQ_CLOCK has a definite answer is refuted for macOS."
  },
  {
   "property": "C153",
   "status": "proved",
   "theorems": [
    "C153_lock",
    "C153_locks_destroyed",
    "C153_mutex_refuted",
    "C153_deinit_refuted",
    "C153_reinit_refuted"
   ],
   "note": "Refuted universally for XcpHw_Deinit and a second Xcp_Init; C153_lock and C153_locks_destroyed hold."
  },
  {
   "property": "C154",
   "status": "proved",
   "theorems": [
    "C154_order",
    "C154_xcp_first_refuted",
    "C154_hw_first_refuted",
    "C154_c"
   ],
   "note": "Refuted for C++ files; C154_order says exactly which orders work."
  },
  {
   "property": "C155",
   "status": "proved",
   "theorems": [
    "C155_on",
    "C155_off_refuted",
    "C155_xcp_refuted"
   ],
   "note": "Proved for the switch on and matching braces; refuted for the switch off and for xcp.h first."
  },
  {
   "property": "C156",
   "status": "proved",
   "theorems": [
    "C156_debug",
    "C156_debug_refuted",
    "C156_util_refuted",
    "C156_util_joined"
   ],
   "note": "Refuted; C156_debug says exactly when output is compiled in. Builds that pass XCP_BUILD_TYPE on the command line are not modelled."
  },
  {
   "property": "C157",
   "status": "proved",
   "theorems": [
    "C157_tools",
    "C157_tools_refuted",
    "C157_sim_refuted",
    "C157_alone_refuted",
    "C157_joined"
   ],
   "note": "Proved for tools/xcp_config.h with a transport named and for the amalgamation; otherwise refuted."
  },
  {
   "property": "C158",
   "status": "proved",
   "theorems": [
    "C158_accepted",
    "C158_redefined",
    "C158_guarantees"
   ],
   "note": "Checks of inc/xcp.h 66-251; the macros of the configuration are arbitrary integers or undefined."
  },
  {
   "property": "C159",
   "status": "proved",
   "theorems": [
    "C159_accepted",
    "C159_refuted"
   ],
   "note": "Refuted universally: every such configuration is accepted and every CONNECT is undefined."
  },
  {
   "property": "C160",
   "status": "proved",
   "theorems": [
    "C160_accepted",
    "C160_refuted",
    "C160_announced",
    "C160_denied_refuted"
   ],
   "note": "Refuted universally for dynamic lists (Core.v); the answers of the two information commands are proved for states whose buffers have the sizes compiled in."
  },
  {
   "property": "C161",
   "status": "proved",
   "theorems": [
    "C161_linux_refuted",
    "C161_win",
    "C161_arduino",
    "C161_win_counts",
    "C161_arduino_counts"
   ],
   "note": "Refuted for Linux; for each layer exactly the units that compile, for every value of the macro."
  },
  {
   "property": "C162",
   "status": "proved",
   "theorems": [
    "C162_told",
    "C162_win",
    "C162_arduino",
    "C162_win_refuted",
    "C162_arduino_refuted",
    "C162_linux_refuted"
   ],
   "note": "Refuted universally; proved for 1 us on Windows and Arduino boards. Time stamps of 4 bytes, Intel byte order (for Motorola see C11); for Linux given clocks that agree (see C163)."
  },
  {
   "property": "C163",
   "status": "proved",
   "theorems": [
    "C163_same",
    "C163_behind_refuted",
    "C163_ahead_refuted",
    "C163_start_refuted",
    "C163_falls_refuted"
   ],
   "note": "Refuted for every difference of the clocks at the start; proved if there is none."
  },
  {
   "property": "C164",
   "status": "proved",
   "theorems": [
    "C164_quiet",
    "C164_pause_refuted",
    "C164_first_refuted",
    "C164_header_refuted",
    "C164_contents_refuted",
    "C164_accept_refuted",
    "C164_can_refuted"
   ],
   "note": "Refuted universally, for every place where a signal can arrive. Which thread the kernel chooses is not modelled: the theorems say what happens if it is that of the transport layer. Pauses of 249 to 251 signals are not covered by C164_pause_refuted (one to three bytes then still fit)."
  },
  {
   "property": "C165",
   "status": "proved",
   "theorems": [
    "C165_v4",
    "C165_v6_chance",
    "C165_v6_refuted",
    "C165_nobody_refuted",
    "C165_four_refuted"
   ],
   "note": "Refuted universally for IPv6 and for pointers of four bytes; proved for IPv4 and pointers of eight bytes. Linux, little endian; that the kernel copies as much of the address as the length allows is assumed."
  }
 ]
}