{
 "claims": [
  {
   "property": "C01",
   "status": "proved",
   "theorems": [
    "C01_timer_never_early"
   ],
   "note": ""
  },
  {
   "property": "C02",
   "status": "proved",
   "theorems": [
    "C02_tick_leaves_no_due_timer",
    "C02_callbacks_in_due_order",
    "C02_tick_iteration_fires"
   ],
   "note": ""
  },
  {
   "property": "C03",
   "status": "proved",
   "theorems": [
    "C03_slots_partitioned",
    "C03_add_fails_iff_no_free_slot",
    "C03_no_assertion_no_runaway"
   ],
   "note": ""
  },
  {
   "property": "C04",
   "status": "proved",
   "theorems": [
    "C04_cancelled_timer_never_fires"
   ],
   "note": ""
  },
  {
   "property": "C05",
   "status": "proved",
   "theorems": [
    "C05_sanitised_delay"
   ],
   "note": ""
  },
  {
   "property": "C06",
   "status": "proved",
   "theorems": [
    "C06_tick_is_bounded"
   ],
   "note": ""
  },
  {
   "property": "C07",
   "status": "partial",
   "theorems": [
    "C07_remove_affects_only_own_timer",
    "C07_remove_cancels_armed_timer",
    "C07_stale_handle_refuted",
    "C07_stale_handle_race_refuted"
   ],
   "note": "Proved for handles used while their timer is armed or their slot is unused; refuted for a stale handle (slot reused by a timer of the same name), see C07_stale_handle_refuted and C07_stale_handle_race_refuted."
  },
  {
   "property": "C08",
   "status": "proved",
   "theorems": [
    "C08_cycle_window",
    "C08_duplicates_and_late_rejected",
    "C08_first_frame",
    "C08_started_consumer"
   ],
   "note": "The first frame after activation is compared with 65535, so counters 61440..65535 are refused there (C08_first_frame)."
  },
  {
   "property": "C09",
   "status": "proved",
   "theorems": [
    "C09_invalid_frame_no_effect",
    "C09_each_defect",
    "C09_valid_frame_accepted"
   ],
   "note": ""
  },
  {
   "property": "C10",
   "status": "partial",
   "theorems": [
    "C10_watchdog",
    "C10_race_refuted"
   ],
   "note": "Proved for every sequential history; refuted when the last interval expires between the two parts of the frame handler (C10_race_refuted)."
  },
  {
   "property": "C11",
   "status": "partial",
   "theorems": [
    "C11_read_returns_latest",
    "C11_concurrent_reads",
    "C11_concurrent_reads_after_first",
    "C11_tagged_first_frame_refuted",
    "C11_two_readers_refuted"
   ],
   "note": "Proved sequentially, and under every interleaving with one reading thread when header length is constant and the first frame is untagged or processed without interference; refuted for a tagged first frame and for two concurrent readers."
  },
  {
   "property": "C12",
   "status": "proved",
   "theorems": [
    "C12_buffers_accounted",
    "C12_close_frees_all"
   ],
   "note": ""
  },
  {
   "property": "C13",
   "status": "partial",
   "theorems": [
    "C13_new_flag_partial",
    "C13_new_flag_without_iocs_reads",
    "C13_iocs_read_refuted"
   ],
   "note": "Proved in full when only data is read; in general reads of the consumer status also clear the flag (refuted)."
  },
  {
   "property": "C14",
   "status": "proved",
   "theorems": [
    "C14_no_undefined_behaviour",
    "C14_wire_format",
    "C14_only_timer_sends",
    "C14_frame_length"
   ],
   "note": "For layouts with in_length <= C_SDU length <= 1440, as for RT class 1."
  },
  {
   "property": "C15",
   "status": "proved",
   "theorems": [
    "C15_regions_hold_last_written",
    "C15_write_changes_only_own_bytes",
    "C15_frame_carries_last_written"
   ],
   "note": ""
  },
  {
   "property": "C16",
   "status": "proved",
   "theorems": [
    "C16_read_back",
    "C16_read_back_iocs",
    "C16_wrong_lengths_refused"
   ],
   "note": ""
  },
  {
   "property": "C17",
   "status": "proved",
   "theorems": [
    "C17_power_of_two",
    "C17_accepted_by_consumer",
    "C17_not_power_of_two_irregular",
    "C17_counter_from_time"
   ],
   "note": "With intervals that are not powers of two the advance is irregular where the counter wraps (C17_not_power_of_two_irregular)."
  },
  {
   "property": "C18",
   "status": "proved",
   "theorems": [
    "C18_setters_independent",
    "C18_status_follows_setters"
   ],
   "note": ""
  },
  {
   "property": "C19",
   "status": "partial",
   "theorems": [
    "C19_keeps_sending_partial",
    "C19_send_failure_refuted",
    "C19_no_drift"
   ],
   "note": "Proved: while the network accepts frames a running producer always has its timer armed or has reported an error, and send times do not drift. Refuted when the network refuses one frame: the producer stops silently (C19_send_failure_refuted)."
  },
  {
   "property": "C20",
   "status": "partial",
   "theorems": [
    "C20_dispatch",
    "C20_other_types",
    "C20_only_registered_handlers",
    "C20_duplicate_refuted",
    "C20_full_table_refuted"
   ],
   "note": "Proved for registration histories that never register an id twice without removing it and never exceed the table; with double registration the older handler is called (C20_duplicate_refuted) and a full table drops the registration (C20_full_table_refuted)."
  },
  {
   "property": "C21",
   "status": "partial",
   "theorems": [
    "C21_complete_header_partial",
    "C21_truncated_refuted"
   ],
   "note": "Defined for frames with a complete header (partial); truncated frames are read past their end (C21_truncated_refuted)."
  },
  {
   "property": "C22",
   "status": "proved",
   "theorems": [
    "C22_iterator",
    "C22_cyclic",
    "C22_cyclic_kth"
   ],
   "note": ""
  },
  {
   "property": "C23",
   "status": "proved",
   "theorems": [
    "C23_round_trip",
    "C23_inverse",
    "C23_only_ports",
    "C23_distinct",
    "C23_port_list_exact",
    "C23_port_list_over_16",
    "C23_port_number"
   ],
   "note": ""
  },
  {
   "property": "C24",
   "status": "proved",
   "theorems": [
    "C24_round_trip",
    "C24_cut_file_rejected",
    "C24_accepted_files",
    "C24_history",
    "C24_no_undefined_behaviour"
   ],
   "note": ""
  },
  {
   "property": "C25",
   "status": "proved",
   "theorems": [
    "C25_save_if_modified",
    "C25_stored_after_success"
   ],
   "note": ""
  },
  {
   "property": "C26",
   "status": "proved",
   "theorems": [
    "C26_no_lost_job",
    "C26_worker_not_blocked",
    "C26_only_requested",
    "C26_unknown_refused",
    "C26_job_numbers"
   ],
   "note": ""
  },
  {
   "property": "C27",
   "status": "proved",
   "theorems": [
    "C27_never_outside",
    "C27_only_received_data",
    "C27_errors_are_sticky",
    "C27_byte_value",
    "C27_uint16",
    "C27_uint32",
    "C27_mem",
    "C27_null_pointer",
    "C27_parsers"
   ],
   "note": "All primitive readers and 12 parsers."
  },
  {
   "property": "C28",
   "status": "partial",
   "theorems": [
    "C28_uint16",
    "C28_uint32",
    "C28_uuid",
    "C28_block_header",
    "C28_control_block",
    "C28_alarm_fixed",
    "C28_alarm_notification",
    "C28_pnio_status",
    "C28_pnio_status_little_refuted",
    "C28_alarm_ack",
    "C28_rpc_header",
    "C28_write_result",
    "C28_boundary",
    "C28_writing_stays_inside",
    "C28_writers_stay_inside"
   ],
   "note": "AR and IOCR results have no reader in the code; the little endian PNIO status is not symmetric (refuted)."
  },
  {
   "property": "C29",
   "status": "partial",
   "theorems": [
    "C29_iocr_tables",
    "C29_ar_block",
    "C29_check_peer_refuted",
    "C29_check_peer_short_refuted",
    "C29_check_peer_partial",
    "C29_expected_submodules_refuted",
    "C29_api_and_module_tables"
   ],
   "note": "Refuted for check-peer station names and number of expected sub-modules; proved for IOCR, AR, number of APIs and modules."
  },
  {
   "property": "C30",
   "status": "proved",
   "theorems": [
    "C30_supervised_while_starting",
    "C30_not_supervised_otherwise",
    "C30_expiry_aborts",
    "C30_never_aborts_data_exchange",
    "C30_requests_restart_supervision",
    "C30_armed_with_requested_time"
   ],
   "note": "Timer is armed with factor*100 ms; the expiry itself is delivered by the scheduler (C01-C07)."
  },
  {
   "property": "C31",
   "status": "proved",
   "theorems": [
    "C31_written_only_if_permitted",
    "C31_permitted_is_written"
   ],
   "note": ""
  },
  {
   "property": "C32",
   "status": "partial",
   "theorems": [
    "C32_refines_queue",
    "C32_fifo_nothing_lost",
    "C32_one_at_a_time",
    "C32_send_failure_refuted"
   ],
   "note": "Proved for every history in which each send succeeds: the queue of notifications is announced first in, first out, one at a time, nothing lost. Refuted when sending fails: the failure is ignored and the queue stays blocked (C32_send_failure_refuted)."
  },
  {
   "property": "C33",
   "status": "proved",
   "theorems": [
    "C33_report_is_right",
    "C33_data_only_when_possible",
    "C33_stop_aborts",
    "C33_running_keeps",
    "C33_polled_while_waiting"
   ],
   "note": ""
  },
  {
   "property": "C34",
   "status": "partial",
   "theorems": [
    "C34_calls_return",
    "C34_keys_unique",
    "C34_add",
    "C34_add_full",
    "C34_update",
    "C34_remove",
    "C34_rejected",
    "C34_no_leak",
    "C34_pull_leak_refuted",
    "C34_blank_key_refuted"
   ],
   "note": "Proved for every history of calls through the public functions, except standard diagnosis for the whole sub-module with error type 0 (C34_blank_key_refuted: such an item is overwritten by USI diagnosis). No item is lost as long as no sub-module is pulled; C34_pull_leak_refuted shows that pulling one loses its items."
  },
  {
   "property": "C35",
   "status": "partial",
   "theorems": [
    "C35_touched_partial",
    "C35_written",
    "C35_two_subslots_refuted",
    "C35_qualified_refuted",
    "C35_before_connect_refuted"
   ],
   "note": "Proved: the indicator is written by every change on an owned sub-slot and then reflects plain faults of that sub-slot. Refuted in general: other sub-slots of the connection, qualified severities and diagnosis added before the connection are ignored."
  },
  {
   "property": "C36",
   "status": "proved",
   "theorems": [
    "C36_queue",
    "C36_closed",
    "C36_order",
    "C36_accept",
    "C36_buffers"
   ],
   "note": ""
  },
  {
   "property": "C37",
   "status": "partial",
   "theorems": [
    "C37_next_partial",
    "C37_one_partial",
    "C37_confirmed",
    "C37_refuted"
   ],
   "note": "Holds while no allocation, transmission or timer start fails (clean). C37_refuted: after a failed transmission the sender machine stays ready, so a second alarm goes out while the first awaits its acknowledge."
  },
  {
   "property": "C38",
   "status": "proved",
   "theorems": [
    "C38_numbers",
    "C38_indicated",
    "C38_once",
    "C38_repeated",
    "C38_delivers"
   ],
   "note": ""
  },
  {
   "property": "C39",
   "status": "partial",
   "theorems": [
    "C39_interval",
    "C39_limit",
    "C39_abort",
    "C39_stop",
    "C39_spacing_refuted"
   ],
   "note": "Retry limit, abort only after the agreed number of retries and stop after a transport acknowledge are proved; the spacing of one timeout is refuted: the timer of an acknowledged alarm is not stopped and repeats the next alarm early."
  },
  {
   "property": "C40",
   "status": "partial",
   "theorems": [
    "C40_partial",
    "C40_refuted"
   ],
   "note": "Holds if the announced length covers the fixed fields and fits in the frame; C40_refuted: the code checks neither."
  },
  {
   "property": "C41",
   "status": "partial",
   "theorems": [
    "C41_partial",
    "C41_refuted"
   ],
   "note": "Holds unless a notification was cut off between block type and payload; C41_refuted: such a frame makes the receiver deaf for the rest of the connection."
  },
  {
   "property": "C42",
   "status": "partial",
   "theorems": [
    "C42_high_partial",
    "C42_refuted"
   ],
   "note": "Proved for high priority when no earlier frame waits for its transport acknowledge and a buffer is available; C42_refuted: an acknowledge of a low-priority alarm is refused."
  },
  {
   "property": "C43",
   "status": "proved",
   "theorems": [
    "C43_join",
    "C43_distinct_files"
   ],
   "note": ""
  },
  {
   "property": "C44",
   "status": "partial",
   "theorems": [
    "C44_ase_torn_refuted",
    "C44_ase_quiet_partial",
    "C44_locked_snapshot"
   ],
   "note": "Holds for I&M and port data; the network settings (ASE) are written from the shared object without the lock and can be torn (C44_ase_torn_refuted)."
  },
  {
   "property": "C45",
   "status": "partial",
   "theorems": [
    "C45_two_new_apis_refuted",
    "C45_one_api_partial"
   ],
   "note": "Refuted for two new APIs in one block; proved when all modules of a block belong to one API."
  },
  {
   "property": "C46",
   "status": "partial",
   "theorems": [
    "C46_padding_aligns",
    "C46_full_buffer_refuted",
    "C46_no_room_never_ends"
   ],
   "note": "Refuted when the aligned position is beyond the buffer; proved with room."
  },
  {
   "property": "C47",
   "status": "proved",
   "theorems": [
    "C47_event_order",
    "C47_foreign_session_refuted"
   ],
   "note": "Proved with the assumption in the statement (one session per connection); C47_foreign_session_refuted shows that the assumption is needed."
  },
  {
   "property": "C48",
   "status": "partial",
   "theorems": [
    "C48_owner_expects",
    "C48_expected_is_owned",
    "C48_one_per_address",
    "C48_handover",
    "C48_failed_connect_refuted"
   ],
   "note": "Proved when refused requests claim nothing; a connect that fails after claiming leaves sub-slots owned by a free entry (C48_failed_connect_refuted)."
  },
  {
   "property": "C49",
   "status": "proved",
   "theorems": [
    "C49_table",
    "C49_accepts_while_room",
    "C49_refuses_when_full"
   ],
   "note": ""
  },
  {
   "property": "C50",
   "status": "partial",
   "theorems": [
    "C50_resources",
    "C50_failed_start_refuted"
   ],
   "note": "Proved when starting the consumers and providers succeeds; a start that fails half-way leaks the providers created so far (C50_failed_start_refuted)."
  },
  {
   "property": "C51",
   "status": "partial",
   "theorems": [
    "C51_reparameterisation_refuted"
   ],
   "note": "Refuted for every reachable state in data exchange: begin and end of parameterisation always end the connection."
  },
  {
   "property": "C52",
   "status": "proved",
   "theorems": [
    "C52_identifiers_unique",
    "C52_duplicate_ends_old"
   ],
   "note": ""
  },
  {
   "property": "C53",
   "status": "proved",
   "theorems": [
    "C53_summary"
   ],
   "note": ""
  },
  {
   "property": "C54",
   "status": "partial",
   "theorems": [
    "C54_listing_partial",
    "C54_usi_zero_refuted"
   ],
   "note": "Proved for diagnosis with USI above 0; USI 0 is stored but never listed (C54_usi_zero_refuted)."
  },
  {
   "property": "C55",
   "status": "proved",
   "theorems": [
    "C55_add",
    "C55_update",
    "C55_remove"
   ],
   "note": ""
  },
  {
   "property": "C56",
   "status": "proved",
   "theorems": [
    "C56_ends"
   ],
   "note": ""
  },
  {
   "property": "C57",
   "status": "proved",
   "theorems": [
    "C57_plug",
    "C57_pull"
   ],
   "note": ""
  },
  {
   "property": "C58",
   "status": "partial",
   "theorems": [
    "C58_partial",
    "C58_refuted"
   ],
   "note": "A crash needs a frame that is due while the previous one of that priority is unacknowledged (C58_partial); C58_refuted shows such a history."
  },
  {
   "property": "C59",
   "status": "partial",
   "theorems": [
    "C59_never_other_partial",
    "C59_partial",
    "C59_refuted",
    "C59_exhausted_refuted"
   ],
   "note": "Holds if no connect request fails after its endpoint was allocated; never delivered to another connection in any case. C59_refuted: one refused connect makes the next connection in that place deaf for alarms."
  },
  {
   "property": "C60",
   "status": "partial",
   "theorems": [
    "C60_origin_partial",
    "C60_origin_refuted",
    "C60_numbers",
    "C60_frames",
    "C60_tack"
   ],
   "note": "Numbers, waiting and acknowledge matching are proved for all histories; the origin of an acknowledge is proved for frames with at least 12 bytes behind the frame id, and refuted for shorter ones (C60_origin_refuted)."
  },
  {
   "property": "C61",
   "status": "partial",
   "theorems": [
    "C61_partial",
    "C61_refuted"
   ],
   "note": "Proved: the status is taken from the four bytes behind the block header; C61_refuted: in an alarm acknowledge these are alarm type and API, not the status."
  },
  {
   "property": "C62",
   "status": "partial",
   "theorems": [
    "C62_sound_partial",
    "C62_complete_partial",
    "C62_refuted"
   ],
   "note": "What is accepted is characterised exactly (valid_spec). Refuted in both directions: empty labels and a first label port-xyz of a longer name are accepted; port- followed by three or nine digits and hyphens of any form, and four numbers of any length, are refused."
  },
  {
   "property": "C63",
   "status": "proved",
   "theorems": [
    "C63_suite"
   ],
   "note": "Exact for all 32-bit values. Note that the mask 0 is accepted with a nonzero address, and address and mask 0 with any gateway."
  },
  {
   "property": "C64",
   "status": "partial",
   "theorems": [
    "C64_refused_partial",
    "C64_refuted"
   ],
   "note": "Proved without active connections. C64_refuted: with one, a change of the suite is refused but stored and reported."
  },
  {
   "property": "C65",
   "status": "partial",
   "theorems": [
    "C65_reported",
    "C65_interface_partial",
    "C65_permanent",
    "C65_refuted"
   ],
   "note": "Reporting and saving proved for all states; the interface for histories without connections, empty names and resets. C65_refuted shows two histories in which the interface keeps another suite."
  },
  {
   "property": "C66",
   "status": "proved",
   "theorems": [
    "C66_persistence",
    "C66_name",
    "C66_suite"
   ],
   "note": ""
  },
  {
   "property": "C67",
   "status": "proved",
   "theorems": [
    "C67_valid_settings"
   ],
   "note": ""
  },
  {
   "property": "C68",
   "status": "proved",
   "theorems": [
    "C68_at_most_three",
    "C68_silent",
    "C68_sent"
   ],
   "note": ""
  },
  {
   "property": "C69",
   "status": "partial",
   "theorems": [
    "C69_clears",
    "C69_connections_partial",
    "C69_refuted"
   ],
   "note": "Clearing proved for all states; connections end only if the device was in state W_CONNECT; a reset of application data loses temporary name and suite (C69_refuted)."
  },
  {
   "property": "C70",
   "status": "proved",
   "theorems": [
    "C70_foreign",
    "C70_truncated"
   ],
   "note": "Frames with any content; C70_truncated for requests whose announced end does not wrap around 16 bits."
  },
  {
   "property": "C71",
   "status": "partial",
   "theorems": [
    "C71_lock",
    "C71_release_partial",
    "C71_refuted"
   ],
   "note": "C71_lock holds without conditions on the scheduler. C71_release_partial: missing when the scheduler is full; C71_refuted: the lock is then never released."
  },
  {
   "property": "C72",
   "status": "partial",
   "theorems": [
    "C72_long_refuted",
    "C72_partial"
   ],
   "note": "Proved for at most 184 blocks (an answer block has 8 bytes) and buffers with 32 bytes behind the data; C72_long_refuted: with 185 blocks some are not answered."
  },
  {
   "property": "C73",
   "status": "partial",
   "theorems": [
    "C73_refuted",
    "C73_partial",
    "C73_size"
   ],
   "note": "Proved when the answer fits in a frame; C73_size bounds all responses; C73_refuted: otherwise the answer may end with a block header without value."
  },
  {
   "property": "C74",
   "status": "partial",
   "theorems": [
    "C74_refuted",
    "C74_filter_partial",
    "C74_all"
   ],
   "note": "Proved for name, alias, MAC address, identifier and instance filters and requests to all; C74_refuted: IP and product filters, empty requests, names with zeros."
  },
  {
   "property": "C75",
   "status": "proved",
   "theorems": [
    "C75_delay",
    "C75_pending",
    "C75_sent",
    "C75_buffers"
   ],
   "note": ""
  },
  {
   "property": "C76",
   "status": "partial",
   "theorems": [
    "C76_flashes_partial",
    "C76_complete_partial",
    "C76_spacing",
    "C76_refuted"
   ],
   "note": "Proved while the scheduler has room; C76_spacing without this condition; C76_refuted: with a full scheduler the LED stays on or does not flash."
  },
  {
   "property": "C77",
   "status": "partial",
   "theorems": [
    "C77_get_set_partial",
    "C77_identify_partial",
    "C77_refuted",
    "C77_stale_refuted",
    "C77_name_refuted"
   ],
   "note": "Proved for buffers with 32 bytes behind the frame (and, for Identify, without the whole name memory in the frame); refuted otherwise, and stale bytes matter."
  },
  {
   "property": "C78",
   "status": "partial",
   "theorems": [
    "C78_refuted"
   ],
   "note": "Refuted: two idle devices exchange responses for ever."
  },
  {
   "property": "C79",
   "status": "partial",
   "theorems": [
    "C79_partial",
    "C79_low",
    "C79_refuted"
   ],
   "note": "Proved for the low priority; on the high priority the number counts alarms and alarm acknowledges (C79_partial), so there are gaps (C79_refuted)."
  },
  {
   "property": "C80",
   "status": "partial",
   "theorems": [
    "C80_partial",
    "C80_refuted"
   ],
   "note": ""
  },
  {
   "property": "C81",
   "status": "partial",
   "theorems": [
    "C81_partial",
    "C81_refuted"
   ],
   "note": ""
  },
  {
   "property": "C82",
   "status": "partial",
   "theorems": [
    "C82_partial",
    "C82_discard_refuted",
    "C82_twice_refuted",
    "C82_reduce_refuted"
   ],
   "note": ""
  },
  {
   "property": "C83",
   "status": "proved",
   "theorems": [
    "C83_no_overflow"
   ],
   "note": ""
  },
  {
   "property": "C84",
   "status": "partial",
   "theorems": [
    "C84_partial",
    "C84_refuted"
   ],
   "note": ""
  },
  {
   "property": "C85",
   "status": "partial",
   "theorems": [
    "C85_partial",
    "C85_refuted"
   ],
   "note": ""
  },
  {
   "property": "C86",
   "status": "partial",
   "theorems": [
    "C86_partial",
    "C86_refuted",
    "C86_names"
   ],
   "note": ""
  },
  {
   "property": "C87",
   "status": "partial",
   "theorems": [
    "C87_partial",
    "C87_refuted"
   ],
   "note": ""
  },
  {
   "property": "C88",
   "status": "partial",
   "theorems": [
    "C88_partial",
    "C88_refuted",
    "C88_given_refuted"
   ],
   "note": ""
  },
  {
   "property": "C89",
   "status": "proved",
   "theorems": [
    "C89_accepted",
    "C89_in_range"
   ],
   "note": ""
  },
  {
   "property": "C90",
   "status": "partial",
   "theorems": [
    "C90_content_partial",
    "C90_delivered_partial",
    "C90_lost_refuted",
    "C90_stale_refuted",
    "C90_restart_refuted"
   ],
   "note": "Proved: if every datagram is at least as long as its header says, a fragmented request that the reassembly accepts is executed on the concatenation of fragments 0..n of the same client in order (content); fragments that arrive in order, with datagrams of other clients and late copies of fragments other than 0 in between, are executed (delivered). Missing, shown by the refuted theorems: execution of an incomplete write, fragments shorter than announced, a late copy of fragment 0."
  },
  {
   "property": "C91",
   "status": "partial",
   "theorems": [
    "C91_no_harm_partial",
    "C91_not_a_response",
    "C91_connected",
    "C91_response_refuted",
    "C91_timer_refuted"
   ],
   "note": ""
  },
  {
   "property": "C92",
   "status": "partial",
   "theorems": [
    "C92_duplicate_refuted",
    "C92_complete_partial",
    "C92_all_partial",
    "C92_multiple_refuted"
   ],
   "note": ""
  },
  {
   "property": "C93",
   "status": "partial",
   "theorems": [
    "C93_gives_up_partial",
    "C93_ready_partial",
    "C93_stopped_refuted"
   ],
   "note": ""
  },
  {
   "property": "C94",
   "status": "proved",
   "theorems": [
    "C94_isolation",
    "C94_other_clients",
    "C94_unique"
   ],
   "note": ""
  },
  {
   "property": "C95",
   "status": "partial",
   "theorems": [
    "C95_returned_partial",
    "C95_lookup_partial",
    "C95_aborted",
    "C95_refuted"
   ],
   "note": "Single requests of clients without connection (ping, cancel, read, release, refused connect, endpoint mapper lookup after its timer) do not keep a session, and the loss of a connection gives its sessions back. Refuted in general: other packet types and unfinished requests keep a session for ever (C95_refuted)."
  },
  {
   "property": "C96",
   "status": "partial",
   "theorems": [
    "C96_one",
    "C96_address_partial",
    "C96_identity_partial",
    "C96_reject_refuted",
    "C96_limit_refuted"
   ],
   "note": "At most one answer; address and port for everything except REJECTs of oversized messages and fragment acknowledgements without a session of their own; identity for requests in one datagram whose limit leaves room for a header. Refuted: REJECT goes to the previous peer, limit modulo 2^32."
  },
  {
   "property": "C97",
   "status": "partial",
   "theorems": [
    "C97_own_partial",
    "C97_ready_partial",
    "C97_refuted",
    "C97_twice_refuted",
    "C97_cancel_refuted"
   ],
   "note": "For histories in which no request of the listed kinds (fair) arrives in the session of a connection. Refuted without this: implicit read, second connect, endpoint mapper operation 1 followed by a cancel."
  },
  {
   "property": "C98",
   "status": "partial",
   "theorems": [
    "C98_once_partial",
    "C98_old_refuted",
    "C98_first_refuted"
   ],
   "note": "As long as a session exists and no other control request is executed in it. The property for all sequences is violated: late copies of older requests, number 4294967295 in a new session (C98_old_refuted, C98_first_refuted)."
  },
  {
   "property": "C99",
   "status": "proved",
   "theorems": [
    "C99_refused",
    "C99_safe",
    "C99_only_received"
   ],
   "note": "Safety and independence for every byte string; that a refused frame changes nothing is in the port model (C99_refused)."
  },
  {
   "property": "C100",
   "status": "partial",
   "theorems": [
    "C100_learned",
    "C100_no_end",
    "C100_management_refuted",
    "C100_too_long_refuted"
   ],
   "note": "Proved for frames whose management addresses have consistent inner lengths and whose names fit; refuted beyond: C100_management_refuted, C100_too_long_refuted."
  },
  {
   "property": "C101",
   "status": "proved",
   "theorems": [
    "C101_round_trip"
   ],
   "note": "Names within the sizes the API allows; port names of at most 13 characters (always port-NNN)."
  },
  {
   "property": "C102",
   "status": "partial",
   "theorems": [
    "C102_expires_partial",
    "C102_known",
    "C102_long_refuted",
    "C102_full_refuted"
   ],
   "note": "Proved for times to live up to 60 s and a scheduler with room (C102_expires_partial), and that what is reported was said (C102_known). Refuted in general: longer times to live and a full scheduler."
  },
  {
   "property": "C103",
   "status": "partial",
   "theorems": [
    "C103_buffer",
    "C103_alias",
    "C103_text",
    "C103_empty_refuted"
   ],
   "note": "Alias stays in its buffer, matches exactly; text of the alias proved for neighbours with ids. A neighbour without ids has the alias '.' (C103_empty_refuted)."
  },
  {
   "property": "C104",
   "status": "partial",
   "theorems": [
    "C104_silent",
    "C104_every_partial",
    "C104_reset_refuted",
    "C104_full_refuted"
   ],
   "note": "No frame while switched off (C104_silent); every five seconds plus a period if the scheduler has room (C104_every_partial). Refuted: reset while off, full scheduler."
  },
  {
   "property": "C105",
   "status": "partial",
   "theorems": [
    "C105_diagnoses_partial",
    "C105_prefix_refuted",
    "C105_stale_refuted"
   ],
   "note": "Diagnoses are right after each handling up to prefixes of names (C105_diagnoses_partial). Missing because false: names of which one begins with the other (C105_prefix_refuted), and a neighbour that is gone (C105_stale_refuted)."
  },
  {
   "property": "C106",
   "status": "partial",
   "theorems": [
    "C106_ends_partial",
    "C106_all_ports",
    "C106_whole_module_refuted"
   ],
   "note": "Every read ends except check data of slot 0 subslot 0 (C106_ends_partial), for which no number of steps suffices (C106_whole_module_refuted)."
  },
  {
   "property": "C107",
   "status": "partial",
   "theorems": [
    "C107_handed_partial",
    "C107_wrap_refuted",
    "C107_short_refuted"
   ],
   "note": "Proved for all requests whose executed records have lengths that do not wrap (at most 2^32-65536; at least 6 for records of the stack): no access outside, termination, and every piece handed over is a part of the request of the announced length. The excluded lengths are refuted (out of bounds read)."
  },
  {
   "property": "C108",
   "status": "partial",
   "theorems": [
    "C108_accepted",
    "C108_others",
    "C108_refused_partial",
    "C108_refused_refuted",
    "C108_zero_refuted",
    "C108_history_partial",
    "C108_all_histories_partial",
    "C108_read",
    "C108_written_read_partial"
   ],
   "note": "Which writes are accepted, and that other records are unchanged, is proved in full. What a later read returns is proved over all histories of accepted and refused writes, clearings, location changes and failed saves (C108_all_histories_partial). Partial: strings without zero bytes, and I&M1 writes of the right length; a refused I&M1 write can change data and bytes behind a zero byte are lost (the two refuted theorems)."
  },
  {
   "property": "C109",
   "status": "partial",
   "theorems": [
    "C109_latest_partial",
    "C109_full_refuted",
    "C109_bytes"
   ],
   "note": "The listed events are the latest in order; a full book lists one less than announced (refuted)."
  },
  {
   "property": "C110",
   "status": "partial",
   "theorems": [
    "C110_order_partial",
    "C110_names_refuted",
    "C110_repeat_refuted",
    "C110_stop_refuted"
   ],
   "note": "Order, data, names and stop proved for all lists of well formed accepted records and all applications with whole statuses; unknown connections, block type 0x250 and half statuses are refuted."
  },
  {
   "property": "C111",
   "status": "partial",
   "theorems": [
    "C111_user_partial",
    "C111_offered_refuted",
    "C111_failure",
    "C111_no_connection_refuted",
    "C111_request",
    "C111_consistent_partial",
    "C111_cut_refuted"
   ],
   "note": "Inside the buffer and consistent length for all reads with a connection; data of the application unchanged if at most the offered length less 64; the rest is refuted."
  },
  {
   "property": "C112",
   "status": "partial",
   "theorems": [
    "C112_plug_module",
    "C112_pull_submodule_partial",
    "C112_plug_submodule_partial",
    "C112_pull_module_partial",
    "C112_unique",
    "C112_pull_free_refuted",
    "C112_pull_module_free_refuted",
    "C112_plug_alarm_refuted",
    "C112_plug_other_refuted"
   ],
   "note": "Proved for every history of plug, pull, take and release calls: what each call answers and changes, uniqueness and limits. Refuted: answers of failure although the submodule was pulled or plugged, module with free submodules needs several calls, submodule taken for another module, other data ignored."
  },
  {
   "property": "C113",
   "status": "partial",
   "theorems": [
    "C113_listed_partial",
    "C113_exact_partial",
    "C113_wrong_module_refuted",
    "C113_missing_api_refuted"
   ],
   "note": "For all expected configurations and device contents: what is listed and in which order, exact where every expected API is plugged and no expected module has a wrong ident number; a wrong module and a missing API are reported as no difference at all (refuted)."
  },
  {
   "property": "C114",
   "status": "partial",
   "theorems": [
    "C114_block_partial",
    "C114_nothing",
    "C114_inside",
    "C114_told_partial",
    "C114_missing_module_refuted"
   ],
   "note": "Decoder is the specification: for all differences without a missing module, both byte orders and all buffers with room, decoded differences are those computed; never a byte outside the buffer. A missing module is written with a 32 bit count of submodules, so what follows is read shifted (refuted on bytes)."
  },
  {
   "property": "C115",
   "status": "partial",
   "theorems": [
    "C115_one_partial",
    "C115_memory_refuted",
    "C115_lost_refuted"
   ],
   "note": "For all histories and configurations: the difference is that part of the comparison that concerns the submodule, if the API is plugged and no other module is in the slot. With another module in the slot the code indexes submodules with the number of the module: memory outside the array is read (refuted) or the difference is lost (refuted); also lost without the API."
  },
  {
   "property": "C116",
   "status": "partial",
   "theorems": [
    "C116_real",
    "C116_apis",
    "C116_expected_partial",
    "C116_no_connection_refuted"
   ],
   "note": "For all histories of the device, expectations, addresses and buffers: each read of real data, of the list of APIs and, on a connection, of expected data decodes to what is plugged or expected in the part asked for, inside the buffer. Without a connection every read of expected data accesses address NULL (refuted)."
  },
  {
   "property": "C117",
   "status": "partial",
   "theorems": [
    "C117_read_partial",
    "C117_exactly_partial",
    "C117_left_out_refuted"
   ],
   "note": "For all histories of diagnoses and of the device, expectations, addresses, the 29 indexes and buffers: a read stays inside the buffer and a controller decodes exactly the stored diagnoses of the part and kind asked for, one block for each subslot and USI. Refuted for diagnoses with USI 0 and for manufacturer diagnoses without data: they are in no record. The diagnosis store and the table of modules are two parts of the state; what is plugged in both is not linked."
  },
  {
   "property": "C118",
   "status": "partial",
   "theorems": [
    "C118_taken",
    "C118_notification_partial",
    "C118_acknowledge",
    "C118_close",
    "C118_transport",
    "C118_ident_refuted",
    "C118_standard_refuted"
   ],
   "note": "The ident number of the sub-module is told modulo 65536 (refuted otherwise); with large builds standard diagnoses are not reported to some controllers (refuted). UDP alarms, buffer allocation and failing sends are not modelled."
  },
  {
   "property": "C119",
   "status": "proved",
   "theorems": [
    "C119_request",
    "C119_answer",
    "C119_session",
    "C119_all",
    "C119_counted_refuted",
    "C119_handle_refuted",
    "C119_big_endian_refuted"
   ],
   "note": "Little-endian hosts; sessions of at most 2^32 requests. Refuted: handles are not unique, requests answered 'not registered' are counted, big-endian hosts."
  },
  {
   "property": "C120",
   "status": "partial",
   "theorems": [
    "C120_read_partial",
    "C120_refused",
    "C120_told_partial",
    "C120_inside",
    "C120_hang_refuted",
    "C120_cut_refuted",
    "C120_size"
   ],
   "note": "Missing: differences with missing modules (C114), relations of class 5 (C88), little-endian requests (C28: not reachable, the device switches to big-endian), responses that are too small for advanced startup (C120_hang_refuted: the device never finishes) or cut off (C120_cut_refuted)."
  },
  {
   "property": "C121",
   "status": "partial",
   "theorems": [
    "C121_input",
    "C121_output",
    "C121_none",
    "C121_inside",
    "C121_counts",
    "C121_new_refuted"
   ],
   "note": "The contents of the records are proved for all histories. Missing: a read of a record changes what the application is told (C121_new_refuted: the new-data flag); reads concurrent with the application."
  },
  {
   "property": "C122",
   "status": "partial",
   "theorems": [
    "C122_device",
    "C122_api_partial",
    "C122_hang_refuted",
    "C122_inside",
    "C122_none",
    "C122_api_refuted",
    "C122_zero_refuted",
    "C122_vendor_refuted"
   ],
   "note": "Device scope for all tables; the read need not end if the response is too small (C122_hang_refuted), several APIs (C122_api_refuted), identifiers starting with 0 (C122_zero_refuted), vendor blocks (C122_vendor_refuted)."
  },
  {
   "property": "C123",
   "status": "partial",
   "theorems": [
    "C123_port",
    "C123_statistics",
    "C123_interface",
    "C123_device",
    "C123_check_back_partial",
    "C123_adjust_back",
    "C123_adjust_same",
    "C123_mode_back",
    "C123_frame",
    "C123_inside",
    "C123_peers_refuted",
    "C123_check_length_refuted",
    "C123_mode_short_refuted",
    "C123_slot_refuted",
    "C123_hang_refuted"
   ],
   "note": "Partial: the record of wanted peers keeps one peer and has a wrong inner length; a response that ends inside the padding never ends; the slot of a write is ignored; cut-off interface records are accepted (refuted theorems)."
  },
  {
   "property": "C124",
   "status": "partial",
   "theorems": [
    "C124_im0_partial",
    "C124_cut_refuted",
    "C124_filter",
    "C124_inside",
    "C124_filter_complete_refuted"
   ],
   "note": "A response with 57 to 59 bytes left is cut off and told as a success (C124_cut_refuted); the filter lists only the first submodule of the device access point (C124_filter_complete_refuted)."
  },
  {
   "property": "C125",
   "status": "partial",
   "theorems": [
    "C125_total",
    "C125_set",
    "C125_kept",
    "C125_reset",
    "C125_location_partial",
    "C125_power_off_refuted",
    "C125_mode_refuted",
    "C125_refused_refuted",
    "C125_failed_refuted"
   ],
   "note": "The location of SNMP and of I&M1 agree unless a save fails, power goes off before the background job, an I&M1 record is refused or a reset has mode 2 (findings)."
  },
  {
   "property": "C126",
   "status": "proved",
   "theorems": [
    "C126_link",
    "C126_management",
    "C126_neighbour",
    "C126_received",
    "C126_dot_refuted"
   ],
   "note": "for port names without a dot; the mode of older devices mistakes a dot in a port name (C126_dot_refuted)"
  },
  {
   "property": "C127",
   "status": "proved",
   "theorems": [
    "C127_hello",
    "C127_when",
    "C127_address_refuted"
   ],
   "note": "values as the device has them; the block info of the address is wrong and the role is missing (C127_address_refuted)"
  },
  {
   "property": "C128",
   "status": "proved",
   "theorems": [
    "C128_release",
    "C128_dcontrol",
    "C128_again",
    "C128_safe",
    "C128_args_refuted",
    "C128_room_refuted",
    "C128_refused_refuted",
    "C128_first_refuted",
    "C128_unknown_refuted"
   ],
   "note": "with room for the response; argument length of release requests unchecked, little room, refused requests, first sequence number and unknown headers: see the _refuted theorems"
  },
  {
   "property": "C129",
   "status": "proved",
   "theorems": [
    "C129_read",
    "C129_silent_refuted",
    "C129_length_refuted"
   ],
   "note": "refused requests are answered without a status, and one kind leaves no error: C129_silent_refuted, C129_length_refuted"
  },
  {
   "property": "C130",
   "status": "proved",
   "theorems": [
    "C130_confirmed",
    "C130_uuid_refuted"
   ],
   "note": "the UUID is not compared: C130_uuid_refuted"
  },
  {
   "property": "C131",
   "status": "partial",
   "theorems": [
    "C131_taken",
    "C131_args",
    "C131_fits",
    "C131_answered",
    "C131_safe",
    "C131_fields",
    "C131_length_refuted",
    "C131_none_refuted",
    "C131_submodules_refuted"
   ],
   "note": "Taken exactly if of the grammar, fits the tables, refusals answered. Safety except for expected submodules (C131_submodules_refuted); AR header length differs from the block for names with a zero (C131_length_refuted)."
  },
  {
   "property": "C132",
   "status": "proved",
   "theorems": [
    "C132_all",
    "C132_later_refuted"
   ],
   "note": "All connections in the table below PNET_MAX_AR and any driver. Connections made later start with the default (C132_later_refuted)."
  },
  {
   "property": "C133",
   "status": "partial",
   "theorems": [
    "C133_safe",
    "C133_order",
    "C133_found_partial",
    "C133_taken",
    "C133_far_refuted",
    "C133_stale_refuted"
   ],
   "note": "Proved for all histories and table sizes: memory safety, order, unique handles, first free place. The lookup is proved for numbers up to 65536 (other than the spare entry's index, in use only inside the handling of a refused connect); refuted for larger ones and for handles of ended connections."
  },
  {
   "property": "C134",
   "status": "partial",
   "theorems": [
    "C134_ends",
    "C134_good",
    "C134_exact_partial",
    "C134_half_refuted"
   ],
   "note": "Proved for all numbers of ports and links of known types that are not fast and half duplex; for those it is refuted."
  },
  {
   "property": "C135",
   "status": "proved",
   "theorems": [
    "C135_apart",
    "C135_usi_refused",
    "C135_usi_added",
    "C135_std_added",
    "C135_updated",
    "C135_removed"
   ],
   "note": "All six calls, all reachable states of the store; standard diagnoses for the whole sub-module without any error are excluded, as in C34."
  }
 ]
}