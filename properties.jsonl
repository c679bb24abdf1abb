{"id": "C01", "title": "Timers never fire early", "statement": "A callback armed with pf_scheduler_add is never called by pf_scheduler_tick before the (sanitised) delay has elapsed since the call that armed it, even when the 32-bit microsecond clock wraps.", "quantifier": "all sequences (and all interleavings at critical-section granularity) of add / remove / tick from any number of threads, any callbacks that themselves arm or cancel timers, any table size, any clock values as long as the scheduler is ticked at least once per 2^31 us minus the maximal delay", "why_tests_cant": "the property must hold at every clock value including wrap-around and for every interleaving; tests only use a few delays from a mocked clock", "anchors": ["src/common/pf_scheduler.c:pf_scheduler_add", "src/common/pf_scheduler.c:pf_scheduler_tick"]}
{"id": "C02", "title": "Every due timer fires at the next tick, in due-time order", "statement": "When pf_scheduler_tick returns, no armed timer is due, every timer that was due (and not cancelled meanwhile) has been called exactly once, and the callbacks were called in non-decreasing order of due time.", "quantifier": "all reachable scheduler states, all ticks, all callback behaviours", "why_tests_cant": "depends on the global sortedness of a pointer-linked queue after an arbitrary history", "anchors": ["src/common/pf_scheduler.c:pf_scheduler_tick", "src/common/pf_scheduler.c:pf_scheduler_add"]}
{"id": "C03", "title": "Timer slots are never leaked or shared", "statement": "At every moment each timer slot is either free, armed, or being armed by exactly one caller; pf_scheduler_add fails if and only if no slot is free; the internal loop guard assertion never fails.", "quantifier": "all histories and interleavings that respect handle discipline, any table size", "why_tests_cant": "leaks and cross-linking in an intrusive list show up only after particular histories of add/remove/tick", "anchors": ["src/common/pf_scheduler.c:pf_scheduler_unlink", "src/common/pf_scheduler.c:pf_scheduler_link_before", "src/common/pf_scheduler.c:pf_scheduler_link_after", "src/common/pf_scheduler.c:pf_scheduler_init"]}
{"id": "C04", "title": "Cancelled timers do not fire, and a timer fires at most once per arming", "statement": "After pf_scheduler_remove on the handle of an armed timer, the callback of that arming is never called; without removal it is called at most once per pf_scheduler_add.", "quantifier": "all histories after the removal", "why_tests_cant": "a safety property over all futures", "anchors": ["src/common/pf_scheduler.c:pf_scheduler_remove", "src/common/pf_scheduler.c:pf_scheduler_tick"]}
{"id": "C05", "title": "Sanitised delay is a positive, bounded number of cycles close to the request", "statement": "pf_scheduler_sanitize_delay returns a multiple of the stack cycle time (minus half a cycle when requested), never zero and never overflowing, and for requests above one and a half cycles and up to the maximum, within half a cycle of the request; requests above the maximum are treated as the shortest delay.", "quantifier": "all 32-bit delays and all cycle times in the supported range", "why_tests_cant": "2^64 argument pairs", "anchors": ["src/common/pf_scheduler.c:pf_scheduler_sanitize_delay"]}
{"id": "C06", "title": "A tick always terminates", "statement": "pf_scheduler_tick performs at most as many callback calls as there were timers armed when it started, even if every callback re-arms timers.", "quantifier": "all states, all callback behaviours (each may add or cancel timers)", "why_tests_cant": "termination of a loop whose body runs arbitrary code", "anchors": ["src/common/pf_scheduler.c:pf_scheduler_tick"]}
{"id": "C07", "title": "Cancelling through a handle affects only that handle's own timer", "statement": "pf_scheduler_remove(handle) cancels the timer that was armed with this handle and no other timer.", "quantifier": "all histories, including handles whose timer already fired", "why_tests_cant": "needs a history in which a slot is reused by another owner", "anchors": ["src/common/pf_scheduler.c:pf_scheduler_remove"]}
{"id": "C08", "title": "Consumer cycle counter window", "statement": "A cyclic frame is accepted with respect to its cycle counter exactly when the counter is 1 to 61440 steps ahead (modulo 65536) of the last accepted one; duplicates and up to 4095 steps late frames are rejected.", "quantifier": "all pairs of 16-bit counters, including wrap-around, and all previously accepted counters", "why_tests_cant": "2^32 pairs; tests try a handful", "anchors": ["src/common/pf_cpm.c:pf_cpm_check_cycle"]}
{"id": "C09", "title": "Invalid cyclic frames have no effect on the application data", "statement": "A received frame with the wrong source address, wrong length, nonzero transfer status, a stale cycle counter or cleared data-valid bit never changes the data, provider status or data status an application can read, and never postpones the loss-of-communication watchdog.", "quantifier": "all consumer states and all frame contents", "why_tests_cant": "arbitrary frame bytes times arbitrary states", "anchors": ["src/common/pf_cpm.c:pf_cpm_c_data_ind"]}
{"id": "C10", "title": "Consumer watchdog", "statement": "Once running, the consumer reports loss of communication (stop with DHT expired) exactly when data_hold_factor+1 consecutive control intervals elapse without an accepted frame, and not earlier.", "quantifier": "all sequences of frames and interval expirations, all hold factors", "why_tests_cant": "infinitely many schedules of frame arrivals against timer expirations", "anchors": ["src/common/pf_cpm.c:pf_cpm_control_interval_expired", "src/common/pf_cpm.c:pf_cpm_c_data_ind"]}
{"id": "C11", "title": "pnet_output_get_data_and_iops returns the latest accepted bytes", "statement": "The data and IOPS returned for a sub-slot are the bytes at that sub-slot's offsets in the most recently accepted frame, and never a mix of two frames.", "quantifier": "all interleavings of frame reception and application reads, all frames", "why_tests_cant": "two threads exchange buffers through pointer swaps", "anchors": ["src/common/pf_cpm_driver_sw.c:pf_cpm_driver_sw_get_data_and_iops", "src/common/pf_cpm_driver_sw.c:pf_cpm_get_buf", "src/common/pf_cpm_driver_sw.c:pf_cpm_put_buf"]}
{"id": "C12", "title": "Receive buffers are neither leaked nor double-freed by the consumer", "statement": "Every frame buffer taken by the consumer is, at every point in time, held in one of its two buffer slots or has been freed exactly once; at most two are held.", "quantifier": "all histories of receive / read / close", "why_tests_cant": "ownership is a property of the whole history", "anchors": ["src/common/pf_cpm_driver_sw.c:pf_cpm_put_buf", "src/common/pf_cpm_driver_sw.c:pf_cpm_get_buf", "src/common/pf_cpm.c:pf_cpm_close_req"]}
{"id": "C13", "title": "The new-data flag tells whether a frame arrived since the last read", "statement": "pnet_output_get_data_and_iops reports new_flag = true exactly when at least one frame was accepted since the previous call for that connection.", "quantifier": "all histories of reads (data and consumer status) and receptions", "why_tests_cant": "needs an unlucky order of API calls", "anchors": ["src/common/pf_cpm_driver_sw.c", "src/common/pf_cpm.c:pf_cpm_get_data_and_iops"]}
{"id": "C14", "title": "Wire format of transmitted cyclic frames", "statement": "Each transmitted cyclic frame is destination MAC, source MAC, VLAN tag, ethertype 0x8892, frame id, the current process data image, the cycle counter big-endian, the data status and a zero transfer status, and has exactly that length.", "quantifier": "all addresses, VLAN settings, frame ids, data images, counters", "why_tests_cant": "all byte contents", "anchors": ["src/common/pf_ppm.c:pf_ppm_init_buf", "src/common/pf_ppm.c:pf_ppm_finish_buffer"]}
{"id": "C15", "title": "Writing one sub-slot's input data never disturbs another's", "statement": "pnet_input_set_data_and_iops and pnet_output_set_iocs change only the bytes of the process image that belong to the addressed sub-slot; after any sequence of writes each sub-slot's region holds the value last written to it.", "quantifier": "all sequences of writes, all non-overlapping layouts", "why_tests_cant": "arbitrary histories and layouts", "anchors": ["src/common/pf_ppm.c:pf_ppm_set_data_and_iops", "src/common/pf_ppm_driver_sw.c"]}
{"id": "C16", "title": "Set-then-get of input data and IOPS returns what was set", "statement": "Reading back the input data and IOPS (or IOCS) of a sub-slot from a running producer returns exactly the bytes last set for the sub-slot; writes with lengths other than those agreed are refused without changing anything.", "quantifier": "all data, lengths and layouts", "why_tests_cant": "all byte contents and lengths", "anchors": ["src/common/pf_ppm.c:pf_ppm_get_data_and_iops", "src/common/pf_ppm.c:pf_ppm_set_data_and_iops"]}
{"id": "C17", "title": "Producer cycle counter", "statement": "When send-clock-factor times reduction-ratio is a power of two, successive transmitted cycle counters are multiples of it and advance by exactly that amount modulo 65536; for every admitted value the advance is between 1 and that amount, so that each counter passes the consumer window check of C08 after its predecessor.", "quantifier": "all factors and ratios, all start values", "why_tests_cant": "wrap-around arithmetic over the full ranges", "anchors": ["src/common/pf_ppm.c:pf_ppm_calculate_next_cyclecounter", "src/common/pf_ppm.c:pf_ppm_calculate_cyclecounter"]}
{"id": "C18", "title": "Data status setters are independent", "statement": "Each of the provider state, primary, redundancy and problem-indicator setters changes exactly its own bit of the transmitted data status (data-valid has no setter and stays set); every bit of every transmitted status byte has the value last set for it, regardless of the order of calls.", "quantifier": "all initial data status bytes and all sequences of setter calls", "why_tests_cant": "sequences of arbitrary length", "anchors": ["src/common/pf_ppm.c:pf_ppm_set_data_status_state", "src/common/pf_ppm.c:pf_ppm_set_problem_indicator", "src/common/pf_ppm.c:pf_ppm_set_data_status_redundancy", "src/common/pf_ppm.c:pf_ppm_set_data_status_provider"]}
{"id": "C19", "title": "Cyclic transmission continues until it is closed", "statement": "While the producer is running, every send event schedules the next one (or reports an error), so frames keep being sent each control interval.", "quantifier": "all sequences of send results and scheduler results", "why_tests_cant": "requires a failing network send at an arbitrary time", "anchors": ["src/common/pf_ppm_driver_sw.c:pf_ppm_drv_sw_send"]}
{"id": "C20", "title": "Ethernet dispatch", "statement": "A received Profinet frame is given to the handler most recently registered (and not removed) for its frame id and to no other; frames of other types are not consumed; each buffer is consumed at most once.", "quantifier": "all sequences of map_add / map_remove and all frames", "why_tests_cant": "arbitrary registration histories", "anchors": ["src/common/pf_eth.c:pf_eth_recv", "src/common/pf_eth.c:pf_eth_frame_id_map_add", "src/common/pf_eth.c:pf_eth_frame_id_map_remove"]}
{"id": "C21", "title": "Header parsing stays inside the received frame", "statement": "Parsing the Ethernet header of a received frame reads only bytes of that frame.", "quantifier": "all frames, including truncated frames and frames with many VLAN tags", "why_tests_cant": "arbitrary frame contents", "anchors": ["src/common/pf_eth.c:pf_eth_recv"]}
{"id": "C22", "title": "Port iteration visits each port exactly once", "statement": "Iterating with the port iterator yields the ports 1..n in order, each exactly once, then 0 forever; the cyclic variant yields each port once per round for ever.", "quantifier": "all numbers of ports and any number of calls", "why_tests_cant": "arbitrarily many calls, any configured number of ports", "anchors": ["src/device/pf_port.c:pf_port_get_next", "src/device/pf_port.c:pf_port_init_iterator_over_ports", "src/device/pf_port.c:pf_port_get_next_repeat_cyclic"]}
{"id": "C23", "title": "Port number and DAP sub-slot are in bijection", "statement": "pf_port_get_dap_port_subslot and the reverse mapping are inverse on configured ports, distinct ports have distinct sub-slots, and no sub-slot outside the configured range is taken for a port; the local port list bitmap contains exactly the configured ports.", "quantifier": "all ports, all sub-slot numbers, all numbers of ports", "why_tests_cant": "16-bit ranges", "anchors": ["src/device/pf_port.c"]}
{"id": "C24", "title": "Saved objects load back identically; foreign, old or truncated files are rejected", "statement": "pf_file_load after pf_file_save of the same object returns the same bytes; a file whose magic or version differs, or that was cut at any byte (crash during save), is rejected.", "quantifier": "all objects and all crash points (prefixes of the written file)", "why_tests_cant": "all crash points", "anchors": ["src/common/pf_file.c:pf_file_save", "src/common/pf_file.c:pf_file_load"]}
{"id": "C25", "title": "save_if_modified writes exactly when needed and reports it", "statement": "pf_file_save_if_modified returns 0 and writes nothing when the stored object equals the new one, 1 after rewriting a different one, 2 after writing when no valid file existed, -1 if saving failed; after 0, 1 or 2 the stored object equals the given one.", "quantifier": "all file system states and objects", "why_tests_cant": "arbitrary previous file contents", "anchors": ["src/common/pf_file.c:pf_file_save_if_modified"]}
{"id": "C26", "title": "Background jobs are never lost", "statement": "After pf_bg_worker_start_job returns, the job is executed at least once afterwards, whatever the interleaving with the worker's wait/clear/execute loop; starting the same job several times before it runs merges.", "quantifier": "all interleavings of requesters and the worker", "why_tests_cant": "lost wake-ups only occur under specific schedules", "anchors": ["src/common/pf_bg_worker.c"]}
{"id": "C27", "title": "Block parsing never reads outside the received data and errors are sticky", "statement": "The primitive readers (byte, uint16, uint32, memory, uuid) never access a byte outside the received buffer; after the first parse error every later read leaves the reported error unchanged and returns nothing from the buffer.", "quantifier": "all buffers, positions and read sequences", "why_tests_cant": "arbitrary malformed packets", "anchors": ["src/device/pf_block_reader.c:pf_get_byte", "src/device/pf_block_reader.c:pf_get_mem"]}
{"id": "C28", "title": "Writer/reader round trip", "statement": "For the block header, AR, IOCR, alarm, UUID and PNIO-status encodings, parsing what was written yields the same values, in both byte orders where the encoding has one; writing stops at the end of the buffer without writing past it.", "quantifier": "all field values, positions and buffer sizes", "why_tests_cant": "all values of all fields", "anchors": ["src/device/pf_block_writer.c", "src/device/pf_block_reader.c"]}
{"id": "C29", "title": "Parsed repetition counts never exceed the fixed arrays they fill", "statement": "Parsing a connect or write request never writes past the fixed-size tables of the connection (APIs, modules, sub-modules, IO objects, peer names).", "quantifier": "all request contents", "why_tests_cant": "arbitrary malicious packets", "anchors": ["src/device/pf_block_reader.c:pf_get_exp_api_module", "src/device/pf_block_reader.c:get_check_peer", "src/device/pf_block_reader.c:pf_get_iocr_param"]}
{"id": "C30", "title": "Start-up supervision", "statement": "While a connection is starting up, the CM initiator timeout is armed; it is cancelled when the connection reaches data exchange or is aborted; its expiration aborts the connection, and it never aborts a connection in data exchange.", "quantifier": "all event sequences", "why_tests_cant": "all orders of events", "anchors": ["src/device/pf_cmsm.c"]}
{"id": "C31", "title": "Record writes are accepted only in the phases where they are allowed", "statement": "A record write request is carried out only before the end of parameterisation or after application ready of its connection (or for device-wide records), and only on sub-slots not owned by another connection; a permitted write is carried out.", "quantifier": "all event sequences and write requests", "why_tests_cant": "all histories", "anchors": ["src/device/pf_cmwrr.c"]}
{"id": "C32", "title": "Plug alarms for released sub-modules are handled one at a time in FIFO order", "statement": "Released sub-modules are queued, and processed one by one in the order in which they were queued; none is processed twice and none is lost unless the queue was full.", "quantifier": "all event sequences", "why_tests_cant": "arbitrary histories", "anchors": ["src/device/pf_plugsm.c"]}
{"id": "C33", "title": "CMIO reports data possible exactly when all consumers run", "statement": "While waiting for data, each poll reports data_possible = true iff every consumer CR of the connection is started; a consumer stopping in data state aborts the connection.", "quantifier": "all CR sets and event sequences", "why_tests_cant": "arbitrary histories", "anchors": ["src/device/pf_cmio.c"]}
{"id": "C34", "title": "Diagnosis store", "statement": "After any sequence of diagnosis add / update / remove calls the set of stored diagnosis items of a sub-slot is exactly what the calls describe: add inserts or overwrites the item with the same key, update changes the value only, remove deletes exactly that item, other sub-slots are unaffected and items are never leaked.", "quantifier": "all call sequences and keys", "why_tests_cant": "arbitrary histories in a shared linked pool", "anchors": ["src/device/pf_diag.c:pf_diag_add", "src/device/pf_diag.c:pf_diag_update", "src/device/pf_diag.c:pf_diag_remove"]}
{"id": "C35", "title": "Station problem indicator mirrors the presence of faults", "statement": "The station problem indicator sent to the controller is set exactly when some diagnosis with severity fault exists on a sub-module of the connection.", "quantifier": "all histories of diagnosis calls over all sub-slots", "why_tests_cant": "arbitrary histories", "anchors": ["src/device/pf_diag.c"]}
{"id": "C36", "title": "Alarm queues are FIFO, bounded and loss is reported", "statement": "Alarms accepted for sending are sent in the order accepted (per priority), never duplicated by the queue, and a post fails exactly when PNET_MAX_ALARMS alarms are waiting or the queue is closed; incoming alarm frames likewise, and every buffer is freed exactly once.", "quantifier": "all post/fetch/reset sequences, all queue sizes", "why_tests_cant": "arbitrary histories over a ring buffer", "anchors": ["src/common/pf_alarm.c:pf_alarm_send_queue_post", "src/common/pf_alarm.c:pf_alarm_send_queue_fetch", "src/common/pf_alarm.c:pf_alarm_receive_queue_post"]}
{"id": "C37", "title": "At most one unacknowledged alarm per priority", "statement": "At any time at most one alarm notification per priority has been sent without having been acknowledged by the controller's alarm ACK; the next queued alarm is sent only afterwards.", "quantifier": "all interleavings of application alarms, frames and timeouts", "why_tests_cant": "all histories", "anchors": ["src/common/pf_alarm.c:pf_alarm_almpi_periodic", "src/common/pf_alarm.c:pf_alarm_send_internal"]}
{"id": "C38", "title": "Incoming alarm notifications are delivered at most once", "statement": "An alarm notification is delivered to the application at most once however often it is retransmitted, and it is transport-acknowledged again on each retransmission; frames with other sequence numbers are NACKed and not delivered.", "quantifier": "all sequences of received frames", "why_tests_cant": "all retransmission patterns", "anchors": ["src/common/pf_alarm.c:pf_alarm_apmr_a_data_ind"]}
{"id": "C39", "title": "Alarm retransmission limit", "statement": "An unacknowledged alarm frame is retransmitted at most rta_retries times, one timeout apart, and only then is the connection aborted; a valid transport acknowledge stops retransmission.", "quantifier": "all histories of alarms, TACKs and timeouts", "why_tests_cant": "stale timers only matter for particular schedules", "anchors": ["src/common/pf_alarm.c:pf_alarm_apms_timeout", "src/common/pf_alarm.c:pf_alarm_apms_a_data_ind"]}
{"id": "C40", "title": "Alarm payload given to the application lies inside the received frame", "statement": "When an alarm notification is indicated to the application, the payload pointer and length describe bytes of the received frame.", "quantifier": "all received frames", "why_tests_cant": "arbitrary malformed frames", "anchors": ["src/common/pf_alarm.c:pf_alarm_apmr_a_data_ind"]}
{"id": "C41", "title": "A malformed alarm frame does not disable later alarm reception", "statement": "After any single received alarm frame, unless the connection is aborted, a subsequent well-formed alarm frame with the expected sequence number is processed.", "quantifier": "all frames and states", "why_tests_cant": "needs a crafted frame followed by a good one", "anchors": ["src/common/pf_alarm.c:pf_alarm_apmr_a_data_ind"]}
{"id": "C42", "title": "Alarm acknowledge by the application", "statement": "pnet_alarm_send_ack after an indicated alarm (of either priority) sends the acknowledge for it.", "quantifier": "both priorities, all states reachable after an indication", "why_tests_cant": "state-dependent", "anchors": ["src/common/pf_alarm.c:pf_alarm_alpmr_alarm_ack"]}
{"id": "C43", "title": "File paths are built inside the buffer and identify files", "statement": "Joining a directory and a file name never writes past the path buffer, is refused exactly when the name is empty or the result may not fit, gives the directory, a single separating slash and the name, and distinct names in one directory give distinct paths.", "quantifier": "all directories (including none and trailing slash), names and buffer sizes", "why_tests_cant": "all lengths around the buffer size", "anchors": ["src/common/pf_file.c:pf_file_join_directory_filename"]}
{"id": "C44", "title": "Settings stored in the background are a snapshot", "statement": "What the background worker stores for network settings, I&M data and port data is the value the data had at one instant between the request and the end of the job, even if the data is changed while the job runs.", "quantifier": "all interleavings of the storing job with changes of the data", "why_tests_cant": "needs a change exactly during the write", "anchors": ["src/device/pf_cmina.c:pf_cmina_save_ase", "src/device/pf_fspm.c:pf_fspm_save_im", "src/device/pf_pdport.c:pf_pdport_save"]}
{"id": "C45", "title": "Expected modules are recorded under the API named for them", "statement": "Each module described in an expected-submodule block of a connect request is recorded for the API number given in that description.", "quantifier": "all expected-submodule blocks and tables recorded before", "why_tests_cant": "arbitrary lists of APIs and modules", "anchors": ["src/device/pf_block_reader.c:pf_get_exp_api_module"]}
{"id": "C46", "title": "Alignment padding terminates and only appends zeros", "statement": "Padding a block to an alignment always ends, appends fewer than the alignment zero bytes and leaves the position aligned, for every fill level of the output buffer.", "quantifier": "all buffers, positions and alignments", "why_tests_cant": "every fill level of the response buffer", "anchors": ["src/device/pf_block_writer.c:pf_put_padding_align"]}
{"id": "C47", "title": "Connection events reach the application in order", "statement": "For every connection the state call-back reports PRMEND, APPLRDY and DATA in this order, each at most once, between the connect and the ABORT that ends it, as long as control requests of a connection arrive in the session that created it.", "quantifier": "all histories of requests, timer expiries and consumer events", "why_tests_cant": "unbounded interleavings of several connections", "anchors": ["src/device/pf_cmdev.c:pf_cmdev_state_ind", "src/device/pf_cmrpc.c:pf_cmrpc_rm_dcontrol_ind"]}
{"id": "C48", "title": "Every plugged sub-slot has at most one, living, owner", "statement": "A plugged sub-slot is owned only by a connection that exists and expects it, a sub-slot expected by some connection has an owner, and when the owner goes away the sub-slot is handed to the oldest remaining connection that expects it, which gets a released alarm.", "quantifier": "all histories of connects, failures, plugs, pulls and aborts", "why_tests_cant": "depends on the order in which connections come and go", "anchors": ["src/device/pf_cmdev.c:pf_device_clear", "src/device/pf_cmdev.c:pf_cmdev_exp_submodule_configure"]}
{"id": "C49", "title": "The connection table is consistent and fully usable", "statement": "AREP numbers identify connections, the list of connections contains exactly the used entries in order of establishment, a valid request is accepted while fewer than the configured maximum exist, and refused without side effects when the table is full.", "quantifier": "all histories", "why_tests_cant": "all orders of allocation and release", "anchors": ["src/device/pf_cmrpc.c:pf_ar_allocate", "src/device/pf_cmrpc.c:pf_ar_release"]}
{"id": "C50", "title": "Cyclic resources live exactly as long as their connection", "statement": "Consumers, providers and the alarm instance of a connection exist from its acceptance until its end, and never outside.", "quantifier": "all histories, including starts that fail half-way", "why_tests_cant": "failure points inside the start sequence", "anchors": ["src/device/pf_cmsu.c:pf_cmsu_start_req", "src/device/pf_cmsu.c:pf_cmsu_cmdev_state_ind"]}
{"id": "C51", "title": "Re-parameterisation during data exchange", "statement": "A controller can begin and end a parameterisation during data exchange without losing the connection.", "quantifier": "all histories that reach data exchange, all application answers", "why_tests_cant": "state machine with rarely used states", "anchors": ["src/device/pf_cmpbe.c:pf_cmpbe_rm_dcontrol_ind"]}
{"id": "C52", "title": "One connection per AR identifier", "statement": "No two connections have the same AR UUID; a connect request with the UUID of an existing connection is refused, ends exactly that connection and leaves the others unchanged.", "quantifier": "all histories and connect requests", "why_tests_cant": "all orders of connects", "anchors": ["src/device/pf_cmrpc.c:pf_cmrpc_rm_connect_ind", "src/device/pf_cmrpc.c:pf_ar_find_by_uuid"]}
{"id": "C53", "title": "Sub-module diagnosis summary reflects the stored diagnoses", "statement": "For every history of plug, pull, ownership and diagnosis calls, the fault / maintenance required / maintenance demanded state kept for a plugged sub-module (used in the module difference block and in alarms) is set exactly when a diagnosis of that severity, plain or through its qualifier, is stored for the sub-module.", "quantifier": "all histories of diagnosis calls, all sub-slots", "why_tests_cant": "arbitrary histories over a shared pool", "anchors": ["src/device/pf_diag.c:pf_diag_update_submodule_state", "src/common/pf_alarm.c:pf_alarm_add_diag_item_to_summary"]}
{"id": "C54", "title": "Reading diagnosis lists every stored diagnosis exactly once", "statement": "Reading the diagnosis of a sub-slot returns blocks with ascending USI that together contain every stored diagnosis of the sub-slot exactly once and nothing else.", "quantifier": "all histories of diagnosis calls, all sub-slots", "why_tests_cant": "arbitrary histories and lists", "anchors": ["src/device/pf_cmdev.c:pf_cmdev_get_next_diagnosis_usi", "src/common/pf_block_writer.c:pf_put_diag_subslot"]}
{"id": "C55", "title": "Diagnosis changes are announced", "statement": "Each accepted add, update or removal of a diagnosis on a sub-module owned by a connection sends that connection exactly the alarms that describe the change: the new diagnosis, followed by the disappearance of a standard diagnosis it replaces; on removal the disappearance of the diagnosis, or of everything if it was the last.", "quantifier": "all histories of diagnosis calls", "why_tests_cant": "arbitrary histories", "anchors": ["src/device/pf_diag.c:pf_diag_add", "src/device/pf_diag.c:pf_diag_update", "src/device/pf_diag.c:pf_diag_remove"]}
{"id": "C56", "title": "A release or abort ends the connection in every phase", "statement": "Whatever phase a started connection is in, a release request of its controller, a call of pnet_ar_abort or an error indication of one of its parts reports PNET_EVENT_ABORT for its AREP exactly once, reports no event for any other connection, frees its place in the connection table and leaves the other connections as they were.", "quantifier": "all reachable states (any history of requests, timeouts, frames and application calls), all started connections, all ways of ending", "why_tests_cant": "The phases and the histories leading to them are unbounded; a test ends a connection from a few of them.", "anchors": ["src/device/pf_cmdev.c: pf_cmdev_rm_release_ind, pf_cmdev_cm_abort, pf_cmdev_state_ind", "src/device/pf_cmsu.c"]}
{"id": "C57", "title": "Plugging and pulling affect exactly one sub-slot and inform its connection", "statement": "Plugging a sub-module into an empty sub-slot makes it present there, with the given ident numbers, and changes no other sub-slot; the first connection in order of establishment that expects a sub-module there owns it and is sent one plug alarm that tells whether it is the expected one; without such a connection nothing is sent. Pulling leaves the sub-slot empty and all others unchanged, and the connection that owned it is sent one pull alarm.", "quantifier": "all reachable states, all addresses and ident numbers", "why_tests_cant": "Any set of connections may expect any set of sub-slots, established in any order.", "anchors": ["src/device/pf_cmdev.c: pf_cmdev_plug_submodule, pf_cmdev_pull_submodule"]}
{"id": "C58", "title": "No sequence of alarms crashes the device", "statement": "Whatever alarms the controller and the application send, in whatever order, with whatever timing of transport acknowledges, the stack does not dereference a null pointer.", "quantifier": "all interleavings of alarm calls, received alarm frames (arbitrary bytes), timer expiries and periodic calls, all answers of the operating system", "why_tests_cant": "The failing interleavings need a frame to be due while the previous one of the same priority is unacknowledged.", "anchors": ["src/common/pf_alarm.c: pf_alarm_apms_apms_a_data_req, pf_alarm_alpmr_apms_a_data_cnf"]}
{"id": "C59", "title": "Alarm frames reach the connection they are addressed to", "statement": "Each established connection was told a local alarm reference; a received alarm frame with that reference is put into the queue of that connection and of no other.", "quantifier": "all histories of connect requests (refused, failed, established) and ends of connections, any number of connections", "why_tests_cant": "Depends on the history of refused and ended connections.", "anchors": ["src/common/pf_alarm.c: pf_alarm_allocate_endpoint, pf_alarm_free_endpoint, pf_alarm_apmx_activate, pf_alarm_apmr_frame_handler", "src/device/pf_cmdev.c: pf_cmdev_rm_connect_ind", "src/device/pf_cmsu.c"]}
{"id": "C60", "title": "Numbers of alarm frames follow the protocol", "statement": "The DATA frames a connection sends on one priority are numbered 65535, 0, 1, ..., 32767, 0, ...; a new one is sent only after the previous one has been acknowledged; every frame carries the number of the DATA frame taken last; only an acknowledge with the number of the frame that waits counts.", "quantifier": "all histories, both priorities, any number of frames (wrap-around included)", "why_tests_cant": "Wrap-around and arbitrary interleavings of both directions.", "anchors": ["src/common/pf_alarm.c: pf_alarm_apms_a_data_req, pf_alarm_apms_a_data_ind, pf_alarm_apmr_a_data_ind"]}
{"id": "C61", "title": "The status of an alarm acknowledge is reported to the application", "statement": "The PNIO status given to the alarm_cnf call-back is the one in the controller's alarm acknowledge.", "quantifier": "all histories, all alarm acknowledges", "why_tests_cant": "All values of the fields before and in the status.", "anchors": ["src/common/pf_alarm.c: pf_alarm_apmr_a_data_ind", "src/common/pf_block_writer.c: pf_put_alarm_block"]}
{"id": "C62", "title": "Station names follow the naming rules", "statement": "A name is accepted by a DCP Set exactly if it is empty or obeys the rules for station names: 1 to 240 bytes, labels of 1 to 63 letters, digits and hyphens separated by dots, no hyphen at either end of a label, first label not of the form port-xyz or port-xyz-abcde, not four numbers of up to three digits.", "quantifier": "all byte strings", "why_tests_cant": "The set of names is infinite; boundary cases interact (label length, dots, digits).", "anchors": ["src/device/pf_cmina.c: pf_cmina_is_stationname_valid"]}
{"id": "C63", "title": "IP suites that are accepted are usable", "statement": "An IP suite is accepted exactly if its mask is a contiguous network mask, address and mask are both zero or the address is a host address of its network in class A to C outside 127/8, and the gateway is zero or in the same network.", "quantifier": "all 2^96 suites", "why_tests_cant": "No test covers all addresses, masks and gateways.", "anchors": ["src/device/pf_cmina.c: pf_cmina_is_ipsuite_valid, pf_cmina_is_ipaddress_valid, pf_cmina_is_netmask_valid, pf_cmina_is_gateway_valid"]}
{"id": "C64", "title": "A refused setting changes nothing", "statement": "If a block of a DCP Set request is answered negatively, the reported and stored settings, the interface and the connections are as before.", "quantifier": "all states, blocks and qualifiers", "why_tests_cant": "Every state in which a request can arrive.", "anchors": ["src/device/pf_cmina.c: pf_cmina_dcp_set_ind"]}
{"id": "C65", "title": "An accepted setting takes effect", "statement": "A name or suite that is accepted is reported from then on and a save is started; when the request has been handled the network interface has the suite that is reported.", "quantifier": "all states, blocks and histories of requests", "why_tests_cant": "Sequences of requests, with and without connections.", "anchors": ["src/device/pf_cmina.c: pf_cmina_dcp_set_ind, pf_cmina_dcp_set_commit"]}
{"id": "C66", "title": "Permanent settings survive a power cycle, temporary ones do not", "statement": "After a power cycle at any point the settings are those of the last save: permanent values as accepted, temporary ones empty; the configured ones if nothing was ever saved; empty after a reset to factory settings.", "quantifier": "all histories, all crash points", "why_tests_cant": "Any sequence of requests, saves and power cycles.", "anchors": ["src/device/pf_cmina.c: pf_cmina_set_default_cfg, pf_cmina_save_ase, pf_cmina_dcp_set_ind, pf_cmina_init"]}
{"id": "C67", "title": "Only valid settings are ever reported or stored", "statement": "In every history that starts from a valid configuration, name and suite that are reported, stored and saved are valid, and the name is terminated within its array.", "quantifier": "all histories", "why_tests_cant": "Sequences of requests of any length.", "anchors": ["src/device/pf_cmina.c: pf_cmina_dcp_set_ind, pf_cmina_set_default_cfg"]}
{"id": "C68", "title": "HELLO messages", "statement": "Between two power cycles at most three HELLO messages are sent, only if configured and with name and suite; none after a Set request; while none comes in, three expirations of the timer send three.", "quantifier": "all histories", "why_tests_cant": "Interleavings of timer and requests.", "anchors": ["src/device/pf_cmina.c: pf_cmina_send_hello, pf_cmina_init, pf_cmina_dcp_set_ind"]}
{"id": "C69", "title": "Reset to factory settings", "statement": "A factory reset is accepted, clears reported and stored settings, file, interface and port settings, and I&M data where the mode says so, informs the application, starts a save and ends all connections; a reset of application data leaves name and suite alone.", "quantifier": "all states and qualifiers", "why_tests_cant": "Every state in which a reset can arrive.", "anchors": ["src/device/pf_cmina.c: pf_cmina_set_default_cfg, pf_cmina_dcp_set_ind"]}
{"id": "C70", "title": "DCP requests that are not for this device", "statement": "A Get or Set request with a destination address other than the device's own MAC address, or one that announces more data than was received, changes no setting, LED, lock or pending response and sends nothing; its buffer is freed.", "quantifier": "all frames, device states and outcomes of allocation", "why_tests_cant": "Every frame and every state.", "anchors": ["src/common/pf_dcp.c: pf_dcp_get_set, pf_dcp_check_destination_address"]}
{"id": "C71", "title": "One DCP partner at a time", "statement": "For three seconds after an answered Get or Set request, requests from other addresses have no effect, whatever happens in between; three seconds after the last request everyone is answered again.", "quantifier": "all histories of requests, ticks and settings events", "why_tests_cant": "Interleavings of partners and timers.", "anchors": ["src/common/pf_dcp.c: pf_dcp_check_sam, pf_dcp_restart_sam_timeout, pf_dcp_clear_sam"]}
{"id": "C72", "title": "DCP Set", "statement": "A well-formed Set request is answered with one block per block of the request, in the same order, with the block error that fits, and the settings change exactly by what is asked for; the lock, the LED and the transaction number follow the request.", "quantifier": "all lists of blocks, device states and memory behind the frame", "why_tests_cant": "Unbounded number of blocks and combinations of options.", "anchors": ["src/common/pf_dcp.c: pf_dcp_get_set, pf_dcp_set_req, pf_dcp_put_block"]}
{"id": "C73", "title": "DCP Get", "statement": "A Get request is answered with the current value of each option asked for, in the order of the request, or a negative block; nothing is changed; the answer is a list of complete blocks and fits in a frame.", "quantifier": "all lists of options, device states and memory behind the frame", "why_tests_cant": "Unbounded number of options.", "anchors": ["src/common/pf_dcp.c: pf_dcp_get_set, pf_dcp_get_req, pf_dcp_put_block", "src/device/pf_cmina.c: pf_cmina_dcp_get_req"]}
{"id": "C74", "title": "DCP Identify selects the right devices", "statement": "An Identify request is answered if it is addressed to all devices, or if the first filter is the device's name or alias and all filters match; otherwise it has no effect. The answer describes the device.", "quantifier": "all lists of filters, alias names and device states", "why_tests_cant": "Unbounded number of filters.", "anchors": ["src/common/pf_dcp.c: pf_dcp_identify_req", "src/common/pf_lldp.c: pf_lldp_is_alias_matching"]}
{"id": "C75", "title": "DCP Identify answers are sent once and in time", "statement": "The delay of an answer is less than the delay factor times 10 ms; the answer is sent exactly once, at the first tick at or after its time; while it is pending other Identify requests have no effect; every buffer is freed exactly once.", "quantifier": "all histories", "why_tests_cant": "Interleavings and buffer accounting over unbounded histories.", "anchors": ["src/common/pf_dcp.c: pf_dcp_calculate_response_delay, pf_dcp_responder, pf_dcp_identify_req"]}
{"id": "C76", "title": "Signal LED", "statement": "The LED flashes three times per request, with half a second between switching, is off afterwards, and is not affected by anything else.", "quantifier": "all histories", "why_tests_cant": "Interleavings of requests and timers.", "anchors": ["src/common/pf_dcp.c: pf_dcp_trigger_signal_led, pf_dcp_control_signal_led"]}
{"id": "C77", "title": "Arbitrary DCP frames", "statement": "Whatever a Get, Set or Identify frame contains, handling it ends, stays within the buffer and depends only on the received bytes.", "quantifier": "all frame contents, lengths and device states", "why_tests_cant": "All byte strings.", "anchors": ["src/common/pf_dcp.c: pf_dcp_get_set, pf_dcp_identify_req"]}
{"id": "C78", "title": "DCP responses are not requests", "statement": "A received Set response is not answered, so that two devices never answer each other without end.", "quantifier": "all histories of two devices", "why_tests_cant": "An unbounded exchange.", "anchors": ["src/common/pf_dcp.c: pf_dcp_get_set"]}
{"id": "C79", "title": "Alarm sequence numbers", "statement": "The alarms a connection sends on one priority carry the sequence numbers 0, 1, ..., 2047, 0, ... without gaps, so that the controller can tell that one is missing.", "quantifier": "all histories, both priorities, any number of alarms", "why_tests_cant": "The wrap-around after 2048 alarms and all interleavings with alarms of the controller.", "anchors": ["src/common/pf_alarm.c: pf_alarm_send_internal, pf_alarm_alpmr_alarm_ack"]}
{"id": "C80", "title": "Data areas of an accepted connection lie inside the frame", "statement": "When a connect request is accepted, the data, IOPS and IOCS areas of every sub-slot lie within the data length that the controller gave for that communication relation, and this length is between 40 (12 for UDP) and 1440, so that it fits the frame buffers.", "quantifier": "all connect requests, devices and application reactions", "why_tests_cant": "All combinations of offsets and lengths.", "anchors": ["src/device/pf_cmdev.c: pf_cmdev_check_iocr_apis, pf_cmdev_check_iocr_param, pf_cmdev_iocr_setup_desc"]}
{"id": "C81", "title": "Areas of an accepted connection do not overlap", "statement": "When a connect request is accepted, no byte of a cyclic frame belongs to two areas: not to the areas of two sub-slots, and not to two areas of one sub-slot.", "quantifier": "all connect requests; all pairs of areas of a communication relation", "why_tests_cant": "All pairs of areas; the check compares only some of them.", "anchors": ["src/device/pf_cmdev.c: pf_cmdev_check_iocr_overlap, pf_cmdev_check_no_straddle"]}
{"id": "C82", "title": "The layout is the one the controller asked for", "statement": "When a connect request is accepted, each entry of the relation (sub-slot and offset) gives exactly one area at that offset with the length declared for the sub-slot, IOPS directly after the data; and there are no other areas.", "quantifier": "all connect requests, all entries", "why_tests_cant": "All requests; entries interact through descriptors that are used twice.", "anchors": ["src/device/pf_cmdev.c: pf_cmdev_iocr_setup_data_iops, pf_cmdev_iocr_setup_iocs"]}
{"id": "C83", "title": "The table of areas never overflows", "statement": "Computing the layout of a connect request never writes past the table of areas, whatever the request lists.", "quantifier": "all connect requests within the capacities of the block reader", "why_tests_cant": "The bound is a counting argument over the whole request; the code has no check.", "anchors": ["src/device/pf_cmdev.c: pf_cmdev_iocr_setup_data_iops, pf_cmdev_iocr_setup_iocs"]}
{"id": "C84", "title": "Everything a connection expects was checked and is there", "statement": "When a connect request is accepted, every expected sub-module is plugged, has data descriptors that fit its type with lengths of at most 1439, and is used by at least one relation; no sub-slot is expected twice.", "quantifier": "all connect requests, devices and application reactions", "why_tests_cant": "All requests, and all reactions of the application to the questions it is asked.", "anchors": ["src/device/pf_cmdev.c: pf_cmdev_exp_apis_configure, pf_cmdev_exp_modules_configure, pf_cmdev_exp_submodule_configure"]}
{"id": "C85", "title": "Timing of an accepted connection", "statement": "When a connect request is accepted, loss of the controller is noticed within 1.92 s (61.44 s over UDP) and the send interval is not shorter than the minimum device interval.", "quantifier": "all connect requests", "why_tests_cant": "The product of three request fields; the check is done modulo 2^32.", "anchors": ["src/device/pf_cmdev.c: pf_cmdev_check_iocr_param", "src/common/pf_cpm.c: pf_cpm_activate_req"]}
{"id": "C86", "title": "A refused connection says why", "statement": "Every connect request that the checks refuse gets an error code that names the block and the faulty field.", "quantifier": "all connect requests", "why_tests_cant": "All paths through the checks.", "anchors": ["src/device/pf_cmdev.c: pf_cmdev_check_apdu, pf_cmdev_iocr_setup_iocs"]}
{"id": "C87", "title": "Every input byte of an accepted connection is transmitted", "statement": "After a connect request is accepted, whatever the application writes for a sub-slot of the input relation is in the frames that are sent from then on.", "quantifier": "all connect requests and all histories of the producer", "why_tests_cant": "All layouts; only the first in_length bytes of the process image are copied to the frame.", "anchors": ["src/device/pf_cmdev.c: pf_cmdev_iocr_setup_desc", "src/common/pf_ppm.c: pf_ppm_finish_buffer, pf_ppm_activate_req"]}
{"id": "C88", "title": "Frame ids of output relations", "statement": "A relation for which the controller leaves the choice of the frame id to the device gets an id in the range of its class that no other relation of any connection has; the search ends.", "quantifier": "all connect requests and tables of connections", "why_tests_cant": "All sets of ids in use; the search could run through 65536 ids.", "anchors": ["src/device/pf_cmdev.c: pf_cmdev_fix_frame_id, pf_cmdev_verify_free_frame_id"]}
{"id": "C89", "title": "Mandatory relations and parameter ranges", "statement": "An accepted connection has at least one input and one output relation and exactly one alarm relation, and all parameters are in the ranges of the standard.", "quantifier": "all connect requests", "why_tests_cant": "All combinations of parameters.", "anchors": ["src/device/pf_cmdev.c: pf_cmdev_check_apdu, pf_cmdev_check_ar_param, pf_cmdev_check_iocr_param, pf_cmdev_check_alarm_cr"]}
{"id": "C90", "title": "Fragmented requests are put together correctly", "statement": "A request that arrives in several datagrams is executed only if all its fragments arrived in order, and what is executed is exactly the concatenation of the contents of these datagrams, whatever other datagrams (duplicates, datagrams of other clients, damaged ones) arrive in between.", "quantifier": "all sequences of UDP datagrams and timer events", "why_tests_cant": "All interleavings of fragments, duplicates, losses and foreign datagrams.", "anchors": ["src/device/pf_cmrpc.c: pf_cmrpc_dce_packet"]}
{"id": "C91", "title": "No UDP datagram harms the device", "statement": "Whatever datagrams arrive in whatever order, and whatever the time-outs, the RPC layer neither accesses memory out of bounds, nor dereferences a null pointer, nor stops at an assertion.", "quantifier": "all sequences of UDP datagrams, timer events, aborts and application ready requests", "why_tests_cant": "All contents of datagrams and all histories of sessions.", "anchors": ["src/device/pf_cmrpc.c: pf_cmrpc_dce_packet", "src/device/pf_cmrpc.c: pf_cmrpc_send_with_timeout, pf_cmrpc_rm_ccontrol_cnf"]}
{"id": "C92", "title": "Fragmented responses arrive completely", "statement": "A controller that acknowledges each fragment of a response receives the whole response: the contents of the fragments in order of their numbers are the response, exactly the last one is marked as the last, and none is larger than the maximum payload.", "quantifier": "all response lengths, all orders of acknowledges and repetitions", "why_tests_cant": "All lengths, including those at the boundary of a datagram, and all delays and duplicates of acknowledges.", "anchors": ["src/device/pf_cmrpc.c: pf_cmrpc_dce_packet"]}
{"id": "C93", "title": "Repetition of unacknowledged messages is bounded and conclusive", "statement": "A message that needs an answer is transmitted at most three times; if there is no answer the connection is aborted; it is never left waiting for ever.", "quantifier": "all sequences of datagrams and timer events", "why_tests_cant": "All histories of time-outs and datagrams.", "anchors": ["src/device/pf_cmrpc.c: pf_cmrpc_send_with_timeout", "src/device/pf_cmrpc.c: pf_cmrpc_dce_packet"]}
{"id": "C94", "title": "Clients do not disturb each other", "statement": "A datagram changes only the session with its activity UUID, and, if it ends a connection, the sessions of that connection; no two sessions have the same activity UUID.", "quantifier": "all sequences of datagrams and all tables of sessions", "why_tests_cant": "All combinations of clients.", "anchors": ["src/device/pf_cmrpc.c: pf_session_locate_by_uuid, pf_session_allocate, pf_session_release", "src/device/pf_cmrpc.c: pf_cmrpc_dce_packet"]}
{"id": "C95", "title": "Sessions are given back", "statement": "A client that does not open a connection cannot keep a session for ever; therefore a controller that wants to connect always finds a session.", "quantifier": "all sequences of datagrams and timer events", "why_tests_cant": "The table is exhausted only by certain histories.", "anchors": ["src/device/pf_cmrpc.c: pf_session_allocate, pf_session_release", "src/device/pf_cmrpc.c: pf_cmrpc_dce_packet"]}
{"id": "C96", "title": "Answers go to the client that asked", "statement": "The answer to a request is sent to the address and port from which the request came, carries the same activity UUID, sequence number and operation, in a byte order that its header declares, and there is at most one answer per request.", "quantifier": "all requests and all states of the sessions", "why_tests_cant": "All states of sessions left behind by earlier datagrams.", "anchors": ["src/device/pf_cmrpc.c: pf_cmrpc_dce_packet", "src/device/pf_cmrpc.c: pf_cmrpc_send_once"]}
{"id": "C97", "title": "A connection refers to its own session", "statement": "The session to which a connection refers is in use and belongs to that connection; so the application ready request is sent to the controller that opened the connection, and the end of one connection does not end the session of another.", "quantifier": "all sequences of datagrams, aborts and application ready requests", "why_tests_cant": "All histories of connects, releases and aborts with reused table entries.", "anchors": ["src/device/pf_cmrpc.c: pf_cmrpc_rm_connect_ind, pf_cmrpc_cmdev_state_ind, pf_cmrpc_rm_ccontrol_req"]}
{"id": "C98", "title": "A repeated end of parametrization is executed once", "statement": "A control request that is received again with the same sequence number is answered again, but not executed again; a request with another sequence number is executed.", "quantifier": "all sequences of control requests of a session", "why_tests_cant": "All sequences of sequence numbers.", "anchors": ["src/device/pf_cmrpc.c: pf_cmrpc_rm_dcontrol_ind"]}
{"id": "C99", "title": "Any LLDP frame is handled safely", "statement": "For any bytes received as an LLDP frame the parser ends, reads only the received bytes, writes only inside its fixed arrays, and its result depends on nothing but the received bytes. A frame that cannot be parsed changes nothing that is known about the neighbour.", "quantifier": "all received byte strings up to 65000 bytes, all contents of memory behind them, all uninitialised values", "why_tests_cant": "All byte strings and all contents of uninitialised memory.", "anchors": ["src/common/pf_lldp.c: pf_lldp_parse_packet, pf_lldp_recv, pf_lldp_get_*_from_packet"]}
{"id": "C100", "title": "Neighbour information is what the neighbour sent", "statement": "After a well formed LLDP frame the reported chassis id, port id, time to live, port description, management address, delays, port status, MAC address and link status are those of the last element of each kind in the frame; elements of unknown kind do not matter.", "quantifier": "all lists of well formed elements, followed by the end mark and anything", "why_tests_cant": "All lists of elements in every order, with repetitions and unknown elements.", "anchors": ["src/common/pf_lldp.c: pf_lldp_parse_packet, pf_lldp_get_peer_*"]}
{"id": "C101", "title": "LLDP frames are understood by the neighbour", "statement": "The frame which a device sends is parsed by another device to exactly the chassis id, port id, MAC address, link status and IP address of the sender and a time to live of 20 seconds; building the frame stays inside its buffer.", "quantifier": "all station names, port names, MAC addresses, IP addresses, link states and naming modes", "why_tests_cant": "All names and addresses.", "anchors": ["src/common/pf_lldp.c: pf_lldp_construct_frame, pf_lldp_get_chassis_id, pf_lldp_get_port_id, pf_lldp_parse_packet"]}
{"id": "C102", "title": "Neighbour information expires", "statement": "A neighbour is reported only if it sent a frame that was not longer ago than its time to live, and the link did not go down since.", "quantifier": "all histories of frames, clock steps and link changes of a port", "why_tests_cant": "All histories of frames, time and link changes.", "anchors": ["src/common/pf_lldp.c: pf_lldp_update_peer, pf_lldp_restart_peer_timeout, pf_lldp_receive_timeout, pf_lldp_invalidate_peer_info", "src/device/pf_pdport.c: pf_pdport_monitor_link"]}
{"id": "C103", "title": "Alias names", "statement": "A DCP Identify by alias matches if and only if the alias is the port id of a present neighbour (if that contains a dot), or port id, dot and chassis id of a present neighbour; forming the alias stays inside its buffer.", "quantifier": "all sets of ports and neighbours and all aliases", "why_tests_cant": "All strings of all lengths.", "anchors": ["src/common/pf_lldp.c: pf_lldp_generate_alias_name, pf_lldp_is_alias_matching"]}
{"id": "C104", "title": "LLDP is sent every five seconds unless switched off", "statement": "While sending is not switched off by the controller a port sends an LLDP frame at least every five seconds (plus one handling period); after the controller switched sending off no frame is sent until it is switched on again.", "quantifier": "all histories of clock steps, writes of port adjust data, connects, resets and restarts of a port", "why_tests_cant": "All histories of clock steps and configuration.", "anchors": ["src/common/pf_lldp.c: pf_lldp_tx_restart, pf_lldp_trigger_sending, pf_lldp_send_enable, pf_lldp_send_disable", "src/device/pf_pdport.c: pf_pdport_write_data_adj, pf_pdport_ar_connect_ind, pf_pdport_lldp_restart_transmission, pf_pdport_load, pf_pdport_reset_all"]}
{"id": "C105", "title": "Topology errors are reported exactly while they exist", "statement": "While the check of the neighbour is active, once pending changes have been handled, a port has the diagnosis 'no peer' exactly if no neighbour is known, and the diagnosis 'peer station name mismatch' or 'peer port name mismatch' exactly if the neighbour has another name than the one wanted.", "quantifier": "all histories of frames, time, link changes, writes of check data, resets", "why_tests_cant": "All histories and all pairs of names.", "anchors": ["src/device/pf_pdport.c: pf_pdport_run_peer_check, pf_pdport_check_no_peer_detected, pf_pdport_check_peer_station_name, pf_pdport_check_peer_port_name, pf_pdport_periodic"]}
{"id": "C106", "title": "Reading port data ends", "statement": "Every read of physical device data is answered after finitely many steps, for every slot, subslot and index.", "quantifier": "all read requests and port configurations", "why_tests_cant": "All combinations of slot, subslot, index and number of ports; divergence cannot be observed by a test that passes.", "anchors": ["src/device/pf_pdport.c: pf_pdport_read_ind"]}
{"id": "C107", "title": "Record data handed over lie inside the request", "statement": "For every write request a controller sends, the data which the device hands to the application or interprets itself lie inside the bytes received with that request, and have the length the request announces.", "quantifier": "all contents of the request after its header, all answers of the application, single and multiple writes", "why_tests_cant": "The length fields of a request take any of 2^32 values and a multiple write holds any number of records.", "anchors": ["src/device/pf_cmrpc.c: pf_cmrpc_rm_write_ind, pf_cmrpc_perform_one_write, pf_cmrpc_rm_write_interpret_ind", "src/device/pf_cmwrr.c: pf_cmwrr_rm_write_ind, pf_cmwrr_write"]}
{"id": "C108", "title": "I&M data read back as written", "statement": "A write of one of the records I&M1 to I&M4 is accepted exactly if the record is supported and the data have its size; then reading the record gives the data written, the other records are unchanged and the data survive a restart. A refused write changes nothing.", "quantifier": "all contents and lengths of records, all histories of writes, reads, restarts, clearing and changes of the location", "why_tests_cant": "All record contents, lengths and histories.", "anchors": ["src/device/pf_fspm.c: pf_fspm_cm_write_ind, pf_fspm_cm_read_ind, pf_fspm_save_im, pf_fspm_load_im, pf_fspm_clear_im_data, pf_fspm_save_im_location", "src/device/pf_block_reader.c: pf_get_im_1", "src/device/pf_block_writer.c: pf_put_im_1, pf_put_im_2, pf_put_im_3"]}
{"id": "C109", "title": "Log book lists the latest events", "statement": "Reading the log book gives the latest events of known connections, oldest first, as many as it has places for (or all, if fewer happened), and the number of events announced is the number of events listed.", "quantifier": "all histories of events and reads, every size of the log book", "why_tests_cant": "All histories; the error shows only after the ring wraps.", "anchors": ["src/device/pf_fspm.c: pf_fspm_create_log_book_entry", "src/device/pf_block_writer.c: pf_put_log_book_data"]}
{"id": "C110", "title": "Multiple write executes the records in order", "statement": "A multiple write with well formed records executes every record exactly once, in the order of the request, with its own data, and answers with one result per record that names this record; after the first record that fails no other is executed.", "quantifier": "all lists of records with all contents, all answers of the application", "why_tests_cant": "Any number of records with any content and any answer of the application.", "anchors": ["src/device/pf_cmrpc.c: pf_cmrpc_rm_write_ind, pf_cmrpc_perform_one_write"]}
{"id": "C111", "title": "Answers to read requests are consistent", "statement": "For every read request the answer stays inside the buffer, the length announced in it is the length of the data that follow, and data given by the application for a record of its own are transmitted unchanged whenever they are not longer than the length offered to it.", "quantifier": "all read requests, all answers of the application, all buffer sizes", "why_tests_cant": "All requests, buffer sizes and application data.", "anchors": ["src/device/pf_cmrpc.c: pf_cmrpc_rm_read_ind", "src/device/pf_cmrdr.c: pf_cmrdr_rm_read_ind", "src/device/pf_fspm.c: pf_fspm_cm_read_ind", "src/device/pf_block_writer.c: pf_put_read_result"]}
{"id": "C112", "title": "Plugging and pulling change exactly the named module", "statement": "pnet_plug_module, pnet_plug_submodule, pnet_pull_module and pnet_pull_submodule return 0 exactly when the named module or submodule is afterwards plugged (with the given ident number) or gone; a successful call changes nothing else, a failed call changes nothing; and no history of calls ever makes the device hold two modules in one slot, two submodules in one subslot, or a submodule without its module.", "quantifier": "all histories of the four calls with all arguments, all ownerships of the submodules, all results of the alarms that are sent, all sizes of the device", "why_tests_cant": "Histories of any length, with any interleaving of connections taking and releasing submodules.", "anchors": ["src/device/pf_cmdev.c: pf_cmdev_plug_module, pf_cmdev_plug_submodule, pf_cmdev_pull_module, pf_cmdev_pull_submodule, pf_cmdev_new_slot, pf_cmdev_new_subslot", "include/pnet_api.h: pnet_plug_module, pnet_plug_submodule, pnet_pull_module, pnet_pull_submodule"]}
{"id": "C113", "title": "The module difference lists exactly what differs", "statement": "The differences the device computes for a connection list, in the order of the request, exactly the expected submodules that are missing, have another ident number, belong to another connection or have a diagnosis, and the expected modules that are missing or have another ident number; everything that agrees is left out.", "quantifier": "all expected configurations, all contents of the device", "why_tests_cant": "The configurations of the controller and of the device are arbitrary trees.", "anchors": ["src/device/pf_cmdev.c: pf_cmdev_generate_module_diff", "include/pnet_api.h: pnet_init"]}
{"id": "C114", "title": "The module difference block says what was computed", "statement": "A controller that decodes the module difference block (in a connect response, an application ready request or a read of record 0xE002) finds exactly the differences that were computed, whenever the block fits into the buffer; otherwise no byte behind the buffer is written.", "quantifier": "all differences, all buffer sizes, both byte orders", "why_tests_cant": "All configurations and buffer sizes.", "anchors": ["src/device/pf_block_writer.c: pf_put_ar_diff, pf_put_api_diff, pf_put_module_diff, pf_put_submodule_diff"]}
{"id": "C115", "title": "The difference after plugging concerns the plugged submodule", "statement": "The difference the device sends with the application ready request after a released alarm is the part of the module difference that concerns this submodule, and is computed without accessing memory outside the expected configuration.", "quantifier": "all expected configurations, all contents of the device, all submodules", "why_tests_cant": "All configurations of controller and device.", "anchors": ["src/device/pf_cmdev.c: pf_cmdev_generate_submodule_diff", "src/device/pf_plugsm.c: pf_plugsm_application_ready_req"]}
{"id": "C116", "title": "Identification data are reported as they are", "statement": "A read of real identification data (subslot, slot, API, connection) or of the list of APIs gives exactly the modules and submodules that are plugged in the part asked for, and a read of expected identification data exactly those the controller expects; every such request is answered without accessing memory that does not exist, and the block is inside the buffer.", "quantifier": "all contents of the device, all expected configurations, all read requests with or without a connection, all buffer sizes", "why_tests_cant": "All contents and requests.", "anchors": ["src/device/pf_block_writer.c: pf_put_real_ident_data, pf_put_exp_ident_data", "src/device/pf_cmrdr.c: pf_cmrdr_rm_read_ind"]}
{"id": "C117", "title": "Diagnosis records hold the stored diagnoses", "statement": "A read of a diagnosis record (subslot, slot, API, connection, device; channel diagnosis, faults, everything, maintenance required, maintenance demanded) delivers blocks from which a controller decodes exactly the diagnoses that are stored for the sub-modules in the part asked for and are of the kind the record is for, each with its channel, properties, error types, values and data as stored, in one block for each sub-module and USI with rising USI; with a connection only sub-modules that are as its controller expects are included. The answer stays inside the buffer.", "quantifier": "all histories of adding, changing and removing diagnoses, all contents of the device, all expected configurations, all read requests with and without a connection, all buffer sizes", "why_tests_cant": "All histories, configurations and requests.", "anchors": ["src/device/pf_block_writer.c: pf_put_diag_item, pf_put_diag_list, pf_put_diag_subslot, pf_put_diagnosis_subslot, pf_put_diagnosis_slot, pf_put_diagnosis_ar, pf_put_diagnosis_api, pf_put_diagnosis_device", "src/device/pf_cmdev.c: pf_cmdev_get_next_diagnosis_usi", "src/device/pf_cmrdr.c: pf_cmrdr_rm_read_ind"]}
{"id": "C118", "title": "Alarm frames say what happened", "statement": "A process alarm, an appearing, changing or disappearing diagnosis, and a plug, plug of a wrong sub-module, release or pull is queued as an alarm exactly if the connection has alarms enabled, the payload is within the limits of the device and of the controller and the sub-module it is about is plugged. From the frame that is then sent a controller decodes the addresses, the priority and frame id of the alarm endpoint, the type, place, ident numbers and sequence number of the alarm, the payload (the bytes of the application, or the diagnosis with its fields), and flags and a maintenance status that sum up exactly the diagnoses stored for the sub-module at that time. Acknowledges, transport acknowledges and the closing frame repeat what they answer and tell the status. No frame is longer than the buffer.", "quantifier": "all contents of the device at reporting and at sending, all histories of diagnoses, all kinds of alarms and payloads, all sizes the build allows, all addresses, references and sequence numbers", "why_tests_cant": "All histories, payloads and states of the diagnoses.", "anchors": ["src/common/pf_alarm.c: pf_alarm_send_alarm, pf_alarm_send_process, pf_alarm_send_diagnosis, pf_alarm_send_pull, pf_alarm_send_plug, pf_alarm_get_diag_summary, pf_alarm_add_diag_item_to_summary, pf_alarm_send_internal, pf_alarm_apms_a_data_req, pf_alarm_alpmr_alarm_ack, pf_alarm_apmx_close, pf_alarm_apmr_send_ack, pf_alarm_apmr_send_nack", "src/device/pf_block_writer.c: pf_put_alarm_block, pf_put_alarm_fixed, pf_put_maint_status, pf_put_diag_item"]}
{"id": "C119", "title": "Endpoint lookup tells the endpoints of the device", "statement": "Whatever bytes a lookup request has, it is read without touching memory outside of it, and is answered. In a new session, the first request for all entries is answered with the entry of the endpoint mapper and the second with the entry of the PROFINET interface; further ones are answered with the code for 'not registered' and end the session; a request of another kind or for no entries is answered with 'not registered' and does not end it. From an answer with an entry a controller decodes the object (device id and vendor id, instance 1), the interface with its version, the UDP port, the IP address of the device at that time, and an annotation of 64 bytes with the name, the order id, the hardware revision and the software revision of the configuration. An answer has 40 or 216 bytes.", "quantifier": "all configurations, all sequences of requests (all bytes), all times and addresses", "why_tests_cant": "All request bytes and all histories of a session.", "anchors": ["src/device/pf_cmrpc_epm.c: pf_generate_epm_handle, pf_init_rpc_tower_entry, pf_cmrdr_add_epmv4_entry, pf_cmrdr_add_pnio_entry, pf_cmrpc_lookup_request", "src/device/pf_cmrpc.c: pf_cmrpc_lookup_ind", "src/device/pf_block_reader.c: pf_get_epm_lookup_request, pf_get_handle", "src/device/pf_block_writer.c: pf_put_lookup_response_data"]}
{"id": "C120", "title": "The response to a connect request tells the connection", "statement": "An accepted connect request is answered with the status, the number of bytes of the blocks and the maximum of the request, and then the blocks: type, UUID and session key of the request with the MAC address of the device; each communication relation of the request in order with its type, its reference and its frame id (as requested, or if left open one of its class that no other relation has); the alarm relation with the reference of the device and its maximum; the differences between expected and plugged modules if there are any; the port of the RPC server if the request has such a block; with advanced startup the station name and the vendor blocks. A refused request is answered with the status and no blocks. Nothing outside the response is written, whatever size the controller allows.", "quantifier": "all histories of the device, all connections and requests, all response sizes", "why_tests_cant": "All combinations of relations, differences and sizes; a response that is too small only shows for a few sizes.", "anchors": ["src/device/pf_cmdev.c: pf_cmdev_rm_connect_ind, pf_cmdev_fix_frame_id", "src/device/pf_cmrpc.c: pf_cmrpc_rm_connect_rsp, pf_cmrpc_dce_packet", "src/device/pf_block_writer.c: pf_put_ar_result, pf_put_iocr_result, pf_put_alarm_cr_result, pf_put_ar_diff, pf_put_ar_rpc_result, pf_put_ar_server_result, pf_put_ar_vendor_result, pf_put_padding_align"]}
{"id": "C121", "title": "Input and output data read as records", "statement": "A controller that reads the input data record of a submodule is told the data and the provider status the application wrote last and the consumer status in the newest frame the device accepted from the controller; the output data record tells the data and the provider status of that frame and the consumer status the application wrote last, and the substitute values as not active. A submodule that no running relation carries has no such record. Nothing outside the response is written. Reading a record does not change what the application is told.", "quantifier": "all histories of producer and consumer (writes, frames, timers, reads), all layouts, all data, all response sizes", "why_tests_cant": "All interleavings of application, controller and timers, all layouts.", "anchors": ["src/device/pf_cmrdr.c: pf_cmrdr_rm_read_ind", "src/device/pf_block_writer.c: pf_put_input_data, pf_put_output_data, pf_put_substitute_data", "src/common/pf_ppm.c: pf_ppm_get_data_and_iops, pf_ppm_get_iocs", "src/common/pf_cpm.c: pf_cpm_get_data_and_iops, pf_cpm_get_iocs"]}
{"id": "C122", "title": "The record of connections tells of every connection", "statement": "A reader of the AR data record (also without a connection of its own) is told of every connection of the device, in the order of the table: identifiers, properties, types, alarm references, ports, name of the controller, relations with their frame ids and data status, and APIs; over a connection it is told of that connection. Without connections the record is empty. The read ends, whatever size of response is asked for, and writes nothing outside of it. What is announced (APIs, further blocks) is there.", "quantifier": "all tables of connections with all their parameters, all APIs, all positions and sizes of the response", "why_tests_cant": "All tables of connections, name lengths and sizes of responses.", "anchors": ["src/device/pf_block_writer.c: pf_put_ar_data, pf_put_one_ar, pf_put_iocr", "src/device/pf_cmrdr.c: pf_cmrdr_rm_read_ind", "src/device/pf_cmrpc.c: pf_ar_find_by_index, pf_ar_release"]}
{"id": "C123", "title": "Port and interface records", "statement": "A controller that reads the records of a port or of the interface is told the port's own name, the peer that was heard (names, line delay, address), the MAU type, link state and media, the statistics and the interface's name, address and IP settings, in blocks that decode as the standard says; one read tells all ports in order. The wanted peers, boundaries and naming mode a controller wrote are what it reads back. A write that is refused changes nothing, and one that is accepted changes only that record of that port. Reads end and write nothing outside the response.", "quantifier": "all devices (ports, names, peers, links, statistics, settings), all records written with any header and trailing bytes, all positions and sizes of the response", "why_tests_cant": "All names and combinations of ports, all records, all sizes of responses.", "anchors": ["src/device/pf_pdport.c: pf_pdport_read_ind, pf_pdport_write_req", "src/device/pf_block_writer.c: pf_put_pdport_data_real, pf_put_pdport_data_check, pf_put_pdport_statistics, pf_put_pdinterface_data_real, pf_put_pdport_data_adj, pf_put_pd_interface_adj", "src/device/pf_cmrdr.c: pf_cmrdr_rm_read_ind"]}
{"id": "C124", "title": "Identification record and its filter", "statement": "A controller that reads I&M0 is told the identification the application configured: vendor, order ID and serial number padded with spaces, versions, revision counter, profile and the supported I&M records, in a block that decodes as the standard says. If there is no room the read is refused. I&M0FilterData lists the first submodule of the device access point with the module and submodule that are plugged there. Reads end and write nothing outside the response.", "quantifier": "all identifications, all histories of plugging and pulling, all requested places, all positions and sizes of the response", "why_tests_cant": "All texts, all histories, all sizes of responses.", "anchors": ["src/device/pf_block_writer.c: pf_put_im_0, pf_put_im_0_filter_data", "src/device/pf_cmrdr.c: pf_cmrdr_rm_read_ind", "src/device/pf_fspm.c: pf_fspm_cm_read_ind"]}
{"id": "C125", "title": "Names set through SNMP", "statement": "The system name, contact and location set through SNMP are what is read until they are set again or reset, over any number of restarts, requests, refused records and failed saves of other data; setting one does not change the others. After a reset they are empty, and after the next start the name is the host name, the contact is empty and the location is the one of I&M1. The location told by SNMP and the one of I&M1 agree as far as I&M1 has room.", "quantifier": "all histories of sets, record writes, background saves, resets, removals of files and restarts, all values, all outcomes of saving", "why_tests_cant": "All interleavings of sets, saves and power-offs; two copies in two files.", "anchors": ["src/common/pf_snmp.c: pf_snmp_set_system_name, pf_snmp_set_system_contact, pf_snmp_set_system_location, pf_snmp_data_init, pf_snmp_data_clear, pf_snmp_fspm_im_location_ind", "src/device/pf_fspm.c: pf_fspm_save_im_location, pf_fspm_get_im_location", "src/device/pf_cmina.c: pf_cmina_set_default_cfg"]}
{"id": "C126", "title": "Neighbours are told as they are", "statement": "What a device tells of its neighbour through SNMP and port records - station name, port name, management address, interface index, link status - is what the neighbour tells of itself, in both naming modes; a neighbour without station name is told by its address. Capabilities keep every bit, in the order SNMP wants. Whatever bytes a neighbour sent, telling its management address stays inside memory and gives its length and its bytes.", "quantifier": "all devices with names that fit and have no dot in the port name, all frames, all received bytes, all capability words", "why_tests_cant": "All names, addresses, bit patterns and received frames.", "anchors": ["src/common/pf_lldp.c: pf_lldp_get_peer_station_name, pf_lldp_get_peer_port_name, pf_lldp_get_peer_management_address, pf_lldp_get_management_address, pf_lldp_get_link_status", "src/common/pf_snmp.c: pf_snmp_bit_reversed_byte, pf_snmp_encode_link_status, pf_snmp_encode_management_address, pf_snmp_get_peer_management_address, pf_snmp_get_peer_link_status"]}
{"id": "C127", "title": "HELLO messages tell who the device is", "statement": "Each HELLO message a starting device sends is a frame that a receiver reads as the name, IP address, mask and gateway, device identifiers and initiative that the device has when it is sent, whatever they are; it fits in a frame buffer; without a buffer nothing is sent.", "quantifier": "all configurations, all names and addresses, all states in which a message is sent", "why_tests_cant": "All name lengths (padding, room) and addresses.", "anchors": ["src/common/pf_dcp.c: pf_dcp_hello_req, pf_dcp_put_block", "src/device/pf_cmina.c: pf_cmina_send_hello, pf_cmina_dcp_get_req"]}
{"id": "C128", "title": "Release and DControl requests: only a control block of the request acts, and once", "statement": "If the controller gives room for the response, a connection is released exactly by a request that is one release control block with the release command and the UUID of a known connection; the answer repeats UUID and session key and says done, and every other request gets an error status. A DControl request is handed on only for a control block that stands in it, with the command of the end of parameterization, for a known connection; a request sent again with the same sequence number is not handed on again and gets the same answer. Whatever is received, both requests are answered in bounded time and nothing outside the room for the response is written.", "quantifier": "all bytes received, all lengths in them, all rooms for the response, all sets of known connections, all results of the application, all histories of sequence numbers", "why_tests_cant": "All sequences of blocks with all lengths, and all repetitions.", "anchors": ["src/device/pf_cmrpc.c: pf_cmrpc_rm_release_interpret_req, pf_cmrpc_rm_release_rsp, pf_cmrpc_rm_release_ind, pf_cmrpc_rm_dcontrol_interpret_req, pf_cmrpc_rm_dcontrol_rsp, pf_cmrpc_rm_dcontrol_ind"]}
{"id": "C129", "title": "A read request is executed exactly if it is one, and its answer says how long it is", "statement": "A read is executed exactly for a request that is one read request block with the length it states, for an API that exists and, unless it is an implicit read, with a UUID that is not zero; it is executed for the connection of that UUID (for an implicit read, of the target UUID, and never with the UUID of a connection in its own place). The controller reads the result, the number of bytes the read has written, and these bytes; a request that is not executed leaves the response as it was.", "quantifier": "all bytes received, all sets of connections and APIs, all answers of the read, all buffers with room for them", "why_tests_cant": "All requests, lengths and answers.", "anchors": ["src/device/pf_cmrpc.c: pf_cmrpc_rm_read_interpret_ind, pf_cmrpc_rm_read_ind"]}
{"id": "C130", "title": "A confirmation counts only if it says done", "statement": "The controller's confirmation of application ready counts only if a control block of one of the two types for it stands in it, with the command done, and the length it states is that of its blocks; a confirmation that is one such block counts. Whatever is received, it is handled in bounded time.", "quantifier": "all bytes received, all lengths in them", "why_tests_cant": "All sequences of blocks with all lengths.", "anchors": ["src/device/pf_cmrpc.c: pf_cmrpc_rm_ccontrol_interpret_cnf, pf_cmrpc_rm_ccontrol_cnf"]}
{"id": "C131", "title": "A connect request is taken exactly if all of its blocks are well-formed", "statement": "A connect request is taken exactly if it consists, to its last byte and with the length it states, of blocks of known types and version 1.0: at most one AR block, and only as the first, then IOCR, expected submodule, alarm and RPC server blocks in any order, each with the length of its contents in its header, not more IOCRs than the device has room for, and nothing but the AR block if the controller asks for device access only. What the device then works with is what these blocks tell, in their order. Any other request is refused with an error of the connect service, in bounded time and without touching other memory.", "quantifier": "all bytes received, all lengths in them, all table sizes", "why_tests_cant": "All sequences of blocks with all lengths and contents.", "anchors": ["src/device/pf_cmrpc.c: pf_cmrpc_rm_connect_interpret_ind, pf_check_block_header", "src/device/pf_block_reader.c: pf_get_alarm_cr_request, pf_get_ar_rpc_request"]}
{"id": "C132", "title": "Primary, redundancy and provider state are told to every connection", "statement": "Setting the primary, redundancy or provider state of the device changes exactly that bit of the transmitted data status in every relation of every connection, and nothing else anywhere; the call reports success exactly if the driver took every change.", "quantifier": "all numbers of connections and relations, all statuses before, all answers of the driver", "why_tests_cant": "All tables of connections and relations.", "anchors": ["src/device/pnet_api.c: pnet_set_primary_state, pnet_set_redundancy_state, pnet_set_provider_state", "src/common/pf_ppm.c: pf_ppm_set_data_status_state, pf_ppm_set_data_status_redundancy, pf_ppm_set_data_status_provider"]}
{"id": "C133", "title": "The handle of a connection finds this connection", "statement": "Each connection is told to the application with a handle that no other connection has at the same time; calls with this handle act on this connection as long as it exists, and calls with a number that is no handle of a connection find none. The connections are visited in the order in which they were made, each once. A new connection gets the first free place; if all are taken, it gets no handle.", "quantifier": "all table sizes, all sequences of connections made and ended, all 32-bit numbers used as a handle", "why_tests_cant": "All histories of connections, and all numbers.", "anchors": ["src/device/pf_cmrpc.c: pf_ar_allocate, pf_ar_release, pf_ar_find_by_arep", "src/device/pnet_api.c: the calls with arep"]}
{"id": "C134", "title": "A connection is only completed over a fast port", "statement": "The check made at the end of parameterization passes exactly if at least one port of the device is up with at least 100 MBit/s, full duplex, whichever port it is.", "quantifier": "all numbers of ports, all states and types of their links", "why_tests_cant": "All numbers of ports with all combinations of links.", "anchors": ["src/device/pf_pdport.c: pf_pdport_is_a_fast_port_in_use", "src/device/pf_cmdev.c: pf_cmdev_check_pdev", "src/pnal.h: PNAL_ETH_MAU_*"]}
{"id": "C135", "title": "The two formats of diagnoses do not touch each other", "statement": "Adding, updating or removing a diagnosis in standard format leaves all diagnoses in manufacturer specific format as they are, and the other way round; other sub-slots are not changed. A manufacturer specific call with a number reserved for the standard formats is refused and changes nothing. What is added is stored as it was given, standard diagnoses in the format that the configuration asks for.", "quantifier": "all histories of the diagnosis store, all calls, all table sizes", "why_tests_cant": "All histories of calls in both formats.", "anchors": ["src/device/pf_diag.c: pf_diag_std_add, pf_diag_std_update, pf_diag_std_remove, pf_diag_usi_add, pf_diag_usi_update, pf_diag_usi_remove, pf_diag_get_preferred_usi"]}
