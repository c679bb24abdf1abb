# Formal model of p-net in Coq: design

Source of truth: /repo at its pinned commit. All Coq sources are in
`rocq/theories`, logical name `Verif`. Coq 8.16.1, standard library only.

## Method

* One group of files per C module: `XxxModel.v` (definitions, each with the
  file and lines it models), `XxxProofs.v` (lemmas), and `XxxProps.v`
  (the property theorems, each closed by `exact`, with an `Example` that
  shows the hypotheses are met by a concrete non-trivial case, followed by
  `Print Assumptions`). Small specifications live at the top of the Props
  file and do not use the model's helpers.
* Integers: C unsigned values are `Z` (or `nat` for indices) with explicit
  `mod 2^w` where the C code can wrap. Signed comparisons of unsigned
  differences are modelled exactly.
* Undefined behaviour (out-of-bounds access, division by zero) and failed
  `CC_ASSERT` are distinct outcomes of the model, never silently total.
* Concurrency: small steps are critical sections (code between lock and
  unlock); code outside locks that touches shared data is its own step.
* Table sizes (`PF_MAX_TIMEOUTS`, `PNET_MAX_ALARMS`, ...) are universally
  quantified parameters.
* Where the real code violates the English property, a theorem with suffix
  `_refuted` exhibits the violating history in the model, and the strongest
  true variant is proved next to it.

## Plan per property

* **C01 Timers never fire early** - pointer-level model of the timer table (Sched*.v), small steps = critical sections; refinement to an abstract list with ghost true due times; invariant + window hypothesis.
* **C02 Every due timer fires at the next tick, in due-time order** - same; sortedness invariant, loop lemma for the tick.
* **C03 Timer slots are never leaked or shared** - same; doubly-linked-list invariant, free/busy/in-flight partition.
* **C04 Cancelled timers do not fire, and a timer fires at most once per arming** - same; ghost arming generations, invariant over traces.
* **C05 Sanitised delay is a positive, bounded number of cycles close to the request** - arithmetic over Z with explicit 32-bit wraps.
* **C06 A tick always terminates** - measure: number of due timers decreases; re-armed timers are not due.
* **C07 Cancelling through a handle affects only that handle's own timer** - proved for fresh handles; refuted for stale handles (concrete history).
* **C08 Consumer cycle counter window** - arithmetic; exact characterisation against modular distance.
* **C09 Invalid cyclic frames have no effect on the application data** - CPM model (Cpm*.v); observation function; non-interference of rejected frames.
* **C10 Consumer watchdog** - CPM model; counting spec over event traces.
* **C11 pnet_output_get_data_and_iops returns the latest accepted bytes** - CPM buffer model with buffer contents; trace spec 'last accepted'.
* **C12 Receive buffers are neither leaked nor double-freed by the consumer** - CPM buffer model; ownership ledger invariant.
* **C13 The new-data flag tells whether a frame arrived since the last read** - refuted by get_iocs; proved for histories without get_iocs.
* **C14 Wire format of transmitted cyclic frames** - PPM byte-level model; frame equation.
* **C15 Writing one sub-slot's input data never disturbs another's** - byte array model; regions; induction over write histories.
* **C16 Set-then-get of input data and IOPS returns what was set** - as C15.
* **C17 Producer cycle counter** - arithmetic mod 2^16.
* **C18 Data status setters are independent** - bit-level, induction over call sequences.
* **C19 Cyclic transmission continues until it is closed** - refuted for failing sends; proved otherwise.
* **C20 Ethernet dispatch** - map model, induction over registrations.
* **C21 Header parsing stays inside the received frame** - partial accessor model (out-of-bounds = distinct outcome); refuted for short frames, proved under the exact length condition.
* **C22 Port iteration visits each port exactly once** - iterator model, induction on number of calls.
* **C23 Port number and DAP sub-slot are in bijection** - arithmetic.
* **C24 Saved objects load back identically; foreign, old or truncated files are rejected** - file = byte list; prefix crash model.
* **C25 save_if_modified writes exactly when needed and reports it** - file model.
* **C26 Background jobs are never lost** - event-flag model with all interleavings.
* **C27 Block parsing never reads outside the received data and errors are sticky** - parser model with checked buffer accesses (out-of-bounds = distinct outcome).
* **C28 Writer/reader round trip** - writer model; inversion lemmas.
* **C29 Parsed repetition counts never exceed the fixed arrays they fill** - array writes with bound outcome; refuted for sub-modules and peers, proved for the guarded ones.
* **C30 Start-up supervision** - event-sequence model of pf_cmsm.c.
* **C31 Record writes are accepted only in the phases where they are allowed** - event-sequence model of pf_cmwrr.c.
* **C32 Plug alarms for released sub-modules are handled one at a time in FIFO order** - ring buffer refinement to list.
* **C33 CMIO reports data possible exactly when all consumers run** - event-sequence model of pf_cmio.c.
* **C34 Diagnosis store** - pool + linked lists refined to finite maps.
* **C35 Station problem indicator mirrors the presence of faults** - refuted (only the last touched sub-slot is inspected); proved for a single sub-slot.
* **C36 Alarm queues are FIFO, bounded and loss is reported** - ring buffer refinement to list + buffer ledger.
* **C37 At most one unacknowledged alarm per priority** - alarm state machine model, invariant.
* **C38 Incoming alarm notifications are delivered at most once** - alarm state machine model, trace invariant.
* **C39 Alarm retransmission limit** - refuted (timer is not stopped by TACK); proved for single outstanding chains.
* **C40 Alarm payload given to the application lies inside the received frame** - refuted.
* **C41 A malformed alarm frame does not disable later alarm reception** - refuted.
* **C42 Alarm acknowledge by the application** - refuted for low priority, proved for high.
* **C43 File paths** - string model of the join function; injectivity.
* **C44 Settings stored in the background are a snapshot** - small-step model with the lock; refuted for the network settings.
* **C45 Expected modules under their API** - block parser model; refuted for two new APIs in one block.
* **C46 Alignment padding** - writer model; refuted without room.
* **C47-C52, C56, C57 Connections** - event model of the connection table with pf_cmdev, pf_cmsu, pf_cmpbe, pf_cmsm, pf_cmwrr, pf_cmio (CmModel.v); invariants over all histories.
* **C53-C55 Diagnosis summary, listing, announcement** - diagnosis model (DiagModel.v).
* **C58, C60, C61 Alarm protocol** - alarm model (AlarmModel.v); invariant with a ghost description of queues and frames.
* **C79 Alarm sequence numbers** - alarm model, second invariant (AlarmMore.v); proved for the low priority, refuted for the high one.
* **C59 Alarm endpoints** - AlarmEndModel.v; endpoint bitmap and connection table.
* **C62, C63 Names and suites** - CminaModel.v; loop of the name check characterised by labels, mask arithmetic by powers of two.
* **C64-C69 Settings** - CminaModel.v; refinement to a small store specification (CminaSpec.v) for persistence, invariants for the rest.
* **C70-C78 DCP** - DcpModel.v: frames as byte memory with undefined behaviour for reads outside, Get/Set/Identify handlers, lock, delayed response and LED timers; encoders and answers specified separately (DcpSpec.v), loops by induction over the encoded blocks, timers by invariants; C78 is refuted by an endless exchange.
* **C80-C89 Connect requests** - ConnModel.v: pf_cmdev_check_apdu with all checks, the computation of the frame layout and the choice of frame ids, for any reaction of the application to exp_module_cb/exp_submodule_cb. C80, C81, C82 by induction over the descriptors with a lookup view of the table; C83 by counting distinct keys; C84 by an invariant over the three nested loops; C85, C89 by arithmetic on the accepted ranges; C87 by composition with the producer theorems (C15); C88 by a pigeonhole argument on the search loop. Expected to be refuted in part: class 2/3 lengths (C80), own IOCS (C81), DiscardIOXS and repeated APIs (C82), APIs that do not fit (C84), arithmetic modulo 2^32 (C85), unknown IOCS entries (C86), layouts with gaps (C87), given frame ids (C88).
* **C90-C98 RPC sessions** - RpcModel.v: the session table, reassembly of requests, fragmentation of responses, repetition, acknowledges, ping, reject, cancel, application ready requests, at the level of datagram bytes (the header through the reader and writer of BlockModel.v). What a request handler does is an oracle: the bytes of the response, whether the request was executable, and its effect on the connections (connect, duplicate connect, release). C90 by an invariant that relates the input buffer of a session to the history of its datagrams; C91 by an invariant on the counters of each session; C92 by induction over the acknowledges, with a small specification of a receiving controller; C93 by case analysis of the timer; C94 by a frame property of each step; C95, C97 by invariants on the tables; C96, C98 by case analysis. Expected to be refuted in part: write and control requests are executed although a fragment is missing (C90), a response to a session without connection stops at an assertion (C91), responses of certain lengths have no last fragment (C92), duplicated acknowledges (C92), a ping stops the repetition (C93), sessions without connection (C95), sessions shared by connections (C97).

* **C99-C101 LLDP frames** - LldpModel.v: pf_lldp_parse_packet and all its parts over the reader of BlockModel.v (arrays with their real sizes, the position a 16 bit number, the organisation header uninitialised at first), pf_lldp_construct_frame over the writer. C99 by an invariant of the position (each round moves on by at least two bytes, up to the first error); C100 by a specification that folds `learn` over the list of elements; C101 by computing the elements of the frame that is built and applying C100. Specification: lists of elements (type, content), what each element means.
* **C102, C104, C105 LLDP histories** - LldpPortModel.v: one port with peer information, receive and send timer (due time, removed, or lost because the scheduler had no free entry: an oracle), check and adjust data, pending mark, the three diagnoses; events: frame, handling at a time, link change, write of check and adjust data, connect, reset, restart. Invariants over all histories. The diagnosis functions are those of DiagModel reduced to present/absent for the three errors of the port.
* **C103 Alias names** - in LldpPortModel.v: C strings as lists up to the first zero byte in an array.
* **C106 Reading port data ends** - the loops over ports as a small step relation with the iterator of pf_port.c; all indexes of pf_pdport_read_ind.
* **C107 Record data handed over lie inside the request** - RecordModel.v models the write handlers on the readers of BlockModel.v with an arbitrary application (any state, any answer); taking a slice outside the received bytes is `Ub`. Safety by induction over the loop of the multiple write. The 32-bit sum in the length check makes the full claim false: refutations with concrete requests, and a partial theorem with a bound on the announced length.
* **C108 I&M data read back as written** - FspmModel.v models writing (with pf_get_im_1 writing directly into the configuration), reading through the read handler, saving, loading, clearing and the location; equality of bytes over all data and histories.
* **C109 Log book lists the latest events** - the ring buffer as modelled in FspmModel.v against the list of all events of the history (invariant by induction), and the bytes of the answer.
* **C110 Multiple write executes the records in order** - request bytes are built from a list of records by a specification encoder; induction over this list, with the application an arbitrary state machine.
* **C111 Answers to read requests are consistent** - the read handler of RecordModel.v, with the writers of all records other than user records and I&M arbitrary functions that stay inside the buffer.
* **C112 Plugging and pulling** - IdentModel.v: the device as an array of APIs with arrays of slots with arrays of subslots, each cell with its flag "in use", and the four calls cell by cell; the result of sending an alarm is an arbitrary function of the alarm, connections take and release submodules by arbitrary events in between. Specification: the table of what is plugged (rows of API, slot, ident number, submodules). Theorems per call over all reachable devices, and an invariant over all histories.
* **C113, C115 Module difference** - DiffModel.v: the expected configuration with its arrays and counters as in pf_types.h (an access outside an array is `Ub`), both functions loop by loop. Specification: one function per level that compares the expected item with the table of plugged items.
* **C114 Difference block** - the writers over those of BlockModel.v; the specification is a decoder of the block written from the standard's layout; bytes for all differences by structural induction.
* **C116 Identification data** - IdentReadModel.v: the writers with the counters patched afterwards; decoder as specification; without a connection the expected data are taken from address NULL (`Ub`).
* **C117 Diagnosis records** - DiagReadModel.v: the writers over the lists of DiagModel.v and the device of IdentModel.v, with the block that is taken back if nothing was put into it; decoder as specification; the USIs of a list are found one after the other as in the code. A manufacturer diagnosis without data and one with USI 0 give no block (`_refuted`).
* **C118 Alarm frames** - AlarmFrameModel.v: what is queued for each kind of alarm, the summary of the stored diagnoses, and the frames (notification, acknowledge, transport acknowledge, close) over the writers of BlockModel.v; decoder of frames as specification; the diagnoses are those of any history of DiagModel.v. The queue itself is C36, the order of frames C37 to C40. Partial: the ident number of the sub-module is told modulo 65536 (`C118_ident_refuted`); UDP transport, allocation of buffers and failing sends are not modelled.
* **C119 Endpoint lookup** - EpmModel.v: the endpoint mapper over the readers and writers of BlockModel.v, the number of the session; decoder of answers as specification; sessions by induction over the list of requests. On a little-endian host (`C119_big_endian_refuted`); the RPC header around the answer is not in this model; a session with a stored error is not modelled.
* **C120 Connect response** - ConnRspModel.v: what is told (on fix_ids of ConnModel.v and the differences of DiffModel.v), the blocks and the response on the writers of BlockModel.v, alignment with a bound on the number of turns (not finished: AssertFail); decoder of the response as specification; composed with C88, C113 and C114. Partial: missing modules (C114), class 5 relations (C88), responses that are too small (`C120_hang_refuted`, `C120_cut_refuted`). With vendor blocks compiled in.
* **C121 Data records** - DataRecModel.v: the reads and the writers of their blocks, on the producer of PpmModel.v, the consumer of CpmModel.v and BlockModel.v; decoders as specification; composed with C11, C15 and C16. Which relation carries a submodule is an input. Partial: a read takes the new-data flag away from the application (`C121_new_refuted`); concurrent reads by the application are not in these theorems (C12).
* **C122 Record of connections** - ArDataModel.v: the writers on BlockModel.v, padding by the position in the response with a bound on the number of turns (not finished: AssertFail); decoder of the record as specification; round trip from positions that are multiples of four. Partial: connections with several APIs read for one of them (`C122_api_refuted`), identifiers that start with 0 (`C122_zero_refuted`), responses that are too small (`C122_hang_refuted`), vendor blocks (`C122_vendor_refuted`). Other options (IR, SR, fast startup, SRL, RS, parameter server) off.
* **C123 Port and interface records** - PdRecModel.v: the reads and writes of pf_pdport.c and the interface record of pf_cmrdr.c, with their block writers and readers; the device as a record of what they use (names, peer, link, statistics, settings). Decoders of the records as specification; round trips at every position; write then read; frame; containment. Partial: the record of wanted peers keeps one peer (`C123_peers_refuted`) and has a wrong inner length (`C123_check_length_refuted`), responses that are too small (`C123_hang_refuted`), a whole-module read of wanted peers (C106). What the LLDP part and the network interface deliver is a parameter; saving to files and sending of LLDP frames are in other models (C105, C106).
* **C124 Identification record and its filter** - Im0Model.v: the two records on the writers of BlockModel.v and the device of DiffModel.v; decoders as specification; round trips at every position, for every history of plugging; containment for every size of response. Partial: a response with 57 to 59 bytes left is cut off and told as a success (`C124_cut_refuted`); the filter lists only the first submodule of the device access point although every submodule answers (`C124_filter_complete_refuted`). The other I&M records are C108.
* **C125 Names set through SNMP** - SnmpModel.v: the three variables with their files, the location also in the I&M data of FspmModel.v, resets, restarts; a save of a file succeeds, fails with the old contents or loses them; histories by induction. Partial: the location of SNMP and of I&M1 agree unless a save fails, power goes off before the background job, an I&M1 record is refused or a reset has mode 2 (`C125_power_off_refuted`, `C125_refused_refuted`, `C125_mode_refuted`). The SNMP agent, mutual exclusion and the removal of a file that fails are not modelled.
* **C126 Neighbours are told as they are** - PeerModel.v: the port name, management address, interface index, delays and link status of the neighbour and of the device itself as SNMP tells them, on the neighbour information of LldpModel.v; composed with the round trip of C101. Port names with a dot are excluded (`C126_dot_refuted`). The SNMP agent and mutual exclusion are not modelled.
* **C127 HELLO messages tell who the device is** - HelloModel.v: the frame, with the values and the writer of DcpModel.v; proved with a separate reader of frames; tied to the sending of C68. Little-endian memory, as in DcpModel.v. The handler of received HELLO messages (which ignores them) is not modelled.
* **C128 Release and DControl requests** - ControlModel.v: the loops over the blocks of both requests, their responses, and the handlers with re-run detection; proved with the positions of the bytes in the request (`block_at`) and a separate reader of responses. The search for the connection and what the connection does are parameters. Requests are big-endian from here on, as in pf_cmrpc_dce_packet.
* **C129 Read requests and their frame** - ReadReqModel.v: the request, the choice of the connection (RecordModel.read_ar) and what stands around the answer; the read itself is a parameter with any answer (C111 models it). Proved with the positions of the bytes in the request and a separate reader.
* **C130 Confirmations of application ready** - ControlModel.v: the same loop as for C128; what the connection does with a confirmation is in CmModel.v.
* **C131 Connect requests** - ConnReqModel.v: the loop over the blocks, with the readers of BlockModel.v for their contents. Proved against a grammar of requests (ConnReqProps.v, `request`): taken exactly if of the grammar. The blocks of options that are off are unknown blocks. Partial: memory safety fails for expected submodules (C29), and AR blocks may have another length than their header tells.
* **C132 State of the device for all connections** - StateModel.v: the loops over connections and CRs around the setters of C18 (PpmModel.dset_step). Proved by induction over both loops, for any result of the driver.
* **C133 Handles of connections** - HandleModel.v: the table of connections, the list of their order with its in-place removal, allocation, release and lookup by handle. Proved by an invariant between the arrays and the connections read off the trace, for all histories and table sizes; the index is a uint16_t in the lookup, so the lookup is proved for numbers up to 65536.
* **C134 Fast port** - FastModel.v: the loop over the ports with the iterator of C22 (PortModel.get_next); the status of a link is environment. Proved by induction over the ports left; the types of links stand in a table of their speed and duplex.
* **C135 Formats of diagnoses** - DiagApiModel.v: the six calls on top of DiagModel (C34). Proved from the theorems of C34 for all reachable states, for every call, whether it is accepted or refused. As in C34, standard diagnoses for the whole sub-module without any error are left out (`typed`).

## Trusted base

* Coq 8.16.1's kernel (and its VM for `vm_compute` in examples and refutations).
* Axioms: none. Every property theorem is followed by `Print Assumptions`, which
  prints `Closed under the global context` for each of them.
  The checker `coqchk` also lists seven opaque constants of the standard library's
  `Coq.ssr.ssrunder.Under_rel`: the library is loaded, and no theorem depends on it.
* The correspondence between the C code and the `*Model.v` files, by reading: each
  definition cites the lines it models and states its simplifications. The C
  compiler, the operating system layer (pnal), the network hardware and the
  user's call-backs are environment: their results are inputs (oracles, events)
  that the theorems quantify over.
* The definitions used in theorem statements, in `*Spec.v` and at the head of the
  `*Props*.v` files.

## What is modelled

| Files | C code |
| --- | --- |
| Sched* | src/common/pf_scheduler.c (all) |
| Cpm* | src/common/pf_cpm.c, pf_cpm_driver_sw.c |
| Ppm* | src/common/pf_ppm.c, pf_ppm_driver_sw.c |
| Eth* | src/common/pf_eth.c |
| Port* | src/device/pf_port.c (numbers, iterators) |
| File* | src/common/pf_file.c |
| Bg* | src/common/pf_bg_worker.c and the jobs it runs |
| Block* | src/device/pf_block_reader.c (primitives and 12 parsers), parts of pf_block_writer.c |
| Cm* | pf_cmdev.c (connection events, ownership, plug/pull), pf_cmsu.c, pf_cmsm.c, pf_cmpbe.c, pf_cmwrr.c, pf_cmio.c, parts of pf_cmrpc.c (AR table, connect/release/control) |
| Plug* | src/device/pf_plugsm.c |
| Diag* | src/device/pf_diag.c, parts of pf_cmdev.c and pf_alarm.c that it calls; the diagnosis records of pf_block_writer.c (2790-3380) and their reads in pf_cmrdr.c |
| Alarm* | src/common/pf_alarm.c (state machines; AlarmFrame*: contents of the alarms and frames), pf_put_alarm_block and what it calls, endpoint allocation in pf_cmdev.c/pf_cmsu.c |
| Epm* | src/device/pf_cmrpc_epm.c, pf_cmrpc_lookup_ind, pf_get_epm_lookup_request, pf_put_lookup_response_data and what they call |
| ConnRsp* | pf_cmrpc_rm_connect_rsp, pf_put_ar_result, pf_put_iocr_result, pf_put_alarm_cr_result, pf_put_ar_rpc_result, pf_put_ar_server_result, pf_put_ar_vendor_result, the results in pf_cmdev_rm_connect_ind |
| DataRec* | pf_cmrdr.c 346-455 (input and output data), pf_put_input_data, pf_put_output_data, pf_put_substitute_data |
| ArData* | pf_put_iocr, pf_put_one_ar, pf_put_ar_data, pf_cmrdr.c 738-751 |
| PdRec* | pf_pdport_read_ind, pf_pdport_write_req, pf_pdport_write_data_check, pf_pdport_write_data_adj, pf_pdport_write_interface_adj, pf_port_get_media_type, the block writers 3787-4256, 4330-4411, pf_cmrdr.c 780-809 |
| Im0* | pf_put_im_0, pf_put_im_0_filter_data, their cases in pf_cmrdr_rm_read_ind (153-169) and pf_fspm_cm_read_ind (714-739) |
| Snmp* | src/common/pf_snmp.c: pf_snmp_data_init, pf_snmp_remove_data_files, pf_snmp_data_clear, pf_snmp_fspm_im_location_ind, getters and setters of sysName, sysContact and sysLocation; pf_fspm_get_im_location; the resets in pf_cmina_set_default_cfg |
| Peer* | src/common/pf_lldp.c: pf_lldp_get_peer_port_name, pf_lldp_get_management_address, pf_lldp_get_link_status and the getters of the neighbour; src/common/pf_snmp.c: pf_snmp_bit_reversed_byte, pf_snmp_encode_link_status, pf_snmp_encode_management_address, pf_snmp_encode_signal_delays, the getters of neighbour, management address and link status |
| Hello* | src/common/pf_dcp.c: pf_dcp_hello_req |
| Control* | src/device/pf_cmrpc.c: pf_cmrpc_rm_release_*, pf_cmrpc_rm_dcontrol_* (requests and responses), pf_cmrpc_rm_ccontrol_interpret_cnf, pf_cmrpc_rm_ccontrol_cnf |
| ReadReq* | src/device/pf_cmrpc.c: pf_cmrpc_rm_read_interpret_ind, pf_cmrpc_rm_read_ind (around the read) |
| ConnReq* | src/device/pf_cmrpc.c: pf_cmrpc_rm_connect_interpret_ind, pf_check_block_header; src/device/pf_block_reader.c: pf_get_alarm_cr_request, pf_get_ar_rpc_request |
| State* | src/device/pnet_api.c: pnet_set_primary_state, pnet_set_redundancy_state, pnet_set_provider_state; src/device/pf_cmrpc.c: pf_ar_find_by_index |
| Handle* | src/device/pf_cmrpc.c: pf_ar_allocate, pf_ar_release, pf_ar_find_by_arep |
| Fast* | src/device/pf_pdport.c: pf_pdport_is_a_fast_port_in_use; src/device/pf_cmdev.c: pf_cmdev_check_pdev |
| DiagApi* | src/device/pf_diag.c: pf_diag_get_preferred_usi, pf_diag_std_*, pf_diag_usi_* |
| Cmina* | src/device/pf_cmina.c |
| Conn* | pf_cmdev.c: pf_cmdev_check_apdu and all it calls (checks of the connect blocks, expected submodules, frame layout), pf_cmdev_fix_frame_id. Not: generation of the module diff block, ownership (in Cm*) |
| Dcp* | src/common/pf_dcp.c (except HELLO), pf_cmina_dcp_get_req, pf_lldp_is_alias_matching |
| Rpc* | src/device/pf_cmrpc.c: session table, pf_cmrpc_dce_packet (dispatch, reassembly, fragmentation, acknowledge, ping, cancel, reject, response), sending and repetition, pf_cmrpc_rm_ccontrol_req, pf_cmrpc_cmdev_state_ind; what a handler writes and does to the connections is arbitrary (an input of the model). Not: sockets, contents of the bodies |
| Lldp* | src/common/pf_lldp.c: parsing, construction of frames, the timers of a port, peer information, alias and station names. src/device/pf_pdport.c: check and adjust data, peer check, link monitor, start and reset, which blocks a read answers with. Not: contents of the blocks, MAU types |
| Fspm* | src/device/pf_fspm.c: log book, I&M data (write, clear, location, save, load); pf_get_im_1, pf_put_im_1 to pf_put_im_3, pf_put_log_book_data. Not: I&M0, checks of the configuration, forwarding of callbacks |
| Record* | src/device/pf_cmrpc.c: pf_cmrpc_rm_write_ind, pf_cmrpc_perform_one_write, pf_cmrpc_rm_read_ind; src/device/pf_cmwrr.c (write), src/device/pf_cmrdr.c (user records, I&M, log book; other records are arbitrary writers); pf_put_read_result. The application is an arbitrary state machine |
| Ident*, Diff* | src/device/pf_cmdev.c: plug and pull of modules and submodules, pf_cmdev_generate_module_diff, pf_cmdev_generate_submodule_diff; src/device/pf_block_writer.c: pf_put_ar_diff, pf_put_real_ident_data, pf_put_exp_ident_data and what they call; the reads of identification data in src/device/pf_cmrdr.c. Not: pf_cmdev_cfg_traverse, I&M0 filter data |

Not modelled: pf_snmp.c, src/drivers, sample application.

## Findings

Places where the code does not do what the English property says, each with a
`_refuted` theorem that exhibits the history in the model:

* C07 a stale timer handle cancels somebody else's timer of the same name.
* C10, C11, C13 consumer: race of the watchdog with a frame; a tagged first frame; the
  new-data flag is cleared by reading the consumer status.
* C19 one frame the network refuses stops a producer silently.
* C20 an id that is registered twice keeps the older handler; a full table drops registrations.
* C21 truncated frames are read past their end.
* C28, C29, C45, C46 block reader and writer: unchecked counts, API mix-up, padding
  that does not end.
* C32 a failed plug alarm blocks the queue.
* C34, C35, C54 diagnosis: blank item overwritten, pulled sub-modules leak items,
  problem indicator only inspects one sub-slot, USI 0 is never listed.
* C37, C39-C42, C58, C59, C61 alarms: see the notes in MANIFEST.json.
* C60 a frame that ends after its type byte counts as transport acknowledge of number 0.
* C79 acknowledging an alarm of the controller takes a sequence number of the device's own
  high-priority alarms, so their numbers have gaps.
* C44 network settings are written to the file without the lock.
* C48, C50, C51 connections: a failed connect keeps sub-slots, a failed start leaks
  providers, re-parameterisation ends the connection.
* C62, C64, C65, C69 settings: see the notes in MANIFEST.json.
* C71 DCP: if the scheduler is full when a request is answered, the lock is never released.
* C72, C73 DCP: blocks that do not fit in the answer are dropped; a Get answer may end in
  the header of a block that is missing.
* C74 DCP: filters for IP parameters (byte order) and product (length) never match; a
  request without a filter is answered.
* C76 DCP: with a full scheduler the LED stays on.
* C77 DCP: the loops read a block header behind the data, and so behind a full buffer; a
  block of length 0 takes its qualifier from there, so that old buffer contents decide
  whether the device is reset; a long name filter is compared with the memory behind the name.
* C78 DCP: the service type is not checked: two devices answer each other for ever after
  one forged frame, and lock everyone else out.
* C80 relations of the classes 2, 3 and 5 are accepted with any data length up to 65535,
  while the frame buffers have 1500 bytes.
* C81 the consumer status of a sub-slot may lie on its own data.
* C82 "discard" is accepted only for sub-slots with input and output (the check is
  inverted) and drops their areas; an API named twice in a relation: the later entry wins;
  "reduce data length" moves the provider status to offset 0.
* C84 an expected API the device has no room for is skipped, and the request accepted.
* C85 the product of hold factor and cycle is taken modulo 2^32; class 5 is not checked.
* C86 a consumer-status entry for a sub-slot that is not expected is refused without error
  code: the response (pf_cmrpc.c:1773-1920) then carries the code of success and no blocks.
* C87 the amount of data copied into a frame is the sum of the lengths of all areas, so
  data behind a gap are not sent.
* C88 class 5 relations get frame id 0; a frame id given by the controller for an output
  relation is not compared with those in use.
* C90 the last fragment of a write or control request is executed although the fragments
  before it are missing (the error of the reassembly is not looked at); a fragment shorter than
  its header says is completed with old bytes behind it; a late copy of fragment 0 loses the request.
* C91 an acknowledge of an unknown client followed by a RESPONSE makes an assertion fail; a
  long response on a session without connection, never acknowledged, dereferences NULL.
* C92 a response whose length is a multiple of 1360 (more than 1360) is never marked as
  complete; the fragment number of an acknowledge is ignored, so that a duplicate
  acknowledge makes the device skip a lost fragment.
* C93 any datagram with the activity UUID of a session stops its repetitions for ever.
* C95 a datagram with an unknown activity UUID that is neither a request nor a ping nor a
  cancel takes a session that is given back by nothing but further datagrams of the same client:
  as many such clients as there are sessions lock out every controller for ever.
* C96 the REJECT of a message that is too long goes to the previous peer of the session; the
  limit for the response is computed modulo 2^32, so that a large one cuts the answer off.
* C97 an implicit read in the session of a connection releases the session although the
  connection stays: its application ready request is then sent to the next owner of the
  session, and its end frees the session of that owner. A second connect in a session makes
  two connections share it. A session marked for release by a request to the endpoint mapper
  survives the end of its connection, and a cancel in it ends the connection of another client.
* C98 only the number of the last control request is stored: a late copy of an older one is
  executed again; the first control request of a session is taken for a repetition if its
  number is 4294967295.
* C100 the length of the object identifier inside a management address is not compared with the
  length of the element, so that the following elements are lost; a second chassis or port id that is too long leaves a
  length greater than the array it belongs to.
* C102 a neighbour with a time to live of more than 60 s never expires (no timer is started),
  nor does one when the scheduler has no free entry.
* C103 a neighbour without ids has the alias "."; a MAC address as chassis id is used as raw bytes.
* C104 sending stays off after pnet_factory_reset() or a refused connect while it was switched off
  (the adjust data are cleared, but sending is not started); it ends for good if the scheduler
  has no free entry when it is switched on.
* C105 names are compared with strncmp() over the length of the shorter one: "port-00" accepts
  "port-001", and a neighbour "a" passes for "abc". The mismatch stays reported when the wrong
  neighbour is gone. A frame that says nothing and has time to live 0 counts as no change.
* C106 a read of PDPortDataCheck (0x802B) for slot 0, subslot 0 never ends: the loop does not ask
  for the next port. One read request stops the device.
* C107 the check of the length of a write adds two 32-bit numbers: a request with length 0xFFFFFFFF
  passes, and 65535 bytes are handed to the application. For records of the stack the length of the
  header is subtracted without a check: a length of 2 gives 65532 bytes.
* C108 a refused write of I&M1 (wrong length) changes the record in memory. Data with a zero byte
  are accepted and read back cut. The data cleared by a reset to factory come back after a loss of
  power if the background job has not yet stored them.
* C109 a full log book lists one event less than it announces.
* C110 in a multiple write, the result of a record for an unknown connection carries the name of the record
  before; a block of type 0x250 executes the previous request again with the bytes that follow;
  after a failure of the application with error code 0 and a decode value the rest is
  executed. A multiple write with an unknown block in it is answered without an error.
* C111 the length offered to the application does not subtract the 64 bytes of the answer header: data in
  this range are dropped with the error "invalid index". A read of a user record
  without a connection (explicit read with an unknown AR UUID, implicit read with an unknown
  target) dereferences NULL: one request from the network stops the device. I&M1 is cut without an error
  if there is room for 57 to 60 bytes. An application that fails without a status is answered as a
  success with no data.
* C112 pulling a submodule no connection holds is answered with -1 although it is pulled, so pulling a
  module with such submodules takes one call for each of them; plugging is answered with -1 although the submodule is
  plugged if the alarm cannot be sent; a submodule is accepted with another module ident number
  than the slot has; direction and lengths of a second plug are ignored.
* C113, C115 a wrong module in a slot and a missing API are not reported as differences. After plugging, the
  submodules are indexed with the number of the module (memory outside the array).
* C114 a missing module is written with 4 bytes of zeros for the number of its submodules instead of 2:
  everything behind it is read shifted.
* C116 a read of expected identification data without a connection (explicit read with an unknown AR UUID,
  implicit read) dereferences NULL: one request from the network stops the device.
* C117 a manufacturer diagnosis without data or with USI 0 is accepted and stored, but is in no diagnosis record.
  A diagnosis with severity "qualified" is in no fault record, whatever its qualifier says.
* C118 an alarm names the ident number of the submodule modulo 65536 (a 16 bit field in pf_alarm_data_t). A diagnosis in
  a standard format is counted with the size of the whole C structure: with a large PNET_MAX_DIAG_MANUF_DATA_SIZE no such
  diagnosis is reported to a controller that takes 200 bytes, although at most 32 bytes would be sent.
* C119 only the lower 16 bits of the time get into the handle of an answer (the others are masked but not shifted): handles
  repeat every 65536 us. The number of a session counts all lookup requests, also those answered "not registered": after one
  of these the endpoint mapper is not told any more. The operation number is not looked at: a request to free a handle is
  answered as a lookup. On a big-endian host port and address are swapped (htons and a little-endian writer).
* C120 pf_put_padding_align never ends if the response is full at an unaligned position, and the controller chooses the size of
  the response (args_maximum; there is no lower limit): one accepted connect request with advanced startup and such a size stops
  the device (`C120_hang_refuted`). A response that is too small otherwise is cut off and told as a success
  (`C120_cut_refuted`). The sum of the header and args_maximum is taken modulo 2^32. The port of the RPC server is never set: a
  controller is told port 0. The data of vendor blocks is never set: it is always empty.
* C121 the read of a data record by a controller swaps the buffers of the consumer like a read by the application: the
  application is then told that data it has not seen are not new (`C121_new_refuted`).
* C122 the padding in the record of connections never ends if the response ends at an unaligned position behind the name of a
  controller; a reader, also one without a connection, chooses the size of the response, so one read of this record stops the
  device (`C122_hang_refuted`). Over a connection with several APIs the record announces all of them and has one
  (`C122_api_refuted`). A connection whose identifier starts with 00000000 is not told (`C122_zero_refuted`). With vendor
  blocks compiled in, blocks are announced that are not there (`C122_vendor_refuted`).
* C123 a written list of two wanted peers is accepted and one of them is kept (`C123_peers_refuted`). In the record that is
  read back, the length of the inner block counts two bytes too many, so that it ends behind the outer block
  (`C123_check_length_refuted`). An interface record that is cut off is accepted and sets mode 0
  (`C123_mode_short_refuted`). The slot of a write is ignored (`C123_slot_refuted`). A read whose response ends inside the
  padding never ends (`C123_hang_refuted`).
* C124 the room for I&M0 is tested against the size of the C structure (56) but the block has 60 bytes: with 57 to 59 bytes
  left a block without its end is told as a success (`C124_cut_refuted`). I&M0 is answered for every slot, even one where
  nothing is plugged; the filter lists the first submodule of the device access point only, and if that is not plugged its
  blocks have not even a count (`C124_filter_complete_refuted`, `C124_filter`).
* C125 a location set through SNMP is saved at once in one file and by the background job in another: after a power-off in
  between SNMP and I&M1 tell different locations for good (`C125_power_off_refuted`). A reset of mode 2 empties the location of
  SNMP but not the one of I&M1, from which it comes back at the next start (`C125_mode_refuted`). A refused I&M1 record
  changes the location of I&M1 only (`C125_refused_refuted`). A value that could not be saved is refused but in effect until
  the next start (`C125_failed_refuted`).
* C126 in the naming mode of older devices a neighbour whose port name has a dot is told with the part behind the dot as
  its station name (`C126_dot_refuted`): the dot alone decides which mode the neighbour is taken to use.
* C127 a HELLO message has block info 0 ("IP not set") for the address also when the device has one, while its answers to
  Get and Identify say 1; the block with the role of the device, which the comment in pf_dcp_hello_ind lists, is never sent
  (`C127_address_refuted`).
* C128 pf_cmrpc_rm_release_ind writes a response before it reads the request, and that overwrites args_length of the session with
  the length of the response: the ArgsLength of a release request is never checked (`C128_args_refuted`), and a proper release
  request with little room for the response is refused (`C128_room_refuted`). A refused one keeps the block that says "done", for
  UUID zero (`C128_refused_refuted`). The first DControl request of a session with sequence number 0xffffffff is answered with
  success and not handed on (`C128_first_refuted`). A header of an unknown block that claims more bytes than there are is skipped
  silently (`C128_unknown_refuted`). Unknown blocks in a release request are reported with the error code of connect.
* C129 a read request that is refused before the read (malformed, unknown API, zero UUID) is answered with a header only: no
  status reaches the controller (`C129_silent_refuted`); one refused for the length of its block even leaves "no error" as the
  result (`C129_length_refuted`).
* C130 the UUID and session key in a confirmation are not compared with those of the connection (`C130_uuid_refuted`).
* C131 the length in the header of an AR block is compared with 54 and the station name up to its first zero byte, not with the block: a block whose name contains a zero is taken if its header tells a length that is too small (`C131_length_refuted`); a request without an AR block passes the parser and is refused later, without an error code (`C131_none_refuted`); an expected module with too many submodules writes outside its table (`C131_submodules_refuted`, as C29).
* C132 the state is not kept for connections that are made later: their producers start as primary and stopped, whatever was set before (`C132_later_refuted`).
* C133 the index made from a handle is cut to 16 bits: 65537 finds the first connection (`C133_far_refuted`). Handles are used again at once: the handle of an ended connection finds the next one (`C133_stale_refuted`).
* C134 links of 100BaseFX, 1000BaseX and 1000BaseT that are half duplex pass the check, as their numbers are larger than that of 100BaseTX full duplex (`C134_half_refuted`).
* Outside the theorems: writes to subslots that do not exist reach the application; pf_pdport writes ignore the slot; the write of interface adjust data
  ignores errors of its parser and answers success.

## Wrong programs

`seeded/LOG.jsonl` has one line per edit of a model in a scratch copy.
"theorems_failed" lists the property theorems whose own script failed or that use a
lemma whose script failed; it is coarse when an invariant breaks. Edits that no
theorem notices are either marked as equivalent programs or led to a tightened
statement.
