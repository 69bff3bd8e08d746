# Formal model of sfptpd in Rocq (Coq 8.16.1)

## 1. Layout and method

For each part `X` of the code there are up to four files under `rocq/theories`:

* `XModel.v`  - computable Gallina functions transcribing the C, function by function.
  Each definition cites file:lines in /repo and says where it simplifies.
* `XSpec.v`   - small specification vocabulary that does not mention the model.
* `XProof.v`  - lemmas.
* `XProps.v`  - the property theorems (`Cnn_...`), each closed by a lemma, each followed by
  `Print Assumptions`, with an `Example` showing the hypotheses are met by a
  non-trivial concrete case.

Undefined behaviour (out-of-bounds access, assert failure, NULL dereference, use after
free, signed overflow, shift by the width, reading an uninitialised object) is a
distinct outcome of the model wherever the property is about it.  Where a full
statement is false of the code we prove `..._refuted` with a concrete witness and
a `..._partial` theorem for what does hold.

## 2. Plan per property

| id | model | proof |
|----|-------|-------|
| C01-C03 | sfptpd_time.[ch] with explicit 32/64 bit wrap-around on Z | value function into Z (units of 2^-32 ns); lia / div-mod |
| C04-C07 | filter state machines; long double -> exact rationals Q | invariant: ring buffer = last n samples (induction over updates) |
| C08 | running sums over Q | invariant over add/remove traces vs. multiset |
| C09-C10 | timestamp data set, times as exact values | field algebra; invariant over set/clear traces |
| C11-C13, C52 | comparator functions, rule list, sort, rule parser | lexicographic order; qsort modelled as any sort that returns a sorted permutation |
| C14-C18, C53 | BMC comparison, state decision, foreign master table | case analysis; table invariants by induction; refutations by computation |
| C19 | timer array | trace induction |
| C20 | ACL parser and matcher | bit-vector arithmetic on Z |
| C21 | chained hash table | refinement to association map |
| C22 | list and array stores | refinement to list of live records |
| C23 | pools and queues | conservation invariant (Permutation) over all histories |
| C24-C27 | feed ring, reader as small-step program interleaved with writer | invariant over all interleavings |
| C28-C30, C54 | servo decision function, clock frequency and step operations | case analysis + trace induction |
| C31-C33, C51 | statistics | refinement to list of samples |
| C34-C35 | tokenizer on an explicit buffer; option parser | loop invariants |
| C36-C39, C50 | engine event handlers as a state machine | invariants over all event traces |
| C40-C42 | byte-level codecs on lists of bytes with explicit bounds | round trip by computation on symbolic bytes; safety by induction |
| C43-C45, C56-C57 | protocol message handlers as a state machine | invariant over message traces with ghost event identity |
| C46 | multicast groups as a state machine over subscribe, publish, send, unsubscribe | refinement to the set of members |
| C47 | link table versions as a state machine over kernel reads, retrievals and releases | invariant over all histories |
| C48-C49 | buffers as lists with explicit bounds | induction |
| C55 | conversions between the fixed-point time and floating point, rounding as a parameter | Qfloor bounds; the IEEE rounding for the refutation |
| C58 | transmit timestamp cache: 32 slots, bitmap, quarantine | invariant over all histories |
| C59 | event monitoring records and reports | refinement to the grouping of the event list |
| C60 | management messages: octets in to octets out, all ids and actions | the decision as a pure function of settings and request, byte layout by list algebra, trace induction |
| C61 | the PTP slave servo: data sets, path delay filter, outlier filter, average, PI controller, steps, resets, restarts | history invariant relating the state to what a user can tell from the calls; the filters' own invariants reused |
| C62 | the environment files of chronyd: lines, sections, rewriting in place through a mapping, truncation, restart | specification of what a service reads from a file and of the text outside the section; equations for every file with a final newline; crash states as prefixes of the writes; induction over histories; refutations for other files |
| C63 | the privileged helper: its loop and its checks, the calls of the daemon, threads with a lock and two queues | exact answer for each request; permitted paths by a regular description; invariant of a transition system over all schedules; refutations for the failure paths |
| C64 | the control socket: datagrams to effects (strsep, strtol, strtod, tables), signals, what the engine and modules do with each effect, messages used up, opening and closing | grammar of the documented commands as relations, parser proved to invert it; exact description of the effects; counting of pool messages; refutations for the rest |
| C65 | a PPS instance: start, pulses, silence, failures, timers, control, steps, gains; the time of day shared by instances | an observer's view computed from inputs and outputs only; invariant linking instance and view over all histories; exact effect of a pulse; refutations by runs |
| C66 | the client of ntpd's control protocol (mode 6): requests, putting fragments together, variables, addresses, the association list, peers, the selected peer, taking and giving back the clock | specification of packets, fragments and texts as the daemon writes them; soundness and completeness of the reassembly over all sequences of datagrams; round trip of written variables; refutations by runs and by general families |
| C67 | the NTP module: start, polling, deriving the state from the daemon's answers, clock control, messages of the engine, statistics, convergence. An observer that sees only questions, answers and messages computes what should be said; an invariant ties it to the module, and every event of every history is shown to be truthful. Constraints, doubt after a step, definedness and the start are partial, with refutations |
| C68 | the chrony module: start, the query state machine octet by octet, deriving the state, clock control, blocking of the system clock, messages of the engine, convergence. A life is the outputs of the start, of messages before the message to run, of that message and of any events after it | invariant over all lives (the selection is always empty, connection and blocking in step with the outputs, last request and phase); independent readings of the output list (connection, blocking, states told, commands); the exact course of an honest round by induction over the sources; commutation with the receive buffer for foreign octets; concrete lives for the refutations |
| C69 | the freerun module: search for the NIC behind a link, start, messages, two option parsers. The search takes fuel and returns iff some fuel gives an answer; NICs behind a link are an inductive relation in table order, the choice the first element no other beats. Proved by soundness (induction on fuel), completeness (mutual induction on the relation), uniqueness; starting by induction over the instances; messages by induction over histories. |
| C70 | the interfaces of a PTP instance: VLAN resolution with fuel, probing of plain links, macvlans, bonds, teams and bridges, choice of the interface, kind of timestamps. What is behind a group is an inductive relation, the choice a list of preferences over first and last elements. Proved by an invariant over the rows of the table (array prefix = what was found so far, capped at 16), soundness and completeness of the VLAN walk, an invariant of the choice loop over the part of the set seen |
| C71 | the handling of a link table by a running PTP interface: probing (C70), kind of timestamps, the loop over ports with the interface change of ptpd, reconfiguration of timestamping, alarms, the loop over interfaces. What is done is a list of effects; opening sockets and switching on timestamps are oracles. Proved by lemmas about the loop over ports (induction), a case analysis of the whole change, and an invariant over histories (members stamping while hardware timestamps are used) |
| C72 | a PTP instance between engine and protocol engine: ticks with port data, time, score and kind of timestamps as inputs, control requests, alarms and link changes; every message sent is an output. Proved by invariants over histories (the engine's view, what was published, the stretch of ticks behind "synchronised"), a progress argument for "synchronised", and exact lemmas for what one tick sends |
| C73 | the comparison of a hardware clock with the system clock: what clocks, kernel and file system answer is a record per level of recursion, the clock a record; brackets and their widths are the specification; times are exact and the one rounding (the argument of floor) is any monotone function exact on multiples of 2^-31. Proved by a loop invariant (tightest bracket so far), induction over the method list, and an invariant over histories that bounds the recursion |
| C74 | the list of clocks as a state machine: start, rescans with any interfaces, configuration, fix-up, comparison, setting, steps, frequency, leap seconds, status, blocking; what the kernel, the devices and files answer are parameters of each operation | invariant over all histories (keys, devices, read-only clocks quiet) with a frame relation between states of a clock; exact results of a rescan by induction over the interfaces; refutations by runs from the start of the daemon |
| C75 | the PTP module as a world of instances, interfaces, contexts and ports with the set of allocated objects; results of system calls are parameters | exact structure of the interfaces by induction over the configured instances; ownership invariant for taking down; success characterised exactly; refutations by runs |
| C76 | the pool of sockets for a bond as slots, mask, record of (socket, interface) and the set of open descriptors; results of system calls and descriptors are parameters | invariant over histories of operations; exact effect of each operation; loops over the mask shown equal to folds over the set bits |
| C77 | the monitor of other slaves as five tables and three counters; reports and outputs as operations; what is on the stack behind a pointer is a parameter | invariant over histories relating each table to functions of the history (first keys, last data, numbering); sorting shown to keep numbered tables |
| C78 | the digest context as four words, two counters and 64 octets of memory; byte order and old memory as parameters; the 64 operations transcribed line by line | the operations matched against the RFC's indices and table; invariant relating a context to the octets given so far; round trip of words through memory |
| C79 | the collection of an answer of the NTP daemon as a function of the events at the socket (time over, failure, packet of octets) | packets are written by an encoding of the specification and shown to be decoded; induction over the events with an invariant on buffer, counts and the number of the last packet; permutations for the order of arrival; refutations by runs |
| C80 | a request to the NTP daemon as the octets given to send(2); time, byte order and old memory as parameters; the authenticator is the model of C78 | writes into the packet followed one by one; the sum of times shown equal to addition modulo 2^64; C78 used for the authenticator |

## 3. Trusted base

* Coq 8.16.1's kernel, including its conversion by `vm_compute` (used for examples and refutations).
* The transcription of C into Gallina (each definition cites what it models), and the simplifications listed in section 4.
* Nothing else: no axioms are added and none of the standard library's is used (section 5).

## 4. Modelled / not modelled

Paths are relative to /repo/src.

| files | code modelled | simplifications and what is left out |
|-------|---------------|--------------------------------------|
| Time* | sfptpd_time.c, include/sfptpd_time.h: arithmetic, comparison, conversions, normalisation | text formatting of times and of dates |
| Flt* | include/sfptpd_time.h: floating point conversions | long double products taken as exact; the double argument of floor() goes through a rounding parameter |
| Filter* | sfptpd_filter.c; the standard deviation measure of sfptpd_statistics.c | floating point is exact rationals |
| Stats* | sfptpd_statistics.c: convergence, ranges, counts, history, collections | writing of the statistics file; allocation succeeds |
| Tsd* | ptp/sfptpd_ptp_timestamp_dataset.c | floating point is exact rationals |
| Bic* | sfptpd_bic.c; policy parsers of sfptpd_general_config.c | logging |
| Bmc* | ptp/ptpd2/bmc.c, foreign.c | see the head of BmcModel.v; calculateForeignOffset is left out |
| Tmr* | ptp/ptpd2/dep/timer.c | the source of the ticks |
| Acl* | ptp/ptpd2/dep/ipv4_acl.c; the checks in protocol.c | dump and counters |
| Ht* | sfptpd_misc.c: hash table | allocation succeeds |
| Db* | sfptpd_db.c | printing of tables; variadic argument lists are lists |
| Thr* | sfptpd_thread.c: message pools, queues, sending, waiting for replies | pthreads, epoll, timers of threads and destruction of threads |
| Mc* | sfptpd_multicast.c | each locked section is atomic |
| Nlk* | sfptpd_netlink.c: table versions, comparison, retrieval and release | parsing of netlink attributes; allocation succeeds |
| Feed* | sfptpd_clockfeed.c | sequentially consistent memory, word by word; the cadence of samples |
| Srv* | sfptpd_servo.c; frequency, step and limit operations of sfptpd_clock.c | floating point exact; saving to disk, device discovery |
| Clu*, Leap*, Eng* | sfptpd_engine.c: clustering, leap seconds, selection and servo table | statistics, logging, the control interface, start-up and shutdown |
| Tok*, Cfg*, Str* | sfptpd_config.c, the scope rules of the option tables, sfptpd_strncpy and sfptpd_format | the individual option parsers, except those named in the models |
| Msg*, Tlv*, Prt*, Tsc*, Evm*, Mgt* | ptp/ptpd2/dep/msg.c, protocol.c (message handlers), dep/net.c (timestamp cache), evtmon.c, monitor.c (TLV handlers), management.c, and processTLVs | sockets; the test modes; counters where no claim is about them |
| Psv* | ptp/ptpd2/dep/servo.c; the smallest-delay filter on whole data sets | floating point exact except the floor in the conversion to a time; operator messages, logging, getters without effect; NaN gains at initialisation are undefined |
| Cev* | src/crny/sfptpd_crny_helper.c: sfptpd_crny_helper_control, edit_env | files are byte strings, the mapping is written in order; logging; the shell that runs the restart command is an oracle |
| Prv* | src/priv_helper/sfptpd_priv_helper.c: server and its operations; src/sfptpd_priv.c: rpc and the calls; sfptpd_crny_helper_connect; crny_connect | starting the helper, dropping privileges, sendmsg(2) failing in the helper; the threads are modelled at the granularity of lock, send, receive, unlock |
| Ctl* | src/sfptpd_control.c; sfptpd_main.c: main_on_signal, on_control_socket_fd; sfptpd_engine.c: on_select_instance, on_configure_test_mode, on_step_clocks, pid_adjust and its receivers in the PTP and PPS modules | strtod(3) is exact (no rounding, no overflow), C locale; of the message pool only the messages kept by these commands; commands come one at a time; the sender's side (sfptpdctl) |
| Pps* | src/pps/sfptpd_pps_module.c: servo, signal state machine, polling, time of day, convergence, start, control, step and gains | long double is exact rationals; statistics, logging, the bogus-event test mode and configuration are left out; the clock, the time of day source and clustering are inputs; on_timer is split into its three parts (Check, Poll, Timer) |
| Nm6* | src/ntp/sfptpd_ntpd_client_mode6.c: request building, mode6_validate_response_packet, mode6_response, make_query_data, next_var, parsing of addresses, peers, system information, clock control | authentication of requests (the key digest), the socket and select are events; getaddrinfo, strtoul and strtod are parameters; logging is left out |
| Ntp* | src/ntp/sfptpd_ntp_module.c: ntp_parse_state, status messages and replies, real time statistics, clustering input, ntp_on_offset_id_change, ntp_on_clock_control_change, ntp_handle_state_change, ntp_convergence_init/update, ntp_stats_update, ntp_state_machine, ntp_on_timer/control/step_clock/log_stats/save_state/write_topology/get_status, ntp_configure_ntpd, ntp_on_startup, ntp_on_run | the client's answers are inputs; long double is exact rationals; logging and the text of saved files are left out |
| Crn* | src/crny/sfptpd_crny_module.c: sfptpd_crny_tofloat and the address conversion, clock_control_at_launch, blocking, the requests and their answers, crny_parse_state, crny_state_machine, do_clock_control, ntp_on_clock_control_change, ntp_handle_state_change, ntp_convergence_init/update, crny_stats_update, update_state, ntp_on_timer/control/step_clock/log_stats/save_state/write_topology/get_status, crny_do_io, ntp_on_startup, ntp_on_run | the outcome of connect, send and of the control script or helper are inputs, as are chronyd's process at each look, the random numbers, times and clustering scores; the privileged helper's socket is one with the direct one; long double is exact rationals; logging and the text of saved files are left out; asking the thread to exit does not end it |
| Frn* | src/freerun/sfptpd_freerun_module.c: freerun_find_physical_link, freerun_select_clock, freerun_on_startup, all message handlers, parse_clock_class, parse_clock_traceability; src/sfptpd_link.c: lookups by name and index. Not: parse_priority, parse_clock_accuracy (sscanf), memory allocation, texts of the state file |
| Pti* | src/ptp/sfptpd_ptp_module.c: ptp_get_active_intf, ptp_is_interface_vlan, parse_nested_bond, parse_bond, parse_team, ptp_probe_bonding, ptp_parse_interface_topology, ptp_determine_timestamp_type. qsort is an insertion sort; the interface database is a record of functions that does not change during a call. Not: log messages, sfptpd_interface.c itself |
| Pbc* | src/ptp/sfptpd_ptp_module.c: ptp_is_interface_hw_timestamping, ptp_timestamp_filtering_configure_one, _reconfigure_all, ptp_handle_bonding_interface_change, ptp_on_link_table (after the copy of the table); src/ptp/ptpd2/ptpd_lib.c: ptpd_change_interface. Not: netInit (oracle), the discipline warning, log messages, struct padding seen by memcmp |
| Pin* | src/ptp/sfptpd_ptp_module.c: ptp_translate_state, clock class and accuracy translations, ptp_translate_master_characteristics, ptp_convergence_init, ptp_convergence_update, ptp_get_alarms_snapshot, ptp_get_instance_accuracy, ptp_set_convergence_threshold, ptp_port_invalidate_derived, ptp_update_instance_state, ptp_on_get_status, ptp_on_control, ptp_on_update_gm_info, ptp_on_update_leap_second, ptp_measure_offset_from_discriminator; convergence measure of StatsModel. Port data, time and clustering score are inputs; offsets are rationals. Not: log messages, statistics, the variance conversion (raw number kept), traceability of the time source, the deadlock other than by the discriminator |
| Phc* | src/sfptpd_phc.c: all comparison methods, phc_update_smallest_window_diff, phc_configure_pps, phc_discover_devpps (search), phc_discover_pps, phc_set_fallback_diff_method, sfptpd_phc_start, sfptpd_phc_compare_to_sys_clk, sfptpd_phc_record_step, sfptpd_phc_set_diff_methods, phc_get_devptp_event, phc_get_devpps_event; src/sfptpd_general_config.c: parse_phc_diff_method_order; src/sfptpd_clock.c: clock_compare_using_efx. Not modelled: opening and closing, enabling the external input, logging, errno between calls |
| Reg* | src/sfptpd_clock.c: sfptpd_clock_initialise, new_system_clock, renew_clock, sfptpd_clock_init_interface, sfptpd_clock_rescan_interfaces, configure_new_clock, fixup_readonly_and_clock_lists, sfptpd_clock_correct_new, load and save of corrections, sfptpd_clock_compare, sfptpd_clock_set_time, sfptpd_clock_adjust_time and _frequency, schedule_leap_second, leap_second_now, set_sync_status, set_blocked, enumeration and lookup; sfptpd_interface_supports_ptp | locking, PPS input, statistics other than sync-failures, formatting of names, text output, sfptpd_clock_shutdown; the device is only its number (Phc* models it); frequencies are exact rationals; an interface has a PHC device exactly if it has its index |
| Pmc* | src/ptp/sfptpd_ptp_module.c: sfptpd_ptp_module_create, ptp_create_instances, ptp_ensure_interface_created, ptp_validate_new_instance, ptp_start_instance, ptp_ensure_interface_started, ptp_intf_aggregate_instance_requirements, ptp_on_startup, ptp_on_run, ptp_start_interface, on_servo_pid_adjust, ptp_on_shutdown, ptp_destroy_instance(s) and _interface; src/ptp/ptpd2/ptpd_lib.c: creation and destruction of contexts and ports | contents of contexts and ports, clocks, statistics and convergence of an instance (only whether setting them up works), the remote monitor, failures of calloc, resources other than memory |
| Lac* | src/ptp/ptpd2/sfptpd_lacp.c (all of it but copyMulticastTTLToBondSocks and the log messages), FOR_EACH_MASK_IDX of sfptpd_lacp.h, the choice of the socket in prepareSendMessage of dep/net.c, doHandleSockets of protocol.c (which sockets are read), the loop over events in ptp_on_user_fds of src/ptp/sfptpd_ptp_module.c | addresses, contents of messages and ancillary data, the event and general sockets being made, the reason a socket is invalid (only logged) |
| Rmn* | src/ptp/sfptpd_ptp_monitor.c: registration of nodes, the four kinds of report, flushing, and what the text and JSON outputs contain and in which order | formatting of the output, getnameinfo(3); a table of the database is the list of its records (its own model is Db*); port identities are numbers in the order of memcmp(3) |
| Mdg* | src/ptp/ptpd2/dep/ntpengine/ntp_isc_md5.c: all of it but isc_md5_invalidate | casts of sizes to int in the copy macros; the clearing of the context at the end; that T[i] is 2^32 abs(sin i) (the table is listed) |
| Msv* | src/ntp/sfptpd_ntpd_client_mode7.c: mode7_check_response_part1, mode7_response, mode7_query, the tables of errors and sizes | emptying the socket, what the callers read in the items, the computation of the time left, logging except for the look-up of the error in its arguments |
| Mrq* | src/ntp/sfptpd_ntpd_client_mode7.c: mode7_request, M_ADD | reading the clock and its conversion (floating point), send(2) |

Not modelled: network, PHC, PPS and netlink device access; GPS module, NTP mode 7 other than queries, requests and the collection of answers (Msv*, Mrq*); the PPS module's configuration and statistics; LACP; logging; privilege handling; the command line; the monitoring and test tools.

### 4.1 Where the code does not do what the property says

Each is proved as a `..._refuted` theorem or stated in the named model's comments.

* Management (C60): a SET, COMMAND or unknown action whose data ends early frees the data twice, also when changes are not permitted. A TLV that ends early is used after being freed, even with management disabled. The truth value of slave-only is read from four octets, of which only one is sent. A description longer than the message is copied from NULL. The default data set always reports one-step. Answers go to a configured unicast address and not to the requester. The TLV's length is ignored. A request to set the time is ignored but answered as successful. No configuration option permits changes.
* PTP slave servo (C61): initialisation and a reset set the frequency of a clock the servo does not control. With step-at-startup the clock may be stepped again after every fault. A gain left unchanged is stored as NaN in the running options and used when the port restarts. After a change of clock, measurements of the old clock are combined with those of the new one. The alarm of a failed step is overwritten by the frequency reset that follows; a reset clears the alarm it has just raised. Seen but not modelled: the outlier threshold reported uses the criterion truncated to an integer (servo.c:318-327); ptpd_destroy and ptpd_timer_tick dereference their argument before checking it.
* chronyd environment files (C62): the fallback to `service` is never tried, since system(3) returns the exit status times 256 and the code compares with 127. A file whose last line has no newline is treated as one line (strnlen looks for a NUL in the mapping): old sections are not removed and the administrator's options are not seen; if its size is a multiple of the page size the search leaves the mapping. A NUL byte in the file makes strsep return NULL. A file ending in a lone BEGIN line is misread. A crash between the flush and the truncation leaves a mixture if the section was in the middle. If fdopen fails on a file that is not empty, nothing is edited but success is returned and chronyd is restarted for nothing.
* Privileged helper (C63): if the helper dies after reading a request, recvmsg(2) returns 0 and the daemon takes the zeroed response for success: descriptor 0, the standard input, is used as the device. The helper does not stop at end of file: it interprets a request it has not received. If send(2) fails, sfptpd_priv_rpc returns with the lock held and another thread can wait for ever. The step that failed is assigned to a parameter instead of being copied (sfptpd_priv.c:341), so crny_connect prints an unset buffer.
* Control socket (C64): `pid_adjust=local` (no gains before the keyword) sets the proportional gain of every servo to 0, because strtod(3) of anything is accepted; test parameters that are not integers are read as 0, those beyond an int are cut. A datagram is cut at 127 bytes and a name at 63 without a message; a name of 63 bytes is copied without a terminator (sfptpd_engine.c:2789). `testmode=local_leap_second_cancel` fails an assertion (sfptpd_engine.c:2939). The clock feed never frees the message of `dumptables` (sfptpd_clockfeed.c:443-450), nor do the PTP and PPS modules that of a `pid_adjust` that is not for them (ptp/sfptpd_ptp_module.c:3980, pps/sfptpd_pps_module.c:2283): after 127 `pid_adjust=...,local` the next one blocks the main thread for ever and exit is no longer obeyed. When the socket cannot be opened (bound, created, path too long) the path is freed and later used and freed again by sfptpd_control_socket_close.
* PPS module (C65): the seconds and the fraction of the offset are rounded separately (lines 808-819), so a time of day 0.15 s wrong can make the offset a second wrong and step the clock by it. The policy step-on-first-lock is not in the condition at lines 834-836 and never steps. A step ignores the propagation delay. pps_state_machine_reset also overwrites prev_state, so the engine is never told that a silent or failed instance listens again; instances with a descriptor are only timed by pps_on_timer, which tells the engine nothing. The comment at 1217-1223 says an alarmed instance is unsynchronized, but the flag is left as it was. After processing is turned off and on the next pulse is used without its period being checked. When an offset is one it would step but it is not in control, the old offset is reported again (lines 838-850). The servo runs with the no-time-of-day alarm on. The time of day offset belongs to the module (line 213) but holds the clock difference of whichever instance polled last, and a step of one zeroes it for all. If the outlier filter cannot be allocated pps_start_instance returns 0 (lines 2201-2211). A pulse in the first second of the clock's epoch counts as no time (sec == 0).
* NTP mode 6 client (C66): the error table lacks the entry for unknown variable (5) or counts one too many before it: bad variable comes out as EINVAL, bad value as EPERM, "restricted" (7) as 0, that is success with no data, and codes from 8 on are read outside the table. After "restricted" the clock control command reads through a pointer that was never set. Fragments beyond the final one become part of the answer if they come first. A mismatch of the association is only logged. next_var looks for the end of a name and of a value beyond the answer (strcspn and memchr to the end of the buffer), so a full buffer is overrun and old bytes decide. An unclosed bracket in an address reads beyond its array. A variable without a value is a NULL pointer. An association that is skipped leaves a hole, while the count goes up without it: the last peers are not seen and the hole is. More than 32 peers overflow the array. A failed or empty association list is reported as success with the old peers. A failed query of one peer is forgotten if the next succeeds. A reference clock is never recognised as the host itself. The answer to the clock control command is compared without looking at its length.
* NTP module (C67): after a failed question the old offset stays in the status of a FAULTY instance, and the status message also keeps accuracy and steps. A refused clock control command (ntp_on_control) changes the constraints without telling the engine, and later changes are compared with the changed state, so it is never told. A failed question clears the constraints and the belief that the daemon disciplines; with mode 6, which does not tell, a daemon that refused to give up the clock is then taken to have given it up. Refused commands are not retried. After a step of the clock the offset is unsafe until the followed peer has no identity: a peer that stays is never followed again however many new measurements arrive, while a peer missing from one answer is followed again with the old measurement. Without a followed peer selected_peer_idx is -1 and ntp_send_clustering_input (determinant) and ntp_on_write_topology index peers[-1]. If the first question at the start fails the module starts without taking the clock from the daemon, active or watching. The real time statistics sent for a new measurement are those of the previous one.
* Chrony module (C68): issue_get_source_stats (lines 1192-1201) clears the peer and with it selected, shortlist and self, which handle_get_source_datum has just set; so no peer is ever selected, the instance is never a slave, and selected_peer_idx is -1 after every round: writing the topology of a selected instance, and clustering input of a determinant one, read peers[-1]. After a reference clock, a source without address or a failed statistics answer the next source is asked for but the state stays SOURCE_STATS (lines 1438-1446): the answer is rejected, and so on for all later sources. A count of sources of 2^31 or more is negative as int32, passes the check against the maximum and becomes a huge unsigned count: later answers are written past the array of 32. If chronyd has no sources, if answers stop or if the connection is lost, no state is derived and the old one stays. A late or foreign answer is taken for a failed answer to the question at hand. -x is only recognised at the start of an argument, not in -nx. After an outside change that the module undoes, the new state is recorded as the wished one without adjusting the blocking: the system clock stays blocked (or unblocked). Changes of the constraints alone are not told; the constraint of a disabled instance is cleared at the next look without being told. The saved clock control setting is never restored. A step of the clock during a round is forgotten. The minimum interval between commands is 0, so a command is only refused if the raw clock went backwards. The first status messages carry accuracy 0 for an instance that is no slave.
* Freerun module (C69): while resolving a VLAN (lines 315-327) a link that is not found is logged and the same VLAN tried again, for ever, one error message each round: a VLAN whose parent is in another network namespace hangs the start of the daemon. StepClock is obeyed whatever the control flags say.
* PTP module, interfaces (C70): VLANs that name each other (possible when an if_link number is of another network namespace, even a VLAN naming its own number) are followed for ever (1554-1560). A bond in a mode other than active-backup or LACP that has no members fails the assertion of line 1499. An LACP bond or bridge without members keeps as active interface the one that stood first before (1472-1474). The first member, if it has hardware timestamps, is used even when it is down and others are up (602-645: it is compared as the best so far without the test for being up). A member is marked as the active one of its bond by comparing its own active_slave (0 for a physical link) with its number, so the preference for the active member of an active-backup bond never applies. If the link state of the last member of an LACP set cannot be read the probe fails although others could be told.
* PTP module, link changes (C71): ptp_get_active_intf reads intf->bond_info, which ptp_handle_bonding_interface_change replaces only at its end (1857), so ports move to the set of the previous table: a port stays on an interface that left the bond, or on none when members come back, until another table comes. ptpd_change_interface stores a pointer to the caller's stack variable new_bond_info in transport.bond_info (ptpd_lib.c:634), which later socket creation and dumps read. With several instances on an interface only the servo of the first is reset when the kind of timestamps changes, as the first call stores the new kind (ptpd_lib.c:632). Only the result of the last instance is kept: sockets that could not be opened leave ports faulty without error or alarm. Timestamping stays on for an interface that leaves while the kind becomes software, as the new kind is tested (1042). The kind comes from the active interface of the bond, the ports may use another. A deleted bond, fatal by the comment of 1741, is no error and leaves the ports on their interface. A link table is not given back when handling it fails (3248).
* PTP instance (C72): traceability, offset and timestamp accuracy are not among what ptp_update_instance_state compares, so the engine keeps old values. The clustering score is computed from the snapshot of the tick before, and so is the clustering input: after the loss of the master the clustering keeps the last offset as valid. ptp_on_get_status leaves the clustering score 0, which overwrites the default the engine set before asking (sfptpd_engine.c:2444, sfptpd_sync_module.c:359-369). "Synchronised" does not notice offsets out of range while an alarm lasts. ptp_convergence_init uses hardware timestamping for the threshold because the kind is not yet known; with software timestamps the threshold stays 1 us until links change. A negative sync_threshold is accepted by the parser and fails the assertion of sfptpd_stats_convergence_set_max_offset. A change of "synchronised" is published one tick late. A leap flag seen before the instance is selected is never announced after. An unknown clock class is sent as 255, which is read as free running. A PTP instance as bmc_discriminator of another makes the thread wait for itself (sfptpd_thread.c:1155-1195); the result of a failed clock comparison is used for other instances.
* PHC module (C73): the whole seconds of a PPS difference come from readings rounded to the nearest second, so a difference within the reading error of half a second is reported wrong by a whole second. An event with nanoseconds 0 gives a difference with nsec 1000000000. If pulses stop, the last difference is reported with success for ever. An empty /sys/class/pps makes fts_children return NULL with errno 0, so PPS counts as configured with descriptor -1 and every comparison fails. The search for the external input keeps FOUND_INTPPS across devices of other clocks, so of ptp0, ptp1, sfc the input of ptp1 is given to ptp0 too. The first fetch before any pulse is reported as an event at time 0. Names of 16 and more characters overflow the buffer of fscanf("%16s"). A failing reading after a new pulse leaves the time of the pulse updated, so for 0.9 s the older difference is reported with success. A pulse captured before a step but fetched after it ends the state "stepped".
* Clocks (C74): clock_record_step tells the PHC of every adapter clock of a step, also of deleted clocks, whose PHC is NULL: once an adapter has been unplugged, the next step of any clock fails the assertion in sfptpd_phc_record_step. sfptpd_clock_init_interface corrects a clock that comes back before its device is opened again, and a clock that is new in a running daemon not at all, so such an adapter stays at the time it powers up with. renew_clock keeps an open device although the index of the adapter's PHC has changed. A blocked clock counts as initially corrected. sfptpd_clock_set_time compares a signed difference with its threshold (callers pass none). adjtimex(2) returns the state of the clock on success; sfptpd_clock_schedule_leap_second returns it as an error (TIME_ERROR, 5, while not synchronised), and after a failure the leap bit stays in the word written with the next adjustment. sfptpd_clock_find_by_hw_id has a parenthesis in the wrong place and never finds anything. A failed comparison counts as a failure of the first clock, a successful one is counted only for adapters. When a PHC does not open, renew_clock returns errno rather than the result; the theorems assume that it is not zero (sound_env).
* PTP module (C75): ptpd_create_interface and ptpd_create_port put the new context into a list first and, if it cannot be set up, free it and leave it there; taking down what came up before then uses freed memory. ptp_intf_aggregate_instance_requirements writes multicast_needed to the configuration of the head of the list, which is the last instance, whereas the context copies the options of the first: an interface with two instances never joins the multicast groups. If the start fails after ptpd_init the global context is leaked, because on_shutdown is not run. The messages of ptp_on_run for a failure use the NULL pointer at which the loop over the instances ended. on_servo_pid_adjust does not free a message that is not meant for PTP.
* Sockets for bonds (C76): the masks of sockets are 64 bits but bits are made with `1 << idx` on an int (sfptpd_lacp.h:68-71, sfptpd_lacp.c:22,106,321), so with 8 or more links, 32 sockets, the shift is undefined (with gcc it sets the bits 31 to 63, whose sockets are descriptor 0). createBondSocks copies interfaceAddrLen bytes, 28 with IPv6, into a 16-byte struct sockaddr_in on the stack. setBondSockopt closes a socket for which an option fails but leaves it in the record of sockets for interfaces, so messages go to a closed descriptor, or to whatever has got the number since. Not modelled but seen: bond_info is dereferenced before the test for NULL, IPV6_MULTICAST_IF gets a whole request structure for these sockets, and their TTL is always set with IPPROTO_IP.
* Collection from other slaves (C77): monitor_obtain_rx_event_record inserts `&event` where event is already a pointer (sfptpd_ptp_monitor.c:359), so the database copies the pointer and the whole size of a record from the stack behind it; the record is overwritten by the callers at once, so the content is right if the read does not trap. The JSON line of a status takes "gm-id" from the reference port (line 881), which is never set, instead of grandmasterIdentity, so it is always zero.
* Authenticator (C78): MD5authencrypt puts the key number at word length/4 and the digest at octet length+4; for a length that is not a multiple of 4 the key number overwrites the end of the packet. No caller does that.
* Answers of the NTP daemon (C79): the numbers of packets received are never recorded, so a packet that comes twice is taken twice and an answer counts as whole although a packet is missing. Items are stored in the order of arrival and not of the sequence. Items larger than wanted are accepted in the first packet, and the caller then reads them at the wrong places. An error from 8 to 15 is looked up behind the end of the table of errors for a trace message, before it is compared with its size, at every trace level.
* Requests to the NTP daemon (C80): whether the items fit into the size of request in use is not checked; in the smallest one the time would overwrite more than 32 octets of items of an authenticated request. No caller has that many.
* Event monitoring (C59): on a change of master the place of the next record is computed before the reports are flushed, so the first event under the new master is lost and an old record is sent in its place. The rows of the transmit records overlap between three message kinds. A skip option beyond 32767 is accepted and stops reporting. The computed record is taken before the servo has processed the Sync.
* Link tables (C47, comments): the count of versions grows without bound, and after it wraps a lookup of an unknown version reads before the array. A read that breaks off leaves its table unsorted and a later comparison aborts. After a failed realloc the new capacity is kept with no rows.
* Threads and messages (C23): a waiting allocation can fail when two threads wait. Pool statistics drift after a failed send.
* Multicast (C46): the group is looked up before the lock is taken. Events are signalled although message buffers ran out.
* TLVs (C42): the sub-header of organisation TLVs is counted twice. One trailing octet lets an uninitialised type decide. The TLVs of PDelayReq are parsed at the wrong offset. Short report TLVs abort the monitor. A slave-status length below 6 wraps.
* Codec (C40, C41): a type-specific field is byte-reversed on decoding. Octet 46 of Announce is never written. Truth values are handled as four octets. PDelayReq writes 10 octets beyond the checked space. Management messages are read 46 octets beyond their end. The correction overflows in Delay_Resp. Negative seconds leave a field uninitialised.
* Pairing (C43-C45, C56, C57): a change of parent within SLAVE mixes Sync and FollowUp of two masters. An early FollowUp numbered 0 is lost. The correction of a two-step Sync is dropped. An early DelayResp is lost when one for another slave arrives. Peer response and follow-up can be from different peers.
* Timestamp cache (C58): a full cache reads out of bounds and evicts slot 0, not the oldest. The late-timestamp alarm can never be raised.
* ACL (C20): the mask 255.255.255.255 shifts by the width. "10.0.0.1/x" admits everyone. Over IPv6 the monitoring list looks at the flow label.
* Timers (C19): stopping leaves a latched expiry. A negative interval counts as running for ever.
* Engine (C36-C39, C50): a lost selection message leaves the selected instance untold. A pending candidate overrides a manual choice. The hold-off timer is not restarted. More than 16 clocks abort.
* Frequency (C54): a system clock request beyond half a tick step is not what the clock is given.
* Float conversion (C55): just below a whole second the conversion is undefined behaviour.
* BMC (C14-C18) and servo (C29, C30): see the notes in MANIFEST.json and the comments beside the theorems.

## 5. Print Assumptions

Every theorem in MANIFEST.json is followed by `Print Assumptions` in its Props file. For each of them it prints

    Closed under the global context

that is, no axiom is used, neither of the standard library nor of another one. (Loading `ZifyBool` and `Lqa` also loads modules of the standard library which contain axioms or module type parameters, such as `Coq.ssr.ssrunder`; no theorem depends on them.)

## 6. Wrong programs

`seeded/LOG.jsonl` records every edit of the model that was tried: the definition, the edit, the claim it breaks, and the theorems whose proofs then fail. An edit that changes no observable behaviour is recorded as such.
