{
"C01": {
"note": "All normalised operands; definedness characterised exactly (one corner where the C overflows although the sum is representable is exhibited). Aliasing of destination and operands proved on a memory model.",
"status": "proved"
},
"C02": {
"note": "is_greater_or_equal under the condition that the difference does not overflow.",
"status": "proved"
},
"C03": {
"note": "from_ns is exact only for |ns| < 2^31 (refuted beyond); to_ns16 exact in range but wraps between 140737 s and 281474 s (refuted); to_std_nearest can yield tv_nsec = 1e9. Floating point conversions are not modelled.",
"status": "partial"
},
"C04": {
"note": "Stiffness 1..128, any histories of updates and resets, any initial array contents; exact rational arithmetic in place of long double. Stiffness 0 shown to divide by zero.",
"status": "proved"
},
"C05": {
"note": "Exact rationals; all traces of update/reset/adjust/set_interval with positive interval and limit.",
"status": "proved"
},
"C06": {
"note": "Monotonic times non-decreasing and within 2^60 s; a backwards time aborts (exhibited).",
"status": "proved"
},
"C07": {
"note": "Square roots avoided by comparing squares; exact rationals.",
"status": "proved"
},
"C08": {
"note": "Exact rationals in place of long double; the final square root is not modelled (its argument is).",
"status": "proved"
},
"C09": {
"note": "Exact rationals for the float view; timestamps within range.",
"status": "proved"
},
"C10": {
"note": "All sequences of set/clear operations from init.",
"status": "proved"
},
"C11": {
"note": "Proved for every sorting function meeting the qsort contract, every policy containing the tie-break, at most one manually selected instance and no NaN among compared values; refuted when an instance reports a NaN Allan variance (C11_nan_no_best_refuted).",
"status": "partial"
},
"C12": {
"note": "For every pair not both manually selected.",
"status": "proved"
},
"C13": {
"note": "Asymmetry/totality proved unconditionally on values; transitivity proved without NaN and refuted with NaN; two manually selected instances refute antisymmetry.",
"status": "partial"
},
"C14": {
"note": "C14_rank: outside adjacent paths to one grandmaster the comparison is exactly the standard's order; C14_partial antisymmetry there. Refuted for adjacent paths (C14_refuted, C14_both_better_refuted): both can be better.",
"status": "partial"
},
"C15": {
"note": "Slave-only safety, the decision and the data set updates are proved. Refuted: a slave-only port with no qualified master is not sent to LISTENING (C15_listening_refuted); equal comparison gives FAULTY; own-grandmaster loop reads an uninitialised port number.",
"status": "partial"
},
"C16": {
"note": "Proved for coherent announces and a fixed expiry time (C16_partial). Refuted otherwise: order dependence, preference circles, no choice on a tie, stale best index when the time moves.",
"status": "partial"
},
"C17": {
"note": "Bounds, distinctness, eviction and expiry proved under stated conditions; refuted: out-of-bounds write after a decision on a full table, out-of-bounds move on expiry of a full table, duplicate records after the selected record expires.",
"status": "partial"
},
"C18": {
"note": "C18_only_if for all histories, C18_iff for the record. The window is the age of the oldest of the last two announces.",
"status": "proved"
},
"C19": {
"note": "Proved for running and never started timers after any history. Refuted: an expiry latched before the timer was stopped is still reported once afterwards (the exact condition is proved), and a timer started with a negative interval counts as running and never expires. Assumes the long double product is exact.",
"status": "partial"
},
"C20": {
"note": "Proved for every well formed text without a mask 255.255.255.255, every address and history, including admission of messages and TLVs, failing closed, single consultation and complete configuration text. Refuted: the mask 255.255.255.255 is undefined behaviour; a text such as 10.0.0.1/x is accepted and admits every address; over IPv6 the monitoring list is applied to the flow label.",
"status": "partial"
},
"C21": {
"note": "Full statement over the API that exists (add, update, iterate, clear, count). Findings: size 0 divides by zero; abandoned iteration keeps the lock.",
"status": "proved"
},
"C22": {
"note": "Proved for both stores for every legal call sequence and any sort function meeting qsort's contract (records of at most 4096 bytes for the array store, no sort keys in deletions: both exceptions are refuted findings).",
"status": "proved"
},
"C23": {
"note": "Proved over every history of pool set-up, allocation (waiting or not), sending, sending with a wait, replying, receiving and freeing by any number of threads that act only on messages they hold: each buffer of a pool is in exactly one place, once (C23_one_place, C23_no_duplicate); what was posted to a queue is what was taken from it followed by what it holds, headers and payloads unchanged (C23_in_order, C23_receive); an allocation that fails finds every buffer queued or held (C23_alloc); a send-wait returns with the message sent (C23_send_wait, C23_replies); pool pipes never hold more than the pool (C23_bounded). Also shown: an allocation that waits can still fail when two threads wait for one message (C23_waiting_refuted); the free/used statistics drift when a send fails (C23_statistics_partial, C23_statistics_refuted). Thread destruction is not modelled; a pipe that is full delays the write.",
"status": "proved"
},
"C24": {
"note": "The offset of any delivering read is proved to be that of one complete sample under every schedule; all outputs together only when fewer than 15 samples are published during the call. Refuted: timestamps re-read after the overrun check can be torn, the return code re-read can give a false success, an int counter makes the feed look empty after 2^32 samples.",
"status": "partial"
},
"C25": {
"note": "Freshness and maximum age proved for reads not overtaken; removed source and inactive clock proved. Refuted: require_fresh before the first read demands nothing; the age limit is skipped when the monotonic clock cannot be read.",
"status": "partial"
},
"C26": {
"note": "Proved for every history of add/remove/subscribe/unsubscribe/read. Refuted for shutdown: freed memory is read exactly when some offered source has no subscriber.",
"status": "partial"
},
"C27": {
"note": "Proved when the second sample is the newer; refuted in the other direction for every pair of times.",
"status": "partial"
},
"C28": {
"note": "C28_frequency/slave/reported over all servo histories; C28_limits, C28_correction, C28_save_state for the limits and the persisted correction. The bound includes half a unit of the kernel's frequency field (0.0076 ppb) for rounding.",
"status": "proved"
},
"C29": {
"note": "Only-if and if directions over all histories, at most one startup step, read-only and blocked clocks untouched. Refuted: 'no-step never steps' (the default epoch guard steps a clock near the epoch), 'the startup step is made' (lost if the slave is near the epoch and the guard is not correct-clock), 'a rejected step is reported as failure'.",
"status": "partial"
},
"C30": {
"note": "Prevent-sync holds for the reference clock, refuted for the slave; correct-clock behaviour, exact alarm condition and exact sustained failure condition over all histories proved; refuted: alarm-only raises an alarm for the reference; 'not synchronised while the sustained alarm is up'.",
"status": "partial"
},
"C31": {
"note": "Exact summary for every build-up of updates and merges, with sample magnitudes below the code's 1e100 sentinel (refuted beyond); long double modelled as exact rationals; counts modulo 2^64.",
"status": "proved"
},
"C32": {
"note": "Ranges and counts of every period and history slot equal the summary of exactly that interval's samples; intervals partition the history; sequence numbers and start/end times.",
"status": "proved"
},
"C33": {
"note": "Sound unconditionally; complete below the 2^32 wrap of the sample counter. A time reversal that stays above the window start does not restart the window: C33_time_reversal_refuted.",
"status": "proved"
},
"C34": {
"note": "Escaped leading blanks are lost and a zero-size token array overflows: refuted separately.",
"status": "proved"
},
"C35": {
"note": "Missing: no abort for every file is false (refuted: no section, two [general] sections, an instance named crny0, bounded multi-value options); proved under those exclusions.",
"status": "partial"
},
"C36": {
"note": "At most one instance is ever marked selected in the engine and the flags sent to the modules agree with it (proved for all histories); exactly one holds while every select message is delivered; refuted when a control message to a module is lost. A user's manual choice holds until a pending candidate's hold-off expires when the manual rule is not first (refuted in general).",
"status": "partial"
},
"C37": {
"note": "The elected candidate is the best, a switch needs the hold-off to have expired with the selected instance never having been best again since, a recovered instance keeps its place, a candidate still best at expiry is selected. Refuted: the timer is not restarted when the candidate changes or returns after a recovery, so the candidate itself need not have been better for the whole hold-off; with manual-startup and no hold-off the candidate stays pending for ever.",
"status": "partial"
},
"C38": {
"note": "Proved for all histories and failures: other clocks are stepped only by the timer, at the end of the day, for a leap second scheduled and not cancelled before its guard interval; at most once per schedule; cancelling means no step and an unscheduled system clock; servos suspended around it. Timestamp processing being re-enabled is proved when no call fails and refuted when arming a timer or a control message fails. Refuted: abandoned leap second still inserted by the system clock; step-forward applies it to only some clocks; local cancel test request aborts.",
"status": "partial"
},
"C39": {
"note": "The score is 0 if unused, 1 for the reference, the default without valid offsets, else 1/0 as the two masters are closer or further than the threshold (to 2^-32 ns). Refuted: an exactly zero offset counts as no offset; a failed clock comparison counts as identical clocks.",
"status": "partial"
},
"C40": {
"note": "Sent: Sync, Delay_Req, Pdelay_Req, Follow_Up, Delay_Resp, Pdelay_Resp, Pdelay_Resp_Follow_Up are exactly the standard's octets; Announce too except its reserved octet, which is never written (refuted). Received: every message kind decodes to the values sent, except that the header's type specific field comes out byte-reversed (refuted; partial for zero). Management/signaling/TLV field tables round-trip, except tables with a Boolean, which is handled as four octets (refuted). Follow_Up and Delay_Resp times are recovered exactly to 2^-16 ns for seconds below 2^48 (refuted above; negative seconds and correction overflow are undefined: refuted).",
"status": "partial"
},
"C41": {
"note": "Exact outcome for every datagram: rejected when shorter than a header, of unknown kind, or with fewer usable octets than the kind needs; otherwise decoded, and the decoded values written out again are the octets received; padding has no influence. Refuted parts: a management message with exactly 46 usable octets is read one octet too far; one claiming a TLV with 48 to 53 usable octets is accepted with a freed TLV; SLAVE_ONLY, PARENT_DATA_SET, PORT_DATA_SET, VERSION_NUMBER data over-read at the listed lengths; Pdelay_Req is written up to ten octets beyond its space.",
"status": "partial"
},
"C42": {
"note": "Model: processTLVs, the handlers' table, first and second pass handlers, the TLV packers. Exact for messages whose only organisation extension is the last TLV (C42_exact_partial); soundness, termination and bounds for any octets (C42_found_partial, C42_safe_partial). Refuted: organisation extensions are counted 6 octets too long; an uninitialised variable decides when one octet is left over; TLVs after a path delay request; short reports stop a collector; a status report of length < 6 is read beyond the message.",
"status": "partial"
},
"C43": {
"note": "For every history of messages from a port that waits for nothing: a measurement comes only from a Sync or a FollowUp (C43_only); with a one-step Sync or an early FollowUp both halves are of the same master and number (C43_sync); with a FollowUp after its Sync the receive time is that of the last Sync taken, same number, used once, and from the same master provided the parent was not replaced in between (C43_follow_partial). Pairs in order, and early FollowUps not numbered 0, always give their measurement. Refuted: replacement of the parent without leaving SLAVE mixes two masters; an early FollowUp numbered 0 is lost.",
"status": "partial"
},
"C44": {
"note": "The pairing itself is proved in full for every history (C44_pairs); that an answer gives its measurement is proved when the transmit timestamp is known first (C44_answered), and for an early answer only with provisos (C44_early_partial, C44_early_refuted).",
"status": "partial"
},
"C45": {
"note": "One-step: proved. Two-step: the correction is the FollowUp's alone, so the claim holds exactly when the Sync's is 0 (C45_two_step_partial), and is refuted otherwise.",
"status": "partial"
},
"C46": {
"note": "Histories of subscribe, publish, unsubscribe, unpublish and send by any number of threads, the send in the steps between which others can act. Proved: membership is exactly what the successful calls say and affects only the named group; each call succeeds or fails as stated; a send signals each event subscriber once and takes a buffer per message subscriber or gives all back; exactly one copy goes to each that subscribed when the buffers were taken; no group without members and no writer without subscription remains. Missing because false of the code: the group is looked up before the lock, so it may be freed in between (C46_race_refuted; C46_defined_partial while a member stays), and event subscribers are signalled although buffers run out (C46_all_or_none_refuted).",
"status": "partial"
},
"C47": {
"note": "Histories of reads from the kernel, of retrievals and of releases by any number of consumers that use a version only while it is theirs. Proved: versions are numbered 1, 2, 3...; a version can be had and says the same as long as one consumer has not released it; a read is put off exactly while the third newest version is held; a new version appears exactly if something significant differs, is sorted, has what the kernel last reported and the right events; a release reads only if reading was put off. Beside the claim, the model stops (undefined) after a read broken off before a complete round (C47_broken_refuted; C47_defined_partial otherwise) and on looking up a version released long ago (C47_stale_refuted). Not modelled: netlink message parsing, failed memory allocation, interfaces numbered 0 or less.",
"status": "proved"
},
"C48": {
"note": "n = 0 is a fault (C48_zero_size_refuted); the statement quantifies over n > 0.",
"status": "proved"
},
"C49": {
"note": "Full statement is false of the code: no truncation (abort or overrun), missing option read past the end, failure forgotten. Proved: whenever the expansion exists and fits, exactly it and its terminator are written; measuring gives its length.",
"status": "partial"
},
"C50": {
"note": "Proved: after reconfiguration every active slave clock has exactly one servo, with the selected reference as master and never driving its own master. Refuted: more than 16 clocks abort by assertion; after a lost selection message the servos keep the old reference.",
"status": "partial"
},
"C51": {
"note": "Creation and update type checks over every history.",
"status": "proved"
},
"C52": {
"note": "Rule-list parsing proved exact; the claim that no other option alters the policy is refuted (phc_pps_methods overwrites a rule).",
"status": "proved"
},
"C53": {
"note": "",
"status": "proved"
},
"C54": {
"note": "Holds for NIC clocks and small system clock requests; for larger system clock requests within half a tick step; refuted beyond that (540 ppm requested, 500 ppm given).",
"status": "partial"
},
"C55": {
"note": "Exact to floating point; from floating point rounded down to 2^-32 ns unless rounding the seconds to double reaches the next second, where the conversion is undefined behaviour (refuted with the IEEE rounding).",
"status": "partial"
},
"C56": {
"note": "Pairing by ticket and number proved for every history; refuted: that response and follow-up come from one peer, that the response's correction is kept, that a response before the transmit timestamp is used.",
"status": "partial"
},
"C57": {
"note": "FollowUp proved in full; the addressee of the peer follow-up needs that no later request failed to be answered (refuted otherwise).",
"status": "partial"
},
"C58": {
"note": "Proved: a new request with fewer than 32 waiting takes its own slot and disturbs no other (C58_expect); a returned packet answers exactly one request whose octets it ends with, or nothing that waits matches (C58_match); the check removes exactly the requests of that port that waited ten seconds (C58_check); over every history an answer goes to the request made for that packet, with the ticket given, and at most once (C58_found); every step is defined unless the cache is full (C58_defined_partial). Refuted: the late-timestamp warning is never raised (C58_never_alarmed, C58_alarm_refuted: a three-valued flag is compared with 1, which is OFF); with 32 waiting a new request reads beyond the table (C58_bounds_refuted) and, where that is harmless, it displaces slot 0 rather than the oldest (C58_full_partial, C58_oldest_refuted).",
"status": "partial"
},
"C59": {
"note": "For every history and options 0..32767: the selection and grouping of events (C59_groups), one report per group in order with the right source and size, numbering and destinations, and all contents except the first record of a group begun by a change of master with records waiting, and except sent messages when several kinds are sent (C59_reports); state reports exact (C59_status); everything exact with one master (C59_one_master_partial). Missing because false of the code: C59_change_refuted (the record's place is computed before the flush, so the first event under a new master is lost and an old record sent in its place), C59_tx_refuted (the records of three kinds of sent messages overlap), C59_skip_refuted (an option beyond 32767 is accepted and stops reporting). Not modelled: the encoding of the reports (C42), failures to send, times before 1970.",
"status": "partial"
},
"C60": {
"note": "Handling of PTP management messages from the octets of the datagram to the octets of the answer, for all ids. C60_silent, C60_effect_partial, C60_reply_partial, C60_unsent, C60_ranges, C60_kept, C60_read_only, C60_set_then_get, C60_defined_partial. Partial: slave-only requests need zero octets behind the truth value (C60_slave_only_refuted), the default data set's two-step bit is always 0 (C60_two_step_refuted), requests that end early are undefined behaviour (C60_truncated_refuted, C60_disabled_refuted, C60_text_refuted), a configured unicast address takes the answers (C60_destination_refuted).",
"status": "partial"
},
"C61": {
"note": "Whole life of the servo over any history: measurements, actions, integral, policies, limits, read-only clocks proved (C61_measured, C61_acts, C61_once, C61_never, C61_forward, C61_limit, C61_read_only). Partial: no request without control holds for all calls but the orders themselves; alarms only for frequency requests; definedness if the conversion to seconds does not round up. Refuted: uncontrolled clocks at reset, second step after restart, gains that are not numbers, mixing two clocks' measurements, alarms after steps and resets. Floating point is exact except the conversion's floor.",
"status": "partial"
},
"C62": {
"note": "Proved for every sequence of take-overs and releases, any contents of the two files: what chronyd reads afterwards, that only the section of sfptpd changes, that nothing is written when nothing has to change, and what a crash can leave if the section is at the end. False of the code, and refuted: the `service` command as a fallback, a crash while the section is in the middle of a file, a file whose last line has no newline (whole file taken as one line; with a size that is a multiple of the page size, a read beyond the mapping), a file with a NUL byte, a file ending in a lone BEGIN line. Failures of each system call are reported, except of fdopen (refuted).",
"status": "partial"
},
"C63": {
"note": "Proved for all requests, schedules and results of the system: the helper opens only /dev/ppsN and /dev/ptpN, each request gets an answer of its own kind in order, the daemon gets a descriptor or the error, at most one thread talks to the helper and gets the answer to its own request, no thread is shut out while nothing fails, fallback without the helper. False of the code, and refuted: a helper that dies after reading a request is taken for success with descriptor 0; the helper reads an unset request when the daemon has gone; send(2) failing leaves the lock held; the failing step of a connection is printed from an unset buffer; a socket is left open after EINPROGRESS.",
"status": "partial"
},
"C64": {
"note": "Proved for every documented command with every numeral, name (at most 127 bytes of text) and list of types; at most one effect per datagram, one whose word begins it, with parameters taken from it; signals; fan-out of gains; stepping; test modes; any number of commands other than dumptables and pid_adjust without ptp and pps; opening and closing when nothing fails. False of the code, and refuted: text that is not a number is taken for 0 and big numbers are cut; long names and datagrams are cut, names of 63 bytes are not terminated; local_leap_second_cancel fails an assertion; dumptables and some pid_adjust use up the message pool and block the daemon; a failed opening leads to a use after free. strtod is exact in the model.",
"status": "partial"
},
"C65": {
"note": "Proved: exactly which pulses are used and what they do; nothing else acts; the step policy, frequency limit and offset reported; states and alarms; the offset measured is right if the time of day error plus the fraction of the offset is under half a second; the engine knows of a signal, its alarms and failures after each poll; synchronized is bounded when there is no alarm; the time of day for one instance; definedness for under 2^31 operations. False of the code, and refuted: a time of day 0.15 s off gives an offset a second wrong; step-on-first-lock never steps; a step ignores the delay; the engine is not told of a return to listening, nor of anything the timer notices; an instance with alarms stays synchronized; the first pulse after a pause in processing is used unchecked; an offset it may not step is not reported; it steers without a time of day; instances share the time of day offset; starting without memory for the outlier filter reports success.",
"status": "partial"
},
"C66": {
"note": "Proved: soundness and completeness of reassembly, the round trip of variables and addresses, the octets of requests, the errors of codes 0-3, the peers if all are listed and answered, the selected peer, the outcome of the clock control command for answers of at least 18 bytes, and that waiting is defined unless the daemon sends an error code above 7. False of the code, and refuted: errors 5-255, fragments beyond the last, reading beyond the answer, unclosed brackets, missing values, skipped associations, more than 32 peers, failed lists and queries, stale answers.",
"status": "partial"
},
"C67": {
"note": "truthfulness, state, agreement of what was told, commands, cadence and synchronised are proved for all histories; told constraints, constraints, step, definedness and start are partial with refutations: after a failed question the old offset stays in the status; a refused command changes the constraints and the engine is never told; after two unanswered questions the instance no longer says that it must be selected though the daemon goes on disciplining; a refused command is never retried; after a step of the clock a peer that stays is never followed again, and a peer that vanishes for one answer is followed with the old measurement; as clustering determinant or selected, without a followed peer, it reads peers[-1]; if the first question fails it starts without taking the clock from the daemon",
"status": "partial"
},
"C68": {
"note": "proved for every life: reading of numbers, the requests, the connection, the state told and replied, consistency of the constraints, saving before any command, commands fitting looks and wishes, the cadence, blocking (if chronyd's control cannot be changed), indifference to foreign octets, the exact course and result of a round with NTP sources. Refuted: never a slave (issue_get_source_stats clears the selection just read), sources after a reference clock are lost, zero sources and silence leave the old state, -nx is not recognised, constraints change untold, the clock stays blocked after an outside restart was undone, the saved setting is never restored, and three ways to read or write outside the array of peers (a count of 2^31 or more, topology when selected, clustering determinant)",
"status": "partial"
},
"C69": {
"note": "proved: the search returns exactly if following VLANs and members ends, and then gives the first best NIC; success and failure of starting characterised; status, stepping and definedness over all histories; the two option parsers. Partial because the search does not end for a VLAN whose inner link is not in the table (C69_search_ends_refuted)",
"status": "partial"
},
"C70": {
"note": "proved: the set, active interface and error of plain, macvlan, active-backup, LACP, bridge and other bonds at any VLAN depth, errors, selection when the first member is up or has no hardware timestamps and none is marked active, timestamps exactly. Refuted: termination (VLANs naming each other), no active interface for an empty LACP set, an answer for an empty bond of another mode (assertion), a down member is not used while one is up, the active member of an active-backup bond is preferred",
"status": "partial"
},
"C71": {
"note": "proved: missing and unusable bonds, kind of timestamps, exact choice, settling after a second table, steering, timestamping on for members over all histories, the alarm in error cases, quiet tables, order over interfaces. Refuted: interface of the present set (the old one is used, one table late), reset of all servos (only the first), switching off when the kind changes too, alarm cleared without an interface, open errors of other than the last port, valid bond description (points to a dead stack variable after any change), tables given back on error, hardware timestamps on a capable interface",
"status": "partial"
},
"C72": {
"note": "Proved for every history: the engine's view, the exact condition and content of each event, soundness and completeness of 'synchronised', the threshold, publication, leap seconds, clustering input, control flags, distribution of grandmaster data, definedness. Refuted parts: traceability, offset and timestamp accuracy are not compared; the score belongs to the previous offset and is 0 in the answer; an out-of-range offset during an alarm does not count; software timestamping starts with the hardware threshold; a negative threshold aborts; a leap flag seen before selection is never announced; the clustering keeps a stale offset; unknown class is sent as freerunning; a discriminator in the same thread never answers and a failed comparison is used.",
"status": "partial"
},
"C73": {
"note": "Readings, precise method, configuration, fallback, second chance, steps and definedness are proved in full. The PPS difference is proved exact away from half a second, the choice at the start for non-empty device listings, the external input where it directly follows its clock; the rest of these claims is refuted, as is that an old PPS difference is ever given up and that no event is reported before the first.",
"status": "partial"
},
"C74": {
"note": "Refuted: stepping after an adapter was removed aborts; an adapter plugged in while running is never set; the PHC of an adapter that stays is not reopened when its index changes; a blocked clock counts as initially corrected; a negative difference never reaches the threshold; the result of a successful leap second request is taken for an error; the statistic of the system clock counts only failures; lookup by identity never finds a clock. The rest is proved for all histories.",
"status": "partial"
},
"C75": {
"note": "False as stated and refuted: a failing interface context or port leads to a use of freed memory, a later failure leaks the global context, an interface with two instances never joins the multicast groups, a socket that cannot be added to the thread is a NULL dereference, a message for other servos is not released. Everything else is proved.",
"status": "partial"
},
"C76": {
"note": "All parts proved for every history in which LACP bonds have at most 7 links and an IPv4 address, by an invariant over the operations and the exact effect of each. Missing and refuted: bonds of 8 to 16 links (the int 1 is shifted by 31, C76_many_refuted), IPv6 (the copy of the address overruns a struct sockaddr_in, C76_ipv6_refuted), and that a recorded socket is open after a socket option failed for it (C76_map_refuted; C76_map_partial without such failures).",
"status": "partial"
},
"C77": {
"note": "Proved for every history with at most 2^31 - 1 elements of a kind, by an invariant over the operations, whatever is read from the stack when a record is inserted. Missing and refuted: the insertion of a new Sync reads beyond a pointer (undefined behaviour, C77_insert_refuted), and the JSON output of a status always gives a null grandmaster (C77_gm_refuted; the text gives the right one).",
"status": "partial"
},
"C78": {
"note": "C78_digest: any message, any cutting, any initial memory and both byte orders give the digest of RFC 1321 (specified separately from the code, tried on the RFC's test suite). C78_mac: packet, key number and digest as stated if the length is a multiple of 4, defined exactly if there is room for 20 octets. C78_mac_refuted shows that the multiple of 4, which both callers ensure, is needed.",
"status": "proved"
},
"C79": {
"note": "Proved: memory safety for packets with errors of the protocol, packets of others ignored, errors and time-out, success needs the last packet, a whole answer in any order gives all items in the order of arrival (in order: exactly the answer), an answer with packets missing and none repeated is never taken for a whole one. The repetition with smaller requests is proved. Refuted: duplicates are dropped, the order of the sequence, items larger than wanted, errors above 7.",
"status": "partial"
},
"C80": {
"note": "C80_fit_refuted shows that the condition on the items is needed.",
"status": "proved"
}
}