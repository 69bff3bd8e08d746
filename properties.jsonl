{"id": "C01", "title": "Timestamp addition and subtraction are exact and normalised", "statement": "sfptpd_time_add(c,a,b) / sfptpd_time_subtract(c,a,b) on two normalised timestamps produce a normalised timestamp (nanoseconds in [0,1e9)) whose exact value, in units of 2^-32 ns, is the exact sum / difference of the operands' values, carries and borrows across all three fields included, whenever the result's seconds fit in int64; passing the destination as an operand gives the same answer; a+b-b = a.", "quantifier": "all normalised (sec,nsec,nsec_frac) triples over the whole int64/uint32 field ranges", "why_tests_cant": "2^192 input pairs; every carry/borrow combination on machine-width fields matters", "anchors": ["src/sfptpd_time.c: sfptpd_time_add, sfptpd_time_subtract, sfptpd_time_normalise, sfptpd_time_negate"]}
{"id": "C02", "title": "Timestamp comparison is a total order agreeing with elapsed time", "statement": "sfptpd_time_cmp(a,b) returns -1/0/1 exactly according to whether the time denoted by a is before/equal/after b, for all normalised timestamps; sfptpd_time_is_greater_or_equal(a,b) is true exactly when a is not before b, provided the difference's seconds fit in int64.", "quantifier": "all pairs of normalised timestamps", "why_tests_cant": "infinite/2^192 pairs; ordering laws are relational (transitivity, antisymmetry)", "anchors": ["src/sfptpd_time.c: sfptpd_time_cmp, sfptpd_time_is_greater_or_equal"]}
{"id": "C03", "title": "Unit conversions preserve the instant inside their documented range", "statement": "sfptpd_time_from_ns(ns) denotes exactly ns nanoseconds; sfptpd_time_to_ns16/from_ns16 round-trip scaled-nanosecond values and saturate out of range; conversion to/from struct timespec floors/rounds to nearest without producing an un-normalised result.", "quantifier": "all int64 nanosecond counts, all scaled-ns values, all timestamps", "why_tests_cant": "boundary behaviour over the whole 64-bit domain; the failing inputs (|ns| beyond 2^31, seconds above 140737) are far from what tests use", "anchors": ["src/include/sfptpd_time.h: sfptpd_time_from_ns, sfptpd_time_from_ns16, sfptpd_time_to_ns16, sfptpd_time_from_std_nearest, sfptpd_time_to_std_floor, sfptpd_time_to_std_nearest"]}
{"id": "C04", "title": "FIR filter output is the mean of the most recent samples", "statement": "After any sequence of sfptpd_fir_filter_update calls since init/reset, the value returned is the arithmetic mean of the last min(n, stiffness) samples supplied; older samples, and samples from before a reset, have no influence.", "quantifier": "all sample sequences of any length, all stiffness values 1..128", "why_tests_cant": "unbounded histories with ring wrap-around", "anchors": ["src/sfptpd_filter.c: sfptpd_fir_filter_init, sfptpd_fir_filter_reset, sfptpd_fir_filter_update, sfptpd_fir_filter_get_freq_adj"]}
{"id": "C05", "title": "PID filter: integral term bounded and output follows the PID law", "statement": "After any sequence of updates, the PID controller's integral term never exceeds its configured saturation limit in magnitude, the averaged interval used stays positive, the P term is k_p times the latest sample, and the frequency adjustment is the negated sum of the terms.", "quantifier": "all sequences of samples, intervals and resets, all gains", "why_tests_cant": "anti-windup must hold for every history, including adversarial ones", "anchors": ["src/sfptpd_filter.c: sfptpd_pid_filter_init, sfptpd_pid_filter_reset, sfptpd_pid_filter_update, sfptpd_pid_filter_set_interval"]}
{"id": "C06", "title": "Smallest filter returns the usable sample with the least aged path delay in its window", "statement": "After any sequence of updates (with non-decreasing monotonic times) and resets, the record returned by the smallest filter is one of the last min(n, window) records since the reset; if any of those is not timed out and has a non-negative delay, the returned one is such a record and none of them has a smaller delay plus ageing penalty; otherwise the newest record is returned. The filter never aborts.", "quantifier": "all sequences of updates of any length, all window sizes", "why_tests_cant": "unbounded histories and ties", "anchors": ["src/sfptpd_filter.c: sfptpd_smallest_filter_create, sfptpd_smallest_filter_update, sfptpd_smallest_filter_reset"]}
{"id": "C07", "title": "Outlier filters reject exactly what their rule says", "statement": "The notch filter accepts a value exactly when it lies within the configured half-width of the mid point. The Peirce filter, for every stream of samples, declares a sample an outlier exactly when at least five samples are stored and it deviates from the mean of the stored window by more than the tabulated criterion times the window's standard deviation; outliers are stored with the configured weight and it never aborts or indexes out of range.", "quantifier": "all values and configurations; all sample streams of any length", "why_tests_cant": "verdicts depend on unbounded histories through a ring buffer and running sums", "anchors": ["src/sfptpd_filter.c: sfptpd_notch_filter_init, sfptpd_notch_filter_update, sfptpd_peirce_filter_create, sfptpd_peirce_filter_update, peirce_filter_get_criterion"]}
{"id": "C08", "title": "Running standard deviation equals the statistic of the retained samples", "statement": "After any interleaving of add and remove of samples where only added samples are removed, the mean and variance reported equal the mean and population variance of the multiset of samples remaining, and the variance is never negative.", "quantifier": "all interleavings of add/remove of any length", "why_tests_cant": "multiset semantics over unbounded histories", "anchors": ["src/sfptpd_statistics.c: sfptpd_stats_std_dev_init, sfptpd_stats_std_dev_add_sample, sfptpd_stats_std_dev_remove_sample, sfptpd_stats_std_dev_get"]}
{"id": "C09", "title": "Offset and path delay recovered exactly on a symmetric path", "statement": "Once a PTP timestamp data set is complete, if the forward and return network delays (after removing the correction fields) are equal, the reported mean path delay is that delay and the reported offset from master is exactly slave clock minus master clock, for every pair of clocks and delays; with asymmetry a the error is exactly half the asymmetry.", "quantifier": "all clock offsets, delays, correction values and arrival orders of the timestamps", "why_tests_cant": "holds for all real-valued offsets and delays and all orders of arrival", "anchors": ["src/ptp/sfptpd_ptp_timestamp_dataset.c: sfptpd_ptp_tsd_set_m2s, sfptpd_ptp_tsd_set_s2m, sfptpd_ptp_tsd_set_p2p, sfptpd_ptp_tsd_get_offset_from_master, sfptpd_ptp_tsd_get_path_delay"]}
{"id": "C10", "title": "Timestamp set only complete when both directions were measured", "statement": "A PTP timestamp data set reports offset/path delay only after a master-to-slave timestamp and a slave-to-master (or peer delay) measurement have been supplied since the last reset/clear; before that no result is reported, whatever the order of messages.", "quantifier": "all sequences of set/clear operations", "why_tests_cant": "all message orders and losses", "anchors": ["src/ptp/sfptpd_ptp_timestamp_dataset.c: sfptpd_ptp_tsd_init, sfptpd_ptp_tsd_clear_m2s, sfptpd_ptp_tsd_clear_s2m, sfptpd_ptp_tsd_clear_p2p, set_delay_from_master"]}
{"id": "C11", "title": "Best-instance selection returns a maximal candidate and a permutation of ranks", "statement": "Automatic instance selection returns NULL only for an empty candidate list; otherwise it returns one of the candidates such that no other candidate is strictly better under the configured rule list, and the ranks assigned to the candidates are exactly 1..n, each once, with rank 1 for the chosen one.", "quantifier": "all numbers of candidates, all status values, all rule lists", "why_tests_cant": "any number of instances; depends on a sort with a user comparator", "anchors": ["src/sfptpd_bic.c: sfptpd_bic_choose, sfptpd_bic_select_instance, sfptpd_bic_compare_instances"]}
{"id": "C12", "title": "Selection criteria applied in lexicographic order", "statement": "Instance A is preferred to instance B iff at the first configured rule that distinguishes them, A is better (lower state priority, no alarms, lower user priority, higher clustering score, lower clock class/accuracy/variance/steps removed); a rule placed after BIC END marker never influences the choice.", "quantifier": "all pairs of statuses and all rule lists", "why_tests_cant": "rule lists and statuses combine unboundedly", "anchors": ["src/sfptpd_bic.c: sfptpd_bic_compare_instances and the compare functions table"]}
{"id": "C13", "title": "Instance comparison is a strict weak ordering", "statement": "For any three instances the comparison used to rank instances is antisymmetric and transitive (so the ranking is well defined and independent of list order).", "quantifier": "all triples of instance statuses and all rule lists", "why_tests_cant": "relational property over all triples; the failing case needs two manually selected instances", "anchors": ["src/sfptpd_bic.c: comparator functions (manual, external constraints, state, alarms, priority, clustering, class, accuracy, variance, steps removed, tie)"]}
{"id": "C14", "title": "Data set comparison algorithm is antisymmetric", "statement": "The PTP best-master data set comparison of any two announce data sets yields opposite results when the arguments are swapped, so two devices cannot both prefer themselves.", "quantifier": "all pairs of announce data sets and any local port identity", "why_tests_cant": "all combinations of GM identity, class, accuracy, variance, priorities, stepsRemoved, identities", "anchors": ["src/ptp/ptpd2/bmc.c: bmcDataSetComparison"]}
{"id": "C15", "title": "Best master clock state decision", "statement": "A slave-only port never enters MASTER or PASSIVE by the state decision; with no qualified foreign master a slave-only port goes to LISTENING; a port with clock class 1..127 goes to MASTER iff its own data set is better, otherwise PASSIVE; other ports become SLAVE exactly when the best foreign master is better than their own data set.", "quantifier": "all local data sets, foreign data sets, port states and configurations", "why_tests_cant": "all data sets and states", "anchors": ["src/ptp/ptpd2/bmc.c: bmcStateDecision, bmc, m1, p1, s1"]}
{"id": "C16", "title": "Best foreign master chosen is a best qualified record", "statement": "Over any table of foreign master records, the record chosen by the best master algorithm is qualified and no other qualified record compares better than it.", "quantifier": "all foreign master tables of any size", "why_tests_cant": "order independence over table permutations", "anchors": ["src/ptp/ptpd2/bmc.c: bmc, findBestMaster loops"]}
{"id": "C17", "title": "Foreign master table stays consistent", "statement": "Under any sequence of announce insertions and expiries, the foreign master table never holds two records with the same port identity, never exceeds its capacity, its best index designates a live record, and no operation touches memory outside the table.", "quantifier": "all sequences of announces and expiries of any length, any capacity", "why_tests_cant": "unbounded histories; the failing expiry case needs a particular table occupancy", "anchors": ["src/ptp/ptpd2/foreign.c: insertIntoForeignMasterDS, expireForeignMasterRecords, initForeignMasterDS, addForeign"]}
{"id": "C18", "title": "Foreign master qualification window", "statement": "A foreign master is treated as qualified only if at least FOREIGN_MASTER_THRESHOLD announce messages were received from it within the FOREIGN_MASTER_TIME_WINDOW preceding the decision.", "quantifier": "all announce arrival times", "why_tests_cant": "all arrival schedules", "anchors": ["src/ptp/ptpd2/foreign.c: isQualified-related functions; src/ptp/ptpd2/bmc.c"]}
{"id": "C19", "title": "Interval timers expire when and only when due", "statement": "A timer started with an interval of n ticks (rounded down, at least one) expires after exactly n, 2n, 3n, ... ticks; polling it reports an expiry if and only if there has been one since it was started or last polled; a timer that is stopped or was never started is never reported as expired; timers do not affect one another.", "quantifier": "all sequences of start/stop/tick/poll operations", "why_tests_cant": "all schedules", "anchors": ["src/ptp/ptpd2/dep/timer.c: timerTick, timerStop, timerStart, timerExpired"]}
{"id": "C20", "title": "Access control lists accept exactly the documented addresses", "statement": "A list compiled from texts that list networks (hosts, prefixes or masks, separated by commas, spaces, semicolons or tabs) accepts, with order allow-deny, exactly the addresses in the allow list and not in the deny list, and with deny-allow exactly those not (denied and not allowed); a text that does not list networks is rejected and a rejected enabled list lets nothing through; messages and TLVs are processed only if every enabled list that guards them accepts the sender; no text causes undefined behaviour.", "quantifier": "all texts, all IPv4 addresses, both orders, all histories of received messages", "why_tests_cant": "2^32 addresses times unbounded texts; the failing masks and typing errors are unusual", "anchors": ["src/ptp/ptpd2/dep/ipv4_acl.c: parseAclEntry, maskParser, createIpv4AccessList, matchAddress, matchIpv4AccessList", "src/ptp/ptpd2/protocol.c: checkACL, checkACLmask, processMessage", "src/ptp/sfptpd_ptp_config.c: parse_ptp_acl_list"]}
{"id": "C21", "title": "Hash table behaves as a finite map", "statement": "Under any sequence of add, update, iterate, clear and count operations the hash table behaves as a bounded finite map keyed by the entry key: iteration visits exactly the entries last added or updated for each key, once each; adding a duplicate fails without change unless an update is asked for; adding beyond the capacity fails without change; the count is the number of entries.", "quantifier": "all operation sequences, any hash function values", "why_tests_cant": "collisions and unbounded histories", "anchors": ["src/sfptpd_misc.c: sfptpd_ht_alloc, sfptpd_ht_add, sfptpd_ht_get_first, sfptpd_ht_get_next, sfptpd_ht_delete, sfptpd_ht_clear_entries"]}
{"id": "C22", "title": "In-memory database table returns exactly the live matching records", "statement": "Under any sequence of insert, delete, find, count, query, get and update calls on a database table (linked-list or array store), every answer is the one the live records determine: a query returns exactly the records inserted, matching and not deleted, each once and in the requested order; counts agree; a find returns a matching record if there is one; an insert returns a reference not in use; references stay valid until their record is deleted; the table can always be freed.", "quantifier": "all operation sequences, any predicates", "why_tests_cant": "free-list reuse over unbounded histories", "anchors": ["src/sfptpd_db.c: sfptpd_db_table_insert, sfptpd_db_table_delete_impl, sfptpd_db_table_find_impl, sfptpd_db_table_foreach_impl"]}
{"id": "C23", "title": "Message pools conserve messages; queues are FIFO", "statement": "For every interleaving of allocate/free/send/receive, each message buffer is at any time in exactly one of: free pool, one queue, or owned by one component; nothing is lost or duplicated; messages are delivered to a component in the order they were posted; allocation fails only when all buffers are in use.", "quantifier": "all interleavings of operations by all threads", "why_tests_cant": "all schedules", "anchors": ["src/sfptpd_thread.c: sfptpd_msg_alloc, sfptpd_msg_free, sfptpd_msg_post, queue functions"]}
{"id": "C24", "title": "Clock feed readers never see a torn sample", "statement": "A clock comparison returned to a subscriber (offset, and the timestamps reported with it) comes from one single sample written by the clock feed, however the reader's steps interleave with the feed's writes.", "quantifier": "all interleavings of one reader with any number of feed writes", "why_tests_cant": "concurrency: all schedules", "anchors": ["src/sfptpd_clockfeed.c: clockfeed_compare_to_sys, clockfeed_on_timer"]}
{"id": "C25", "title": "Clock feed freshness", "statement": "After sfptpd_clockfeed_require_fresh, a comparison succeeds only with a sample written after the last sample consumed by that subscriber; with a max age set, never returns a sample older than the max age; a removed source yields an error, never old data.", "quantifier": "all histories of writes, reads and require_fresh calls", "why_tests_cant": "all histories", "anchors": ["src/sfptpd_clockfeed.c: sfptpd_clockfeed_require_fresh, sfptpd_clockfeed_set_max_age, clockfeed_compare_to_sys"]}
{"id": "C26", "title": "Clock feed source lifetime", "statement": "A clock feed source is freed only when it has been removed and has no subscribers, is freed at most once, and no freed source is ever accessed, for every sequence of add/remove/subscribe/unsubscribe/shutdown.", "quantifier": "all operation sequences", "why_tests_cant": "unbounded histories; failing case needs zombies at shutdown", "anchors": ["src/sfptpd_clockfeed.c: clockfeed_on_add_clock, clockfeed_on_remove_clock, clockfeed_on_subscribe, clockfeed_on_unsubscribe, clockfeed_reap_zombies, clockfeed_on_shutdown"]}
{"id": "C27", "title": "Age difference between two compared clocks is bounded", "statement": "When a maximum age difference is configured, comparing two clocks via their feeds fails unless the two samples' monotonic timestamps differ by at most that amount, in either direction.", "quantifier": "all pairs of samples", "why_tests_cant": "symmetric boundary over all timestamps", "anchors": ["src/sfptpd_clockfeed.c: sfptpd_clockfeed_compare"]}
{"id": "C28", "title": "Servo frequency adjustments never exceed the clock's limit", "statement": "Every frequency adjustment that the clock servo applies has magnitude at most the slave clock's maximum frequency adjustment, for every history of samples; and a clock is frequency-adjusted or stepped only when clock control permits it.", "quantifier": "all sample histories, all configurations of clock control and thresholds", "why_tests_cant": "unbounded histories", "anchors": ["src/sfptpd_servo.c: do_servo_synchronize, servo_step_clock, sfptpd_servo_step_clock"]}
{"id": "C29", "title": "Clock stepping only when permitted", "statement": "The servo steps the slave clock only if clock control is step-at-startup and not yet stepped (or on first lock), step always, step-forward with a positive correction, or an explicit user request, and when |offset| is at least the step threshold; with no-step or no-adjust clock control it never steps on its own.", "quantifier": "all offsets, thresholds, control modes and histories", "why_tests_cant": "all histories of modes and offsets", "anchors": ["src/sfptpd_servo.c: do_servo_synchronize"]}
{"id": "C30", "title": "Epoch guard and sustained failure alarms", "statement": "With epoch guard set to prevent synchronisation, a slave or master clock near the epoch is never used to synchronise; the sustained sync failure alarm is raised only after failures have persisted for at least the configured limit without an intervening success and cleared at the next success.", "quantifier": "all histories of synchronisation outcomes and times", "why_tests_cant": "all histories", "anchors": ["src/sfptpd_servo.c: do_servo_synchronize, sfptpd_servo_run, sustained failure handling"]}
{"id": "C31", "title": "Statistics ranges are exact extrema", "statement": "After any sequence of samples the recorded min/max/mean/count of a statistics range are the exact minimum, maximum, mean and number of the qualified samples supplied, including when ranges are merged.", "quantifier": "all sample sequences and all partitions into merged parts", "why_tests_cant": "unbounded histories and merge trees", "anchors": ["src/sfptpd_statistics.c: stats_range_update, stats_range_add, stats_count"]}
{"id": "C32", "title": "Statistics roll-up loses and duplicates nothing", "statement": "Every sample is accounted exactly once in each of the minute, 10-minute, hour, day and week history; the newest completed interval of each period is the aggregate of exactly the samples in that interval.", "quantifier": "all sample sequences and any number of period ends", "why_tests_cant": "unbounded histories with five nested periods", "anchors": ["src/sfptpd_statistics.c: sfptpd_stats_collection_end_period, stats_history_end_period"]}
{"id": "C33", "title": "Convergence declared only after sustained in-range offsets", "statement": "Convergence is reported at time t only if the current sample is in range and the history contains an in-range sample at least the minimum period older than t, after which there was no reset and no out-of-range sample; and it is reported whenever that holds (history shorter than 2^32-1 samples). With non-decreasing times: every sample in the window was in range.", "quantifier": "all sample/time sequences", "why_tests_cant": "all histories", "anchors": ["src/sfptpd_statistics.c: sfptpd_stats_convergence_update, sfptpd_stats_convergence_reset"]}
{"id": "C34", "title": "Configuration tokenizer is memory-safe and inverse to quoting", "statement": "For every input line and token limit, the tokenizer never reads or writes outside the line buffer or token array, returns at most the limit, and recovers exactly the words from any line produced by quoting/escaping words.", "quantifier": "all strings of any length, all token limits", "why_tests_cant": "all strings", "anchors": ["src/sfptpd_config.c: sfptpd_config_tokenize"]}
{"id": "C35", "title": "Configuration options respect scope", "statement": "If a configuration file is accepted, every option in it is one of its section's category, allowed there and with the right number of parameters; the settings of each section are the built-in ones and then, in file order, the options of its global section and its own; the instances are those declared (or the implicit crny0). Any other line stops parsing with an error; no file aborts the program.", "quantifier": "all option tables, all files of any length, all option parsers", "why_tests_cant": "all files and tables", "anchors": ["src/sfptpd_config.c: config_parse_option, config_syntax_check, config_is_new_section, sfptpd_config_parse_file, sfptpd_config_section_add", "src/sfptpd_general_config.c: parse_sync_module, validate_config"]}
{"id": "C36", "title": "Exactly one selected sync instance", "statement": "At every point after initialisation with a non-empty instance list at most one sync instance is selected in the engine, and sync modules receive selected/deselected control flags consistently with it.", "quantifier": "all histories of instance state changes, user selections and timers", "why_tests_cant": "all event orders", "anchors": ["src/sfptpd_engine.c: select_sync_instance, on_select_instance, on_sync_instance_state_changed"]}
{"id": "C37", "title": "Selection hold-off", "statement": "In automatic mode with hold-off h, the engine switches to a candidate only after that candidate has continuously been better than the selected instance for at least h; if the selected instance recovers in between, no switch occurs.", "quantifier": "all histories of state changes and timer events", "why_tests_cant": "timing over all schedules", "anchors": ["src/sfptpd_engine.c: on_sync_instance_state_changed, on_selection_holdoff_timer"]}
{"id": "C38", "title": "Leap second state machine", "statement": "The engine never applies a leap second step without one being scheduled and not cancelled, never before the end of the UTC day, and at most once per schedule; timestamp processing disabled before a leap second is always re-enabled afterwards; cancelling a leap second before its guard interval means no step; either every clock takes the leap second or none does.", "quantifier": "all histories of schedule/cancel/test/timer events", "why_tests_cant": "all event orders and failures", "anchors": ["src/sfptpd_engine.c: on_schedule_leap_second, on_cancel_leap_second, on_test_leap_second, on_leap_second_timer"]}
{"id": "C39", "title": "Clustering score", "statement": "With a clustering reference configured, the score of an instance is 1 if its master's time is within the threshold of the reference's master's time and 0 if it is not, 1 for the reference itself, and the configured default when there is no evidence (no valid offset, or clocks that cannot be compared); without a reference it is 0. The guard rejects exactly the scores below its threshold.", "quantifier": "all offsets and configurations", "why_tests_cant": "all values", "anchors": ["src/sfptpd_engine.c: sfptpd_engine_calculate_clustering_score"]}
{"id": "C40", "title": "PTP message encode/decode round-trips", "statement": "The octets of every PTP message the daemon sends are those of the IEEE 1588 layout for the port's data; decoding the layout of any Announce, Sync, Follow_Up, Delay_Req, Delay_Resp, Pdelay_* message gives back the field values; management and TLV field tables pack to their description and unpack to the same values; a time sent in a Follow_Up or Delay_Resp is recovered from timestamp and correction exactly to 2^-16 ns.", "quantifier": "all field values", "why_tests_cant": "2^(8*64) messages", "anchors": ["src/ptp/ptpd2/dep/msg.c: msgPackHeader, msgUnpackHeader, msgPackAnnounce, msgUnpackAnnounce, msgPackSync, msgUnpackSync, msgPackFollowUp, msgUnpackFollowUp, msgPackDelayReq, msgPackDelayResp, msgUnpackDelayResp"]}
{"id": "C41", "title": "Message decoding never reads beyond the received bytes", "statement": "For every received datagram of any length and contents, decoding either rejects it or reads only octets that were received and that the message's own length covers, and what is accepted stands for exactly those octets; octets beyond the claimed length have no influence; packing never writes beyond the space given.", "quantifier": "all datagrams of all lengths", "why_tests_cant": "adversarial input", "anchors": ["src/ptp/ptpd2/dep/msg.c: msgUnpack*, msgPack*, CHECK_INPUT_LENGTH, CHECK_OUTPUT_LENGTH"]}
{"id": "C42", "title": "TLV parsing terminates, stays in bounds and sees each TLV", "statement": "For every message, the TLV parser terminates, never touches bytes beyond the message, dispatches exactly the TLVs present in order, each with its own contents, and only ones permitted for the message type and ACLs.", "quantifier": "all message bodies", "why_tests_cant": "adversarial input, unbounded number of TLVs", "anchors": ["src/ptp/ptpd2/protocol.c: processTLVs; src/ptp/ptpd2/dep/msg.c: msgUnpackTLVHeader, msgUnpackOrgTLVSubHeader"]}
{"id": "C43", "title": "Sync/FollowUp pairing", "statement": "The slave servo is only ever given master-to-slave timestamps in which the origin time and receive time belong to the same Sync event (same sequence number, current parent), whatever the order, loss or duplication of Sync and FollowUp messages.", "quantifier": "all sequences of Sync/FollowUp messages from any senders", "why_tests_cant": "all message schedules", "anchors": ["src/ptp/ptpd2/protocol.c: handleSync, handleFollowUp"]}
{"id": "C44", "title": "DelayReq/DelayResp pairing", "statement": "Slave-to-master timestamps given to the servo always pair the transmit timestamp of a DelayReq with the receive timestamp of the DelayResp answering that same DelayReq, including when the DelayResp arrives before the transmit timestamp.", "quantifier": "all sequences of requests, transmit timestamps and responses", "why_tests_cant": "all message schedules", "anchors": ["src/ptp/ptpd2/protocol.c: handleDelayResp, processDelayReqFromSelf, issueDelayReq, stash_message"]}
{"id": "C45", "title": "Corrections are applied completely", "statement": "For two-step masters the correction applied to a master-to-slave measurement is the sum of the Sync and FollowUp correction fields.", "quantifier": "all correction field values", "why_tests_cant": "all values and sequences", "anchors": ["src/ptp/ptpd2/protocol.c: handleSync, handleFollowUp"]}
{"id": "C46", "title": "Internal multicast reaches every subscriber exactly once or nobody", "statement": "Sending to a multicast group delivers exactly one copy to each current subscriber of that message id, or, if buffers run out, to none; publish/unpublish/subscribe/unsubscribe affect only that group; a group with no publishers and subscribers leaves no residue.", "quantifier": "all histories of (un)subscribe/(un)publish/send and buffer exhaustion points", "why_tests_cant": "all histories", "anchors": ["src/sfptpd_multicast.c: sfptpd_multicast_send, sfptpd_multicast_subscribe, sfptpd_multicast_unsubscribe, sfptpd_multicast_publish, sfptpd_multicast_unpublish"]}
{"id": "C47", "title": "Link table snapshots stay alive while referenced", "statement": "A link table version given to a consumer is never modified or reused until every consumer has released it; versions are handed out in increasing order.", "quantifier": "all histories of table updates and releases", "why_tests_cant": "all schedules", "anchors": ["src/sfptpd_netlink.c: sfptpd_netlink_get_table, sfptpd_netlink_release_table, sfptpd_netlink_service_fds"]}
{"id": "C48", "title": "Bounded string copy", "statement": "sfptpd_strncpy(dest,src,n) for n>0 always NUL-terminates dest, copies the longest prefix of src of length < n, and writes only the n bytes of dest.", "quantifier": "all strings and sizes", "why_tests_cant": "all strings", "anchors": ["src/sfptpd_misc.c: sfptpd_strncpy"]}
{"id": "C49", "title": "Daemon state formatting is bounded", "statement": "sfptpd_format never writes beyond the supplied buffer, always terminates the output, and expands exactly the escapes in the specifier table, for every format string and buffer size.", "quantifier": "all format strings, buffer sizes and context", "why_tests_cant": "all strings", "anchors": ["src/sfptpd_misc.c: sfptpd_format"]}
{"id": "C50", "title": "Servo sharing per slave clock", "statement": "After servo reconfiguration every active slave clock has exactly one servo, the servo's master is the selected reference, and no servo drives its own master.", "quantifier": "all clock tables and selections", "why_tests_cant": "all configurations", "anchors": ["src/sfptpd_engine.c: reconfigure_servos"]}
{"id": "C51", "title": "A statistics collection is a type-checked partial map", "statement": "Creating a collection succeeds exactly when the statistic identifiers are distinct (EEXIST otherwise); after any history an update is accepted exactly for a statistic declared with that type, and a refused update changes nothing.", "quantifier": "all definition lists, all operation histories, all identifiers below the limit", "why_tests_cant": "unbounded definitions and histories", "anchors": ["src/sfptpd_statistics.c: sfptpd_stats_collection_create, sfptpd_stats_collection_add, stats_collection_type_check, sfptpd_stats_collection_update_range, sfptpd_stats_collection_update_count"]}
{"id": "C52", "title": "Selection rule lists are parsed exactly", "statement": "A configured list of selection rules is accepted exactly when it has at most ten entries, each naming a known rule and none repeated; the policy in force is then those rules in that order followed by the tie-break, so every comparison of instances is decided.", "quantifier": "every list of parameter strings and every previous policy array", "why_tests_cant": "unbounded set of parameter lists and prior array contents", "anchors": ["src/sfptpd_general_config.c: parse_selection_policy_rules, parse_phc_pps_methods", "src/sfptpd_bic.c: sfptpd_default_selection_policy"]}
{"id": "C53", "title": "Announce interval in use", "statement": "The announce interval a port uses is the longest interval given by any master currently in its table, limited to the supported range -4..4, or the configured default if no master gives one.", "quantifier": "all foreign master tables and intervals", "why_tests_cant": "all combinations of given and undefined intervals", "anchors": ["src/ptp/ptpd2/bmc.c: ptpd_update_announce_interval"]}
{"id": "C54", "title": "A requested frequency is what the clock is given", "statement": "The frequency adjustment handed to the kernel for a clock equals the requested one, limited to the clock's maximum, to within the resolution of the kernel's frequency field.", "quantifier": "all clocks (system clock with any tick rate dividing 100000, NIC clocks) and all requested frequencies", "why_tests_cant": "the split between tick length and frequency field depends on the request over a continuous range", "anchors": ["src/sfptpd_clock.c: sfptpd_clock_adjust_frequency, new_system_clock"]}
{"id": "C55", "title": "Floating point time conversions", "statement": "A timestamp converted to floating point nanoseconds or seconds denotes the same instant; a floating point time converted to a timestamp gives the normalised timestamp denoting it, rounded down to the resolution 2^-32 ns; scaled nanoseconds convert exactly or saturate.", "quantifier": "all timestamps and all times in range", "why_tests_cant": "all values, including those that round up to a whole second", "anchors": ["src/include/sfptpd_time.h: sfptpd_time_float_ns_to_timespec, sfptpd_time_float_s_to_timespec, sfptpd_time_timespec_to_float_ns, sfptpd_time_float_ns_to_scaled_ns"]}
{"id": "C56", "title": "Peer delay measurements pair a request with its own response and follow-up", "statement": "The peer delay measurement given to the servo combines the transmit timestamp of the last peer delay request sent, the receive timestamp and contents of the response to it and, for two-step peers, the contents of that response's follow-up, all carrying the request's number, addressed to this port and from one peer, corrected by both correction fields; each request gives at most one measurement.", "quantifier": "every history of peer delay requests, transmit timestamps, responses and follow-ups, in any order, with loss, duplication and failed sends, and every change of state or master in between", "why_tests_cant": "The pairing depends on the whole history of what was sent, stamped and received; tests try a few orders.", "anchors": ["src/ptp/ptpd2/protocol.c: issuePDelayReq, processPDelayReqFromSelf, handlePDelayResp, handlePDelayRespFollowUp, processTxTimestamp"]}
{"id": "C57", "title": "Follow-ups carry the transmit timestamp of the message they follow", "statement": "Every FollowUp sent carries the number of the last Sync sent and the transmit timestamp of that Sync (plus the configured latency), with at most one for each Sync; every PDelay_Resp_Follow_Up goes to the requester of the last answered peer delay request and carries the transmit timestamp of that answer.", "quantifier": "every history of Syncs sent, peer delay requests answered or not answered, and transmit timestamps arriving in any order, late or never", "why_tests_cant": "Late and lost transmit timestamps can arrive after any later message; every interleaving matters.", "anchors": ["src/ptp/ptpd2/protocol.c: issueSync, issueFollowup, handlePDelayReq, issuePDelayResp, issuePDelayRespFollowUp, processTxTimestamp"]}
{"id": "C58", "title": "Transmit timestamps go to the packet they belong to", "statement": "A transmit timestamp that comes back with a copy of a packet is given to the request made for that packet and to no other, at most once; nothing but an answer or ten seconds of waiting takes a request away, except that when 32 are waiting the oldest makes room for the new one; a warning is raised when a timestamp is a second late.", "quantifier": "every history of packets sent, packets looped back with timestamps (in any order, duplicated, foreign or never), and periodic checks for any port", "why_tests_cant": "The 32-slot cache is shared by all ports on an interface; wrap-around, out-of-order and lost timestamps give unboundedly many histories.", "anchors": ["src/ptp/ptpd2/dep/net.c: netExpectTimestamp, netMatchPacketToTsCache, netCheckTimestampAlarms, sfptpd_ts_cache_init", "src/ptp/ptpd2/datatypes.h: struct sfptpd_ts_cache"]}
{"id": "C59", "title": "Event monitoring reports", "statement": "Every event that the monitoring options select (the first and then one after every so many) is reported exactly once, in order, in reports of eight, naming the master it happened under and with its own contents, to every destination, in messages numbered in sequence; nothing else is reported.", "quantifier": "all option settings, all sequences of completed Syncs, sent event messages, state reports and changes of master", "why_tests_cant": "records are collected over many events in shared buffers; wrong contents need a change of master or another kind of message at the right moment", "anchors": ["src/ptp/ptpd2/evtmon.c: rxSyncTimingDataMonitor, rxSyncComputedDataMonitor, egressEventMonitor, slaveStatusMonitor, sendMonitoringMessage", "src/ptp/ptpd2/datatypes.h: slave_tx_event_timestamps_records", "src/ptp/sfptpd_ptp_config.c: parse_mon_rx_sync_timing_data"]}
{"id": "C60", "title": "Management requests are answered and obeyed exactly as permitted", "statement": "A management request addressed to this port gets exactly one answer, to the destination due, in the standard's format, with the requested data or the error status due; settings change as requested if changes are permitted and not otherwise, and nothing else changes; messages that are not requests for this port change nothing and are not answered; no message leads to undefined behaviour.", "quantifier": "all datagrams, all contents of the buffers, all configurations, settings and data set contents, all sequences of requests", "why_tests_cant": "the answer depends on every octet of the request, on some left over from earlier messages and on all settings; dangerous messages are those that end at a particular octet", "anchors": ["src/ptp/ptpd2/management.c: handleManagement, handleMM*, initOutgoingMsgManagement", "src/ptp/ptpd2/dep/msg.c: msgUnpackManagement, msgPackManagementTLV, unpackMM*, packMM*", "src/ptp/ptpd2/protocol.c: handleManagement, issueManagementRespOrAck, issueManagementErrorStatus"]}
{"id": "C61", "title": "The PTP slave follows the master as its measurements and policy say", "statement": "The offset and path delay reported by the PTP slave are those of the measurements since the last reset, filtered as configured; each call asks of the clock exactly what the clock control policy, the threshold, the gains and the measurement require, within the clock's limits; steps happen only when permitted, once or forward only where the policy says so; nothing is asked of a clock that is not controlled; alarms and counters say what happened; nothing is undefined.", "quantifier": "all options, clocks, measurements (complete or missing, in any order), answers of the operating system and all sequences of calls, including resets, changes of clock and restarts", "why_tests_cant": "the state depends on all earlier measurements through three filters and an integral; the dangerous orders involve resets, restarts and changes of clock between two halves of a measurement", "anchors": ["src/ptp/ptpd2/dep/servo.c: servo_init, servo_reset, servo_set_slave_clock, servo_provide_*_ts, servo_missing_*_ts, servo_update, servo_update_clock, servo_step_clock, servo_control, servo_pid_adjust, servo_reset_counters", "src/sfptpd_filter.c: sfptpd_smallest_filter_*", "src/ptp/ptpd2/ptpd_lib.c: ptpd_step_clock, ptpd_control, ptpd_pid_adjust, ptpd_change_interface"]}
{"id": "C62", "title": "Taking the clock away from chronyd and giving it back edits its environment files and nothing else in them", "statement": "When sfptpd asks chronyd to stop controlling the clock, or gives it back, the environment file of chronyd's service then makes the service start with exactly the requested behaviour; everything else the administrator wrote in the file is kept, in order; giving back restores the file; repeating a request changes nothing; a crash in the middle leaves the old or the new file; the service is restarted exactly when needed; errors are reported; nothing is undefined.", "quantifier": "all contents of the environment files, all sequences of requests, all results of the system calls and of the restart command, and a crash at any write", "why_tests_cant": "the file is the administrator's: any text may be in it, with sections left by earlier versions, comments, continuation lines or no final newline; crash points lie between writes to a mapping", "anchors": ["src/crny/sfptpd_crny_helper.c: sfptpd_crny_helper_control, edit_env"]}
{"id": "C63", "title": "The privileged helper does only what it is for, and answers each request of the daemon", "statement": "Whatever it is sent, the privileged helper opens only PPS and PTP devices, connects to chronyd and controls chronyd when asked; it answers every request once, in order, with the result and, if a descriptor was obtained, the descriptor; it keeps none open. The daemon, in any number of threads, gets the answer to its own request, and falls back to doing it itself when the helper is not there. No call waits for ever. Failures are reported with the step that failed.", "quantifier": "all sequences of requests (any bytes in the path), all interleavings of the threads that call, all results of the system calls, failures at any point", "why_tests_cant": "the path is attacker-controlled if the daemon is compromised; interleavings of threads and the death of either process at each point cannot be enumerated", "anchors": ["src/priv_helper/sfptpd_priv_helper.c: server, op_open_chrony, op_open_dev, op_chrony_control", "src/sfptpd_priv.c: sfptpd_priv_rpc, sfptpd_priv_open_chrony, sfptpd_priv_open_dev, sfptpd_priv_chrony_control", "src/crny/sfptpd_crny_helper.c: sfptpd_crny_helper_connect", "src/crny/sfptpd_crny_module.c: crny_connect"]}
{"id": "C64", "title": "Commands on the control socket and signals do what they are documented to do, and nothing else", "statement": "Each documented command (exit, logrotate, stepclocks, dumptables, selectinstance=name, testmode=name with up to three integers, pid_adjust with three gains, types of servo and reset) has its effect, once, with the numbers given; signals have the effect of the corresponding command. Any other datagram has no effect. Gains reach exactly the types of servo named. Stepping the clocks moves the selected instance by its offset and each other clock by the sum of the offsets. A test mode has no effect unless testing is enabled. Any number of commands can be given. If the socket cannot be opened the error is reported.", "quantifier": "all datagrams (any bytes, any length), all names and numerals, all signals, all sequences of commands, all results of the calls that open the socket, any number of servos and instances", "why_tests_cant": "the grammar is infinite (names, numerals in three bases, decimal fractions, lists); messages kept by a command show only after hundreds of commands; failures at start-up are many", "anchors": ["src/sfptpd_control.c: sfptpd_control_socket_open, sfptpd_control_socket_get_action, sfptpd_control_socket_close", "src/sfptpd_main.c: main_on_signal, on_control_socket_fd", "src/sfptpd_engine.c: on_step_clocks, on_select_instance, on_configure_test_mode, sfptpd_engine_schedule_leap_second", "src/sfptpd_clockfeed.c: clockfeed_on_dump_tables"]}
{"id": "C65", "title": "A PPS instance uses only a trusted signal, disciplines its clock within policy and limits, and tells the truth about itself", "statement": "A pulse has an effect only when the instance has a signal, processes timestamps, and the last three periods are one second give or take a tenth, and then unless the period is an outlier: the offset (seconds from the time of day, fraction from the pulse, less the delay) is measured, the clock is stepped if the policy allows and it is at least half a second off, or else steered by the averaged offset within the frequency limit; not in control, the clock is left alone. Alarms and states say when the signal is absent, bad, out of sequence or without time of day; the engine is told; the instance is synchronized only while its offset is small and it has no alarms. Each instance uses the time of day of its own clock. Nothing is undefined.", "quantifier": "all configurations, all histories of pulses (any numbers and times), silence, failures, control changes, steps, gain changes and timers, all answers of the time of day source, any number of instances sharing it", "why_tests_cant": "whether a pulse is used depends on the whole history of periods, steps and control changes; the seconds depend on two clocks and a rounding; what the engine knows depends on every transition", "anchors": ["src/pps/sfptpd_pps_module.c: pps_servo_update, pps_servo_reset, pps_servo_step_clock, pps_on_pps_event, pps_on_no_pps_event, pps_on_pps_error, pps_do_poll, pps_on_timer, pps_time_of_day_poll, pps_convergence_update, pps_start_instance, pps_on_control"]}
{"id": "C66", "title": "What the NTP control client reports is what the daemon said", "statement": "A request to the NTP daemon has the octets the protocol prescribes. Whatever datagrams arrive, an answer that is accepted consists of the fragments of that answer put together without gap or overlap, and the fragments of an answer are put together whatever their order, repetition or interleaving with other packets. Variables are read as the daemon wrote them. The peers reported are those of the daemon, each with its own values and status; the selected peer is the daemon's. Errors of the daemon are reported as such. Taking and giving back the clock succeeds exactly if the daemon says so. Nothing is undefined.", "quantifier": "all sequences of datagrams, timeouts and failures; all messages of up to 4096 bytes in up to 32 fragments; all names and values; all association lists", "why_tests_cant": "the answers come over UDP from another process: any bytes, in any order, repeated, delayed or forged", "anchors": ["src/ntp/sfptpd_ntpd_client_mode6.c: mode6_request, mode6_response, mode6_get_peer_info, mode6_get_sys_info, mode6_clock_control, make_query_data, next_var"]}
{"id": "C67", "title": "NTP module: state, status, reports, commands, constraints, polling", "statement": "In every history of the NTP instance: its state is the documented function of the outcome of the last question to the NTP daemon, the peers it named and whether the offset is in doubt since a step of the clock; offset, accuracy and steps are those of the peer the daemon follows; statistics and saved state only describe a followed peer; the engine is told of every change; clock control commands are sent exactly when control is granted or withdrawn, or the daemon is found to do other than believed, with the value now wanted, and never by a watching module; the constraints say what the daemon does; an offset from before a step of the clock is not used; the daemon is asked once per interval; synchronised is only reported after an uninterrupted run of offsets within the limit; no history is undefined; the module does not start while the daemon is left disciplining a clock that sfptpd adjusts.", "quantifier": "all configurations, starts, answers of the daemon (errors, peers, clock control), times, control messages, steps of the clock and requests, in any order and number", "why_tests_cant": "what is said depends on the whole history of answers, failures, commands and messages; the schedule of the poll timer and the daemon's failures are not under a test's control", "anchors": ["src/ntp/sfptpd_ntp_module.c: ntp_parse_state, ntp_state_machine, ntp_handle_state_change, ntp_on_offset_id_change, ntp_on_clock_control_change, ntp_on_control, ntp_on_timer, ntp_configure_ntpd, ntp_convergence_update, ntp_on_get_status, ntp_on_save_state, ntp_on_write_topology"]}
{"id": "C68", "title": "Chrony module: questions, answers, state, clock control, blocking of the system clock, cadence", "statement": "In every history of the chrony instance: numbers of chronyd's protocol are read as what they stand for; chronyd counts as controlling the clock just if it runs without option x; only well-formed requests are sent, on an open connection, never more often than the interval allows; octets that do not answer the last request have no influence by what they are; after a round of answers the state is the documented one for the sources chronyd named and the addresses, offsets, dispersions and counts kept are those it told; an instance whose chronyd follows a server is a slave; loss of all sources or of the answers is noticed; what is replied, saved and drawn is what was last told; the constraints never contradict each other and are told; clock control operations are only done with the means for it, after saving the setting, only when they change something and fit the wish of the engine, and the setting is restored in the end; the system clock is blocked just while chronyd controls it; no history is undefined.", "quantifier": "all configurations, command lines of chronyd, octets received, times, failures of connecting, sending and controlling, control messages and requests, in any order and number", "why_tests_cant": "the state depends on the whole history of messages, failures and looks at another process; the octets come from another program; the schedule of timer, socket and messages is not under a test's control", "anchors": ["src/crny/sfptpd_crny_module.c: clock_control_at_launch, crny_state_machine, check_reply, issue_get_source_stats, handle_get_source_count/datum/stats, handle_get_ntp_datum, crny_parse_state, do_clock_control, ntp_on_clock_control_change, ntp_handle_state_change, update_state, ntp_on_control, ntp_on_run, ntp_on_startup, ntp_on_timer, crny_do_io, ntp_on_get_status, ntp_on_save_state, ntp_on_write_topology, sfptpd_crny_tofloat"]}
{"id": "C69", "title": "Freerun module: the clock behind an interface, starting, status and messages", "statement": "A freerun instance named after an interface uses the best clock (least holdover drift, then accuracy, then stratum, then first) of the NICs behind it, through VLANs, bonds and teams nested in any way, and finding it always ends; starting succeeds just if every instance names the system clock or an interface with a clock, no two get the same clock and every NIC clock could be set from the system clock, and otherwise fails with the documented error of the first that cannot start; whatever the engine asks afterwards, the status is that of a slave at offset zero of its own clock with the configured characteristics, a clock is adjusted only on the engine's command and by exactly its amount, and no assertion fails as long as the topology is asked only of selected instances; the words of the traceability and clock class options mean what is documented.", "quantifier": "all link tables, interfaces, clock specifications, lists of instance configurations, results of setting clocks and message histories", "why_tests_cant": "nesting of links is unbounded and the table comes from the system; which clock is chosen depends on the whole tree, and non-termination is not observable by a test that ends", "anchors": ["src/freerun/sfptpd_freerun_module.c: freerun_find_physical_link, freerun_select_clock, freerun_on_startup, freerun_on_message", "src/sfptpd_link.c: sfptpd_link_by_name, sfptpd_link_by_if_index"]}
{"id": "C70", "title": "PTP module: the physical interfaces of an instance, the one it uses, the kind of timestamps", "statement": "For every interface name and link table, parsing the topology of a PTP interface ends; through VLANs it reaches the link they are on, and the set of physical interfaces is that interface, the one under a macvlan, or the interfaces behind the members of a bond, team or bridge (also of bonds and teams in it, teams by name), never more than 16; the active interface is the active member of an active-backup bond, or the first of an LACP bond or bridge that has a link; other modes, missing links and names get their error. Of a set the interface used is always one of it: one that is up and got the last Sync, else the active one of the bond, else one with hardware timestamps that has the clock in use, else any with hardware timestamps, else one that is up. Timestamps are by hardware just if the active interface has a PTP clock and no instance asks for software; contradicting or impossible wishes are refused.", "quantifier": "all link tables, interface databases, previous contents of the structure, link states, ports (last Sync interface, clock) and wishes of instances", "why_tests_cant": "tables come from the system in any order and nesting; the choice depends on the order of members and on earlier state, and non-termination cannot be observed by a test that ends", "anchors": ["src/ptp/sfptpd_ptp_module.c: ptp_parse_interface_topology, ptp_is_interface_vlan, ptp_probe_bonding, parse_bond, parse_team, parse_nested_bond, ptp_get_active_intf, ptp_determine_timestamp_type"]}
{"id": "C71", "title": "PTP module: an interface follows changes of its bond", "statement": "For every history of link tables a PTP interface follows its bond: after each table every port uses an interface of the present set, chosen as in C70, its servo is told the clock of a new interface exactly when the interface changes, servos are reset when the kind of timestamps changes, the kind is that of the active interface, hardware timestamping is on for all members that can while hardware timestamps are used and is switched off on members that leave, the no-interface alarm is set exactly on ports that have no usable interface, errors opening sockets are reported, the description of the bond that the transport reads stays valid, a table that changes nothing does nothing, and every table received is given back.", "quantifier": "all histories of link tables and interface databases, sets, ports and results of opening sockets", "why_tests_cant": "the outcome depends on the state left by earlier tables, on the order of instances and on memory that is no longer valid but usually still readable", "anchors": ["src/ptp/sfptpd_ptp_module.c: ptp_handle_bonding_interface_change, ptp_timestamp_filtering_reconfigure_all, ptp_timestamp_filtering_configure_one, ptp_is_interface_hw_timestamping, ptp_on_link_table", "src/ptp/ptpd2/ptpd_lib.c: ptpd_change_interface"]}
{"id": "C72", "title": "PTP instance: what the engine is told", "statement": "For every history of ticks, control requests, alarms and link changes the engine's picture of a PTP instance equals what the instance would answer if asked (state, alarms, priority, grandmaster, steps, and, once a link change has been followed by a tick, the clock), and it is told exactly when something relevant changed; states, clock classes and accuracies are translated as IEEE 1588 tables say; the instance calls itself synchronised only after 60 s as slave with the offset within the threshold, and does so then; what is published is current; leap seconds are announced exactly on a change of the flags of a selected slave; control flags change exactly under the mask; grandmaster updates go to all other instances; and no history of events makes it fail.", "quantifier": "all histories of ticks, control requests, alarms and link changes, with any port data, time and score", "why_tests_cant": "the picture is kept by differences, so it depends on the whole history, on snapshots one tick old and on requests that come between ticks", "anchors": ["src/ptp/sfptpd_ptp_module.c: ptp_update_instance_state, ptp_on_get_status, ptp_update_instance_sync_status, ptp_update_leap_second_status, ptp_send_clustering_input, ptp_on_control, ptp_on_update_gm_info, ptp_on_update_leap_second, ptp_set_convergence_criteria, ptp_measure_offset_from_discriminator, ptp_translate_state, ptp_translate_clock_class_to_sfptpd"]}
{"id": "C73", "title": "Comparing a hardware clock with the system clock", "statement": "Comparing a hardware clock with the system clock returns, for the methods that read the clocks in turn, the offset from the middle of the tightest of four brackets of positive width, hence an error of at most half that width if the system clock was inside the bracket, EAGAIN if no bracket has positive width, and else the error of the failing call; the precise method returns the exact difference; the PPS method returns the exact difference at the last pulse unless it is near half a second. A configured list of methods is accepted exactly if it names methods, each once, and the first that works is used; if PPS has no data another method is used at once, PPS gets one second chance after 2.2 s and is then given up. After a step no difference from before is reported. No history of starts, comparisons and steps fails an assertion, overflows or recurses more than three levels. The PPS input found for a clock is its own, and events are reported once.", "quantifier": "all clock readings, kernel and file system answers, method lists, device listings and histories of starts, comparisons and clock steps", "why_tests_cant": "the result depends on every combination of four readings, the listing of PPS devices, which calls fail and when events arrive; the methods need hardware, and the failures (half a second, empty listing, stopped pulses, interleaved devices) are corners of that space", "anchors": ["src/sfptpd_phc.c:sfptpd_phc_compare_to_sys_clk", "src/sfptpd_phc.c:phc_compare_using_pps", "src/sfptpd_phc.c:phc_update_smallest_window_diff", "src/sfptpd_phc.c:phc_set_fallback_diff_method", "src/sfptpd_phc.c:phc_configure_pps", "src/sfptpd_phc.c:phc_discover_devpps", "src/sfptpd_phc.c:sfptpd_phc_get_pps_event", "src/sfptpd_general_config.c:parse_phc_diff_method_order"]}
{"id": "C74", "title": "The clocks of the machine: registration, hot plug, read-only and disciplined clocks, steps, initial correction, comparison, leap seconds, lookup", "statement": "There is one system clock, never removed, and at most one clock for each network adapter, which is never lost; after each rescan of the interfaces an adapter's clock is active exactly if the adapter has an interface with a PHC device and works on the device of the first such interface, and each interface is linked to the clock of its adapter if it can do PTP and to the system clock otherwise. A clock that is read-only is never written to; a new clock is read-only, or disciplined, exactly as configured. A writable clock can be stepped at any time, and every adapter's clock is told. A clock that has never been set is set from the system clock once when it comes up. Two clocks compare as the exact difference of their readings against the system clock, and failures are reported. A scheduled leap second sets exactly its bit, an immediate one steps exactly the writable adapter clocks by one second; clocks can be found by name and identity and enumerated; saved corrections come back within the limits.", "quantifier": "all configurations, all sets of interfaces at each rescan, all results of the operating system, all histories of operations on the clocks since the start of the daemon", "why_tests_cant": "Adapters come and go at any point of a history that also steps, blocks and compares clocks; the failures appear only after particular sequences such as unplug and then step.", "anchors": ["src/sfptpd_clock.c: sfptpd_clock_initialise, sfptpd_clock_rescan_interfaces, sfptpd_clock_init_interface, renew_clock, configure_new_clock, fixup_readonly_and_clock_lists, sfptpd_clock_correct_new, sfptpd_clock_compare, sfptpd_clock_set_time, sfptpd_clock_adjust_time, clock_record_step, sfptpd_clock_schedule_leap_second, sfptpd_clock_leap_second_now, sfptpd_clock_set_sync_status, sfptpd_clock_find_by_hw_id, sfptpd_clock_find_by_name, sfptpd_clock_get_active_snapshot", "src/sfptpd_phc.c: sfptpd_phc_record_step"]}
{"id": "C75", "title": "Life of the PTP module", "statement": "Creating the PTP module succeeds if and only if no two instances use the same domain on the same interface, everything the system is asked for works and at most one instance is on an interface that timestamps by software; a clash of domains is EBUSY and leaves nothing behind. Then there is one interface for each name and transport, with exactly the instances configured for it; each comes up once, with the options of its first instance; every instance has one port, brought up after its own interface; ports are numbered from 1 in that order; the caller's buffer has as many instances as fit, in that order; instances without a physical interface have the alarm. An instance without a profile gets the default for its delay mechanism. A failed start returns an error with everything released; an interface joins the multicast groups if one of its instances takes multicast; a running module listens on exactly the sockets of its interfaces; a change of servo constants reaches each instance once if meant for PTP; the end of the module releases everything.", "quantifier": "every list of configured instances and every result of every system call made during creation, start and running", "why_tests_cant": "the instances group into interfaces in unboundedly many ways and every step may fail on its own; the clean-up depends on how far the start got", "anchors": ["src/ptp/sfptpd_ptp_module.c:sfptpd_ptp_module_create", "src/ptp/sfptpd_ptp_module.c:ptp_create_instances", "src/ptp/sfptpd_ptp_module.c:ptp_on_startup", "src/ptp/sfptpd_ptp_module.c:ptp_on_run", "src/ptp/sfptpd_ptp_module.c:ptp_on_shutdown", "src/ptp/sfptpd_ptp_module.c:ptp_destroy_instances", "src/ptp/ptpd2/ptpd_lib.c:ptpd_create_interface", "src/ptp/ptpd2/ptpd_lib.c:ptpd_create_port"]}
{"id": "C76", "title": "The sockets for reaching every link of a bond", "statement": "With LACP, PTP multicast messages for a given slave interface must leave by that slave, so the daemon keeps a pool of extra sockets (4 per link) and records which socket leaves by which interface from transmit timestamps. Whatever the sequence of initialisations, socket options, probes, transmit observations and shutdowns: the pool holds exactly the sockets the system granted and that no option failed for; they are distinct, open, none of the other descriptors of the process, and nothing else is left open; at most 16 interfaces are recorded, each once, each with a socket of its own that is open; an observation that contradicts the record forgets it and probes every socket again exactly once, any other is added if there is room and none for the interface; a message uses the recorded socket if it is multicast, an interface is asked for and the pool is in use, otherwise the event socket; readiness of any pool socket or the event socket makes the event (and error) handling read the event socket and every pool socket once; shutdown leaves no pool socket open.", "quantifier": "all histories of operations, all bonds, all results of socket, bind, setsockopt and epoll calls, all descriptors handed out, all interfaces observed, all sets of ready descriptors", "why_tests_cant": "The pool depends on the result of dozens of system calls per initialisation and on any order of observations; leaks and stale descriptors appear only after particular failures.", "anchors": ["src/ptp/ptpd2/sfptpd_lacp.c: createBondSocks, destroyBondSocks, probeBondSocks, bondSocksOnTxIfindex, bondSockFindMulticastMappingByFd, bondSockFdIndexInSockPool, setBondSockopt, invalidateBondBypassSocket", "src/ptp/ptpd2/sfptpd_lacp.h: FOR_EACH_MASK_IDX", "src/ptp/ptpd2/dep/net.c: prepareSendMessage", "src/ptp/ptpd2/protocol.c: doHandleSockets", "src/ptp/sfptpd_ptp_module.c: ptp_on_user_fds"]}
{"id": "C77", "title": "The collection of what other slaves report", "statement": "A monitoring node collects the timing data, computed data, transmit times and statuses that slaves report in signaling messages and writes them out periodically. For every history of reports and outputs: an output has, for each Sync reported since the last output, exactly one record, in the order of the first report, with the last timing data and the last computed data reported for it; every transmit time and every status appears in exactly one output, in order, numbered consecutively; every port that has ever reported is listed once with the address and domain of its first report; in the text each event is below its port; the latest table has exactly the last status of each port; a status gives the slave's grandmaster.", "quantifier": "all histories of reports (any ports, any numbers of elements, any order and repetition of sequence numbers) and outputs", "why_tests_cant": "Merging depends on the interleaving of reports of two kinds from any number of slaves with wrapping sequence numbers, across any number of outputs.", "anchors": ["src/ptp/sfptpd_ptp_monitor.c: monitor_register_node, monitor_obtain_rx_event_record, sfptpd_ptp_monitor_update_rx_timing, sfptpd_ptp_monitor_update_rx_computed, sfptpd_ptp_monitor_log_tx_timestamp, sfptpd_ptp_monitor_update_slave_status, sfptpd_ptp_monitor_flush, monitor_output_text, monitor_output_json"]}
{"id": "C78", "title": "The authenticator of requests to the NTP daemon", "statement": "A request that changes the NTP daemon's configuration is authenticated by a key number and a message digest appended to it. For every key, key number and packet whose length is a multiple of 4: the packet is sent unchanged, followed by the key number in network order and the MD5 digest (RFC 1321) of the key followed by the packet, 20 octets in all, and nothing else is written. The digest does not depend on how the message is cut into pieces, on what the memory held before or on the byte order of the host.", "quantifier": "all messages of octets of any length, all sequences of pieces (each below 2^32 octets), all initial contents of the context, both byte orders; all keys, key numbers and packets", "why_tests_cant": "Digest code is tested with a few vectors; an error for one residue of the length modulo 64, one way of cutting the message, or a length beyond 2^29 octets passes them all.", "anchors": ["src/ptp/ptpd2/dep/ntpengine/ntp_isc_md5.c: isc_md5_init, isc_md5_update, isc_md5_final, transform, byteSwap, MD5authencrypt", "src/ntp/sfptpd_ntpd_client_mode6.c: mode6_request", "src/ntp/sfptpd_ntpd_client_mode7.c: mode7_request"]}
{"id": "C79", "title": "Collecting the answer of the NTP daemon", "statement": "The answer of the NTP daemon to a query may come in several numbered packets, mixed with other packets. Whatever arrives at the socket: nothing is read outside a packet or table and nothing is written outside the buffer; packets that are not part of the answer (too short, requests, authenticated, of another version, mode, implementation or request) change nothing; an error of the daemon and the end of the time are reported as such; success is reported only if the packet marked as the last one has come. If each packet of an answer comes, once or several times and in any order, the caller gets exactly its items, in the order of the sequence, each brought to the size the caller asked for, and their number. If the daemon calls the request too large, the query is repeated with the next of the sizes 188, 160 and 48, and the size found is kept.", "quantifier": "all sequences of events at the socket (packets of any octets and length, failures, end of time), all item sizes and request codes, all answers of up to 128 packets, all orders of arrival and packets of others between them", "why_tests_cant": "Tests against a daemon see short answers that arrive in order; duplicates, reordering, malformed packets and odd item sizes depend on the network and on other versions of the daemon.", "anchors": ["src/ntp/sfptpd_ntpd_client_mode7.c: mode7_response, mode7_check_response_part1, mode7_error_to_errno, mode7_query"]}
{"id": "C80", "title": "Requests to the NTP daemon", "statement": "A request to the NTP daemon has one of the sizes 188, 160 and 48. Every request whose items fit is sent as the protocol wants it: version 2, mode 7, implementation 3, the request code, number and size of items in network order, the items unchanged, and zeros to the end. If it is authenticated, it is marked so, its last 8 octets are the time now and 20 ms as a 64 bit NTP time in network order (with the carry between fraction and seconds, and around the end of the era), and the authenticator of the whole request (key number and MD5 digest of key and request) follows. Nothing is written outside the packet.", "quantifier": "all request codes, numbers, sizes and contents of items, all three sizes, all times, keys and key numbers, both byte orders, all old contents of memory", "why_tests_cant": "Tests send a few requests at the time they run; a carry in the time, the end of the NTP era, or the small request sizes used for old daemons do not occur in them.", "anchors": ["src/ntp/sfptpd_ntpd_client_mode7.c: mode7_request, M_ADD, struct ntp_request_pkt", "src/ptp/ptpd2/dep/ntpengine/ntp_isc_md5.c: MD5authencrypt"]}
