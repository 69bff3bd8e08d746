{
 "claims": [
  {
   "property": "C01",
   "status": "proved",
   "theorems": [
    "C01_add_exact",
    "C01_add_defined",
    "C01_subtract_exact",
    "C01_subtract_defined",
    "C01_add_corner_refuted",
    "C01_add_then_subtract",
    "C01_negate",
    "C01_add_aliasing",
    "C01_subtract_aliasing"
   ],
   "note": "All normalised operands; definedness characterised exactly (one corner where the C overflows although the sum is representable is exhibited). Aliasing of destination and operands proved on a memory model."
  },
  {
   "property": "C02",
   "status": "proved",
   "theorems": [
    "C02_cmp",
    "C02_equal_instants_equal_fields",
    "C02_is_ge",
    "C02_is_ge_defined"
   ],
   "note": "is_greater_or_equal under the condition that the difference does not overflow."
  },
  {
   "property": "C03",
   "status": "partial",
   "theorems": [
    "C03_from_ns_partial",
    "C03_from_ns_refuted",
    "C03_from_ns16",
    "C03_to_ns16",
    "C03_ns16_round_trip",
    "C03_to_ns16_saturates_partial",
    "C03_to_ns16_refuted",
    "C03_to_std_floor",
    "C03_to_std_nearest",
    "C03_std_round_trips"
   ],
   "note": "from_ns is exact only for |ns| < 2^31 (refuted beyond); to_ns16 exact in range but wraps between 140737 s and 281474 s (refuted); to_std_nearest can yield tv_nsec = 1e9. Floating point conversions are not modelled."
  },
  {
   "property": "C04",
   "status": "proved",
   "theorems": [
    "C04_fir_is_moving_average",
    "C04_fir_forgets",
    "C04_fir_zero_stiffness_refuted"
   ],
   "note": "Stiffness 1..128, any histories of updates and resets, any initial array contents; exact rational arithmetic in place of long double. Stiffness 0 shown to divide by zero."
  },
  {
   "property": "C05",
   "status": "proved",
   "theorems": [
    "C05_pid_bounded",
    "C05_pid_interval_clamped",
    "C05_pid_closed_form"
   ],
   "note": "Exact rationals; all traces of update/reset/adjust/set_interval with positive interval and limit."
  },
  {
   "property": "C06",
   "status": "proved",
   "theorems": [
    "C06_smallest_picks_least_aged",
    "C06_backwards_time_refuted"
   ],
   "note": "Monotonic times non-decreasing and within 2^60 s; a backwards time aborts (exhibited)."
  },
  {
   "property": "C07",
   "status": "proved",
   "theorems": [
    "C07_notch_accepts_iff",
    "C07_peirce_verdicts",
    "C07_criterion_increasing"
   ],
   "note": "Square roots avoided by comparing squares; exact rationals."
  },
  {
   "property": "C08",
   "status": "proved",
   "theorems": [
    "C08_running_variance",
    "C08_empty_is_error"
   ],
   "note": "Exact rationals in place of long double; the final square root is not modelled (its argument is)."
  },
  {
   "property": "C09",
   "status": "proved",
   "theorems": [
    "C09_e2e_offset",
    "C09_p2p_offset"
   ],
   "note": "Exact rationals for the float view; timestamps within range."
  },
  {
   "property": "C10",
   "status": "proved",
   "theorems": [
    "C10_complete_only_when_measured",
    "C10_set_reports_completeness"
   ],
   "note": "All sequences of set/clear operations from init."
  },
  {
   "property": "C11",
   "status": "partial",
   "theorems": [
    "C11_choose_best_and_ranks_partial",
    "C11_sort_contract_inhabited",
    "C11_nan_no_best_refuted",
    "C11_select_instance_one_selected"
   ],
   "note": "Proved for every sorting function meeting the qsort contract, every policy containing the tie-break, at most one manually selected instance and no NaN among compared values; refuted when an instance reports a NaN Allan variance (C11_nan_no_best_refuted)."
  },
  {
   "property": "C12",
   "status": "proved",
   "theorems": [
    "C12_lexicographic",
    "C12_rules_after_end_ignored"
   ],
   "note": "For every pair not both manually selected."
  },
  {
   "property": "C13",
   "status": "partial",
   "theorems": [
    "C13_comparison_asymmetric_total",
    "C13_comparison_transitive_partial",
    "C13_nan_cycle_refuted",
    "C13_both_selected_refuted"
   ],
   "note": "Asymmetry/totality proved unconditionally on values; transitivity proved without NaN and refuted with NaN; two manually selected instances refute antisymmetry."
  },
  {
   "property": "C14",
   "status": "partial",
   "theorems": [
    "C14_rank",
    "C14_partial",
    "C14_refuted",
    "C14_both_better_refuted",
    "C14_order"
   ],
   "note": "C14_rank: outside adjacent paths to one grandmaster the comparison is exactly the standard's order; C14_partial antisymmetry there. Refuted for adjacent paths (C14_refuted, C14_both_better_refuted): both can be better."
  },
  {
   "property": "C15",
   "status": "partial",
   "theorems": [
    "C15_slave_only",
    "C15_decision_partial",
    "C15_updates",
    "C15_no_master",
    "C15_no_qualified",
    "C15_listening_refuted",
    "C15_faulty_refuted",
    "C15_uninitialised_refuted"
   ],
   "note": "Slave-only safety, the decision and the data set updates are proved. Refuted: a slave-only port with no qualified master is not sent to LISTENING (C15_listening_refuted); equal comparison gives FAULTY; own-grandmaster loop reads an uninitialised port number."
  },
  {
   "property": "C16",
   "status": "partial",
   "theorems": [
    "C16_partial",
    "C16_order_refuted",
    "C16_circle_refuted",
    "C16_stuck_refuted",
    "C16_moving_time_refuted"
   ],
   "note": "Proved for coherent announces and a fixed expiry time (C16_partial). Refuted otherwise: order dependence, preference circles, no choice on a tie, stale best index when the time moves."
  },
  {
   "property": "C17",
   "status": "partial",
   "theorems": [
    "C17_bounds_partial",
    "C17_distinct_partial",
    "C17_insert_defined",
    "C17_overflow_refuted",
    "C17_expire_partial",
    "C17_recent",
    "C17_expire_full_refuted",
    "C17_duplicate_refuted",
    "C17_bmc_defined"
   ],
   "note": "Bounds, distinctness, eviction and expiry proved under stated conditions; refuted: out-of-bounds write after a decision on a full table, out-of-bounds move on expiry of a full table, duplicate records after the selected record expires."
  },
  {
   "property": "C18",
   "status": "proved",
   "theorems": [
    "C18_only_if",
    "C18_iff"
   ],
   "note": "C18_only_if for all histories, C18_iff for the record. The window is the age of the oldest of the last two announces."
  },
  {
   "property": "C19",
   "status": "partial",
   "theorems": [
    "C19_expiry",
    "C19_first_expiry",
    "C19_once",
    "C19_never_started",
    "C19_stopped_partial",
    "C19_stopped_refuted",
    "C19_period",
    "C19_random",
    "C19_negative_refuted",
    "C19_total"
   ],
   "note": "Proved for running and never started timers after any history. Refuted: an expiry latched before the timer was stopped is still reported once afterwards (the exact condition is proved), and a timer started with a negative interval counts as running and never expires. Assumes the long double product is exact."
  },
  {
   "property": "C20",
   "status": "partial",
   "theorems": [
    "C20_decision_partial",
    "C20_full_mask_refuted",
    "C20_total_partial",
    "C20_junk_refuted",
    "C20_rejected",
    "C20_admission_partial",
    "C20_fail_closed",
    "C20_consulted_once",
    "C20_ipv6_refuted",
    "C20_text_complete"
   ],
   "note": "Proved for every well formed text without a mask 255.255.255.255, every address and history, including admission of messages and TLVs, failing closed, single consultation and complete configuration text. Refuted: the mask 255.255.255.255 is undefined behaviour; a text such as 10.0.0.1/x is accepted and admits every address; over IPv6 the monitoring list is applied to the flow label."
  },
  {
   "property": "C21",
   "status": "proved",
   "theorems": [
    "C21_hash_table_is_bounded_map",
    "C21_zero_size_refuted",
    "C21_abandoned_iteration_blocks"
   ],
   "note": "Full statement over the API that exists (add, update, iterate, clear, count). Findings: size 0 divides by zero; abandoned iteration keeps the lock."
  },
  {
   "property": "C22",
   "status": "proved",
   "theorems": [
    "C22_list_table_is_multiset",
    "C22_array_table_is_multiset",
    "C22_sort_exists",
    "C22_large_record_refuted",
    "C22_sorted_delete_refuted"
   ],
   "note": "Proved for both stores for every legal call sequence and any sort function meeting qsort's contract (records of at most 4096 bytes for the array store, no sort keys in deletions: both exceptions are refuted findings)."
  },
  {
   "property": "C23",
   "status": "proved",
   "theorems": [
    "C23_one_place",
    "C23_no_duplicate",
    "C23_in_order",
    "C23_receive",
    "C23_alloc",
    "C23_send",
    "C23_free",
    "C23_send_wait",
    "C23_replies",
    "C23_bounded",
    "C23_defined",
    "C23_statistics_partial",
    "C23_waiting_refuted",
    "C23_statistics_refuted"
   ],
   "note": "Proved over every history of pool set-up, allocation (waiting or not), sending, sending with a wait, replying, receiving and freeing by any number of threads that act only on messages they hold: each buffer of a pool is in exactly one place, once (C23_one_place, C23_no_duplicate); what was posted to a queue is what was taken from it followed by what it holds, headers and payloads unchanged (C23_in_order, C23_receive); an allocation that fails finds every buffer queued or held (C23_alloc); a send-wait returns with the message sent (C23_send_wait, C23_replies); pool pipes never hold more than the pool (C23_bounded). Also shown: an allocation that waits can still fail when two threads wait for one message (C23_waiting_refuted); the free/used statistics drift when a send fails (C23_statistics_partial, C23_statistics_refuted). Thread destruction is not modelled; a pipe that is full delays the write."
  },
  {
   "property": "C24",
   "status": "partial",
   "theorems": [
    "C24_offset",
    "C24_partial",
    "C24_program",
    "C24_torn_refuted",
    "C24_torn_timestamp_refuted",
    "C24_false_success_refuted",
    "C24_counter_refuted"
   ],
   "note": "The offset of any delivering read is proved to be that of one complete sample under every schedule; all outputs together only when fewer than 15 samples are published during the call. Refuted: timestamps re-read after the overrun check can be torn, the return code re-read can give a false success, an int counter makes the feed look empty after 2^32 samples."
  },
  {
   "property": "C25",
   "status": "partial",
   "theorems": [
    "C25_fresh_partial",
    "C25_first_read_refuted",
    "C25_max_age_partial",
    "C25_no_clock_refuted",
    "C25_removed",
    "C25_inactive"
   ],
   "note": "Freshness and maximum age proved for reads not overtaken; removed source and inactive clock proved. Refuted: require_fresh before the first read demands nothing; the age limit is skipped when the monotonic clock cannot be read."
  },
  {
   "property": "C26",
   "status": "partial",
   "theorems": [
    "C26_safe",
    "C26_freed_when",
    "C26_no_leak",
    "C26_freed_once",
    "C26_subscribe",
    "C26_shutdown_refuted"
   ],
   "note": "Proved for every history of add/remove/subscribe/unsubscribe/read. Refuted for shutdown: freed memory is read exactly when some offered source has no subscriber."
  },
  {
   "property": "C27",
   "status": "partial",
   "theorems": [
    "C27_partial",
    "C27_refuted"
   ],
   "note": "Proved when the second sample is the newer; refuted in the other direction for every pair of times."
  },
  {
   "property": "C28",
   "status": "proved",
   "theorems": [
    "C28_limits",
    "C28_frequency",
    "C28_slave",
    "C28_reported",
    "C28_correction",
    "C28_save_state"
   ],
   "note": "C28_frequency/slave/reported over all servo histories; C28_limits, C28_correction, C28_save_state for the limits and the persisted correction. The bound includes half a unit of the kernel's frequency field (0.0076 ppb) for rounding."
  },
  {
   "property": "C29",
   "status": "partial",
   "theorems": [
    "C29_step_only_if",
    "C29_step_if",
    "C29_startup_once",
    "C29_read_only",
    "C29_no_step_refuted",
    "C29_startup_lost_refuted",
    "C29_failure_refuted"
   ],
   "note": "Only-if and if directions over all histories, at most one startup step, read-only and blocked clocks untouched. Refuted: 'no-step never steps' (the default epoch guard steps a clock near the epoch), 'the startup step is made' (lost if the slave is near the epoch and the guard is not correct-clock), 'a rejected step is reported as failure'."
  },
  {
   "property": "C30",
   "status": "partial",
   "theorems": [
    "C30_prevent_master_partial",
    "C30_prevent_slave_refuted",
    "C30_correct",
    "C30_alarm",
    "C30_alarm_only_refuted",
    "C30_sustained",
    "C30_unsynchronised",
    "C30_synchronised_refuted"
   ],
   "note": "Prevent-sync holds for the reference clock, refuted for the slave; correct-clock behaviour, exact alarm condition and exact sustained failure condition over all histories proved; refuted: alarm-only raises an alarm for the reference; 'not synchronised while the sustained alarm is up'."
  },
  {
   "property": "C31",
   "status": "proved",
   "theorems": [
    "C31_range_is_exact_summary",
    "C31_range_limits_needed_refuted"
   ],
   "note": "Exact summary for every build-up of updates and merges, with sample magnitudes below the code's 1e100 sentinel (refuted beyond); long double modelled as exact rationals; counts modulo 2^64."
  },
  {
   "property": "C32",
   "status": "proved",
   "theorems": [
    "C32_rollup_ranges",
    "C32_rollup_counts",
    "C32_nothing_lost_or_duplicated",
    "C32_completed_interval_is_whole",
    "C32_interval_times"
   ],
   "note": "Ranges and counts of every period and history slot equal the summary of exactly that interval's samples; intervals partition the history; sequence numbers and start/end times."
  },
  {
   "property": "C33",
   "status": "proved",
   "theorems": [
    "C33_convergence_sound",
    "C33_convergence_complete",
    "C33_time_reversal_refuted"
   ],
   "note": "Sound unconditionally; complete below the 2^32 wrap of the sample counter. A time reversal that stays above the window start does not restart the window: C33_time_reversal_refuted."
  },
  {
   "property": "C34",
   "status": "proved",
   "theorems": [
    "C34_safe",
    "C34_words",
    "C34_round_trip",
    "C34_unique",
    "C34_escaped_blank_refuted",
    "C34_no_tokens_refuted"
   ],
   "note": "Escaped leading blanks are lost and a zero-size token array overflows: refuted separately."
  },
  {
   "property": "C35",
   "status": "partial",
   "theorems": [
    "C35_settings",
    "C35_instances",
    "C35_rejects_sec",
    "C35_rejects",
    "C35_text",
    "C35_tokenized",
    "C35_no_abort_partial",
    "C35_empty_refuted",
    "C35_general_twice_refuted",
    "C35_crny0_refuted",
    "C35_bounded_option_refuted",
    "C35_dash_refuted",
    "C35_long_comment_refuted"
   ],
   "note": "Missing: no abort for every file is false (refuted: no section, two [general] sections, an instance named crny0, bounded multi-value options); proved under those exclusions."
  },
  {
   "property": "C36",
   "status": "partial",
   "theorems": [
    "C36_at_most_one",
    "C36_exactly_one_partial",
    "C36_lost_selection_refuted",
    "C36_manual_choice_partial",
    "C36_manual_overridden_refuted"
   ],
   "note": "At most one instance is ever marked selected in the engine and the flags sent to the modules agree with it (proved for all histories); exactly one holds while every select message is delivered; refuted when a control message to a module is lost. A user's manual choice holds until a pending candidate's hold-off expires when the manual rule is not first (refuted in general)."
  },
  {
   "property": "C37",
   "status": "partial",
   "theorems": [
    "C37_best",
    "C37_switch_partial",
    "C37_recovered",
    "C37_switch_happens",
    "C37_no_holdoff",
    "C37_after_recovery_refuted",
    "C37_new_candidate_refuted",
    "C37_manual_startup_stuck_refuted"
   ],
   "note": "The elected candidate is the best, a switch needs the hold-off to have expired with the selected instance never having been best again since, a recovered instance keeps its place, a candidate still best at expiry is selected. Refuted: the timer is not restarted when the candidate changes or returns after a recovery, so the candidate itself need not have been better for the whole hold-off; with manual-startup and no hold-off the candidate stays pending for ever."
  },
  {
   "property": "C38",
   "status": "partial",
   "theorems": [
    "C38_step_only_scheduled",
    "C38_at_most_once",
    "C38_cancel",
    "C38_window_partial",
    "C38_course_partial",
    "C38_servos",
    "C38_always_reenabled_refuted",
    "C38_lost_message_refuted",
    "C38_abandoned_refuted",
    "C38_all_or_none_refuted",
    "C38_local_cancel_refuted",
    "C38_no_abort"
   ],
   "note": "Proved for all histories and failures: other clocks are stepped only by the timer, at the end of the day, for a leap second scheduled and not cancelled before its guard interval; at most once per schedule; cancelling means no step and an unscheduled system clock; servos suspended around it. Timestamp processing being re-enabled is proved when no call fails and refuted when arming a timer or a control message fails. Refuted: abandoned leap second still inserted by the system clock; step-forward applies it to only some clocks; local cancel test request aborts."
  },
  {
   "property": "C39",
   "status": "partial",
   "theorems": [
    "C39_trivial",
    "C39_score",
    "C39_default",
    "C39_zero_offset_refuted",
    "C39_no_evidence_refuted",
    "C39_guard"
   ],
   "note": "The score is 0 if unused, 1 for the reference, the default without valid offsets, else 1/0 as the two masters are closer or further than the threshold (to 2^-32 ns). Refuted: an exactly zero offset counts as no offset; a failed clock comparison counts as identical clocks."
  },
  {
   "property": "C40",
   "status": "partial",
   "theorems": [
    "C40_sync_sent",
    "C40_delay_req_sent",
    "C40_pdelay_req_sent",
    "C40_announce_sent_partial",
    "C40_announce_reserved_refuted",
    "C40_follow_up_sent",
    "C40_delay_resp_sent",
    "C40_pdelay_resp_sent",
    "C40_pdelay_resp_follow_up_sent",
    "C40_delay_resp_overflow_refuted",
    "C40_negative_time_refuted",
    "C40_header_received_partial",
    "C40_header_received_refuted",
    "C40_timestamp_message_received",
    "C40_pdelay_req_received",
    "C40_response_received",
    "C40_announce_received",
    "C40_table_roundtrip",
    "C40_follow_up_time",
    "C40_delay_resp_time",
    "C40_follow_up_time_refuted",
    "C40_boolean_refuted"
   ],
   "note": "Sent: Sync, Delay_Req, Pdelay_Req, Follow_Up, Delay_Resp, Pdelay_Resp, Pdelay_Resp_Follow_Up are exactly the standard's octets; Announce too except its reserved octet, which is never written (refuted). Received: every message kind decodes to the values sent, except that the header's type specific field comes out byte-reversed (refuted; partial for zero). Management/signaling/TLV field tables round-trip, except tables with a Boolean, which is handled as four octets (refuted). Follow_Up and Delay_Resp times are recovered exactly to 2^-16 ns for seconds below 2^48 (refuted above; negative seconds and correction overflow are undefined: refuted)."
  },
  {
   "property": "C41",
   "status": "partial",
   "theorems": [
    "C41_decode_total_refuted",
    "C41_decode_total_partial",
    "C41_decode_rejects",
    "C41_decode_faithful_partial",
    "C41_management_tlv_refuted",
    "C41_padding_ignored",
    "C41_table_outcome",
    "C41_slave_only_refuted",
    "C41_pack_space_partial",
    "C41_pdelay_req_space_refuted"
   ],
   "note": "Exact outcome for every datagram: rejected when shorter than a header, of unknown kind, or with fewer usable octets than the kind needs; otherwise decoded, and the decoded values written out again are the octets received; padding has no influence. Refuted parts: a management message with exactly 46 usable octets is read one octet too far; one claiming a TLV with 48 to 53 usable octets is accepted with a freed TLV; SLAVE_ONLY, PARENT_DATA_SET, PORT_DATA_SET, VERSION_NUMBER data over-read at the listed lengths; Pdelay_Req is written up to ten octets beyond its space."
  },
  {
   "property": "C42",
   "status": "partial",
   "theorems": [
    "C42_exact_partial",
    "C42_effects",
    "C42_dropped",
    "C42_unpermitted",
    "C42_padding_partial",
    "C42_padding_refuted",
    "C42_one_octet_left",
    "C42_found_partial",
    "C42_safe_partial",
    "C42_collector_stopped",
    "C42_safe_refuted",
    "C42_beyond_message_refuted",
    "C42_exact_refuted",
    "C42_pdelay_refuted",
    "C42_timing_sent",
    "C42_computed_sent",
    "C42_tx_sent",
    "C42_status_sent",
    "C42_caps_sent"
   ],
   "note": "Model: processTLVs, the handlers' table, first and second pass handlers, the TLV packers. Exact for messages whose only organisation extension is the last TLV (C42_exact_partial); soundness, termination and bounds for any octets (C42_found_partial, C42_safe_partial). Refuted: organisation extensions are counted 6 octets too long; an uninitialised variable decides when one octet is left over; TLVs after a path delay request; short reports stop a collector; a status report of length < 6 is read beyond the message."
  },
  {
   "property": "C43",
   "status": "partial",
   "theorems": [
    "C43_follow_partial",
    "C43_sync",
    "C43_only",
    "C43_in_order",
    "C43_early_partial",
    "C43_refuted",
    "C43_early_refuted"
   ],
   "note": "For every history of messages from a port that waits for nothing: a measurement comes only from a Sync or a FollowUp (C43_only); with a one-step Sync or an early FollowUp both halves are of the same master and number (C43_sync); with a FollowUp after its Sync the receive time is that of the last Sync taken, same number, used once, and from the same master provided the parent was not replaced in between (C43_follow_partial). Pairs in order, and early FollowUps not numbered 0, always give their measurement. Refuted: replacement of the parent without leaving SLAVE mixes two masters; an early FollowUp numbered 0 is lost."
  },
  {
   "property": "C44",
   "status": "partial",
   "theorems": [
    "C44_pairs",
    "C44_answered",
    "C44_early_partial",
    "C44_early_refuted"
   ],
   "note": "The pairing itself is proved in full for every history (C44_pairs); that an answer gives its measurement is proved when the transmit timestamp is known first (C44_answered), and for an early answer only with provisos (C44_early_partial, C44_early_refuted)."
  },
  {
   "property": "C45",
   "status": "partial",
   "theorems": [
    "C45_one_step",
    "C45_two_step_partial",
    "C45_two_step_refuted"
   ],
   "note": "One-step: proved. Two-step: the correction is the FollowUp's alone, so the claim holds exactly when the Sync's is 0 (C45_two_step_partial), and is refuted otherwise."
  },
  {
   "property": "C46",
   "status": "partial",
   "theorems": [
    "C46_registry",
    "C46_calls",
    "C46_only_that_group",
    "C46_send",
    "C46_delivery",
    "C46_exactly_one_each",
    "C46_residue",
    "C46_defined_partial",
    "C46_race_refuted",
    "C46_all_or_none_refuted"
   ],
   "note": "Histories of subscribe, publish, unsubscribe, unpublish and send by any number of threads, the send in the steps between which others can act. Proved: membership is exactly what the successful calls say and affects only the named group; each call succeeds or fails as stated; a send signals each event subscriber once and takes a buffer per message subscriber or gives all back; exactly one copy goes to each that subscribed when the buffers were taken; no group without members and no writer without subscription remains. Missing because false of the code: the group is looked up before the lock, so it may be freed in between (C46_race_refuted; C46_defined_partial while a member stays), and event subscribers are signalled although buffers run out (C46_all_or_none_refuted)."
  },
  {
   "property": "C47",
   "status": "proved",
   "theorems": [
    "C47_increasing",
    "C47_never_modified",
    "C47_put_off",
    "C47_content",
    "C47_release",
    "C47_defined_partial",
    "C47_broken_refuted",
    "C47_stale_refuted"
   ],
   "note": "Histories of reads from the kernel, of retrievals and of releases by any number of consumers that use a version only while it is theirs. Proved: versions are numbered 1, 2, 3...; a version can be had and says the same as long as one consumer has not released it; a read is put off exactly while the third newest version is held; a new version appears exactly if something significant differs, is sorted, has what the kernel last reported and the right events; a release reads only if reading was put off. Beside the claim, the model stops (undefined) after a read broken off before a complete round (C47_broken_refuted; C47_defined_partial otherwise) and on looking up a version released long ago (C47_stale_refuted). Not modelled: netlink message parsing, failed memory allocation, interfaces numbered 0 or less."
  },
  {
   "property": "C48",
   "status": "proved",
   "theorems": [
    "C48_bounded_copy",
    "C48_zero_size_refuted"
   ],
   "note": "n = 0 is a fault (C48_zero_size_refuted); the statement quantifies over n > 0."
  },
  {
   "property": "C49",
   "status": "partial",
   "theorems": [
    "C49_measure_partial",
    "C49_format_partial",
    "C49_two_pass",
    "C49_no_room_refuted",
    "C49_overrun_refuted",
    "C49_missing_option_refuted",
    "C49_failure_lost_refuted"
   ],
   "note": "Full statement is false of the code: no truncation (abort or overrun), missing option read past the end, failure forgotten. Proved: whenever the expansion exists and fits, exactly it and its terminator are written; measuring gives its length."
  },
  {
   "property": "C50",
   "status": "partial",
   "theorems": [
    "C50_reconfigure",
    "C50_follows_selection_partial",
    "C50_hotplug",
    "C50_capacity_refuted",
    "C50_lost_selection_refuted"
   ],
   "note": "Proved: after reconfiguration every active slave clock has exactly one servo, with the selected reference as master and never driving its own master. Refuted: more than 16 clocks abort by assertion; after a lost selection message the servos keep the old reference."
  },
  {
   "property": "C51",
   "status": "proved",
   "theorems": [
    "C51_create_iff_distinct",
    "C51_update_range_checked",
    "C51_update_count_checked"
   ],
   "note": "Creation and update type checks over every history."
  },
  {
   "property": "C52",
   "status": "proved",
   "theorems": [
    "C52_rules_parsed_exactly",
    "C52_pps_methods_change_policy_refuted"
   ],
   "note": "Rule-list parsing proved exact; the claim that no other option alters the policy is refuted (phc_pps_methods overwrites a rule)."
  },
  {
   "property": "C53",
   "status": "proved",
   "theorems": [
    "C53_interval"
   ],
   "note": ""
  },
  {
   "property": "C54",
   "status": "partial",
   "theorems": [
    "C54_partial",
    "C54_refuted"
   ],
   "note": "Holds for NIC clocks and small system clock requests; for larger system clock requests within half a tick step; refuted beyond that (540 ppm requested, 500 ppm given)."
  },
  {
   "property": "C55",
   "status": "partial",
   "theorems": [
    "C55_to_float",
    "C55_from_float_partial",
    "C55_round_trip_partial",
    "C55_from_float_s_partial",
    "C55_from_float_refuted",
    "C55_scaled"
   ],
   "note": "Exact to floating point; from floating point rounded down to 2^-32 ns unless rounding the seconds to double reaches the next second, where the conversion is undefined behaviour (refuted with the IEEE rounding)."
  },
  {
   "property": "C56",
   "status": "partial",
   "theorems": [
    "C56_pairs_partial",
    "C56_refuted"
   ],
   "note": "Pairing by ticket and number proved for every history; refuted: that response and follow-up come from one peer, that the response's correction is kept, that a response before the transmit timestamp is used."
  },
  {
   "property": "C57",
   "status": "partial",
   "theorems": [
    "C57_follow_up",
    "C57_peer_partial",
    "C57_sent",
    "C57_peer_refuted"
   ],
   "note": "FollowUp proved in full; the addressee of the peer follow-up needs that no later request failed to be answered (refuted otherwise)."
  },
  {
   "property": "C58",
   "status": "partial",
   "theorems": [
    "C58_slots",
    "C58_expect",
    "C58_match",
    "C58_check",
    "C58_found",
    "C58_defined_partial",
    "C58_full_partial",
    "C58_never_alarmed",
    "C58_alarm_refuted",
    "C58_bounds_refuted",
    "C58_oldest_refuted"
   ],
   "note": "Proved: a new request with fewer than 32 waiting takes its own slot and disturbs no other (C58_expect); a returned packet answers exactly one request whose octets it ends with, or nothing that waits matches (C58_match); the check removes exactly the requests of that port that waited ten seconds (C58_check); over every history an answer goes to the request made for that packet, with the ticket given, and at most once (C58_found); every step is defined unless the cache is full (C58_defined_partial). Refuted: the late-timestamp warning is never raised (C58_never_alarmed, C58_alarm_refuted: a three-valued flag is compared with 1, which is OFF); with 32 waiting a new request reads beyond the table (C58_bounds_refuted) and, where that is harmless, it displaces slot 0 rather than the oldest (C58_full_partial, C58_oldest_refuted)."
  },
  {
   "property": "C59",
   "status": "partial",
   "theorems": [
    "C59_groups",
    "C59_reports",
    "C59_status",
    "C59_one_master_partial",
    "C59_change_refuted",
    "C59_tx_refuted",
    "C59_skip_refuted"
   ],
   "note": "For every history and options 0..32767: the selection and grouping of events (C59_groups), one report per group in order with the right source and size, numbering and destinations, and all contents except the first record of a group begun by a change of master with records waiting, and except sent messages when several kinds are sent (C59_reports); state reports exact (C59_status); everything exact with one master (C59_one_master_partial). Missing because false of the code: C59_change_refuted (the record's place is computed before the flush, so the first event under a new master is lost and an old record sent in its place), C59_tx_refuted (the records of three kinds of sent messages overlap), C59_skip_refuted (an option beyond 32767 is accepted and stops reporting). Not modelled: the encoding of the reports (C42), failures to send, times before 1970."
  },
  {
   "property": "C60",
   "status": "partial",
   "theorems": [
    "C60_silent",
    "C60_effect_partial",
    "C60_reply_partial",
    "C60_unsent",
    "C60_ranges",
    "C60_kept",
    "C60_read_only",
    "C60_set_then_get",
    "C60_defined_partial",
    "C60_truncated_refuted",
    "C60_disabled_refuted",
    "C60_text_refuted",
    "C60_slave_only_refuted",
    "C60_two_step_refuted",
    "C60_destination_refuted"
   ],
   "note": "Handling of PTP management messages from the octets of the datagram to the octets of the answer, for all ids. C60_silent, C60_effect_partial, C60_reply_partial, C60_unsent, C60_ranges, C60_kept, C60_read_only, C60_set_then_get, C60_defined_partial. Partial: slave-only requests need zero octets behind the truth value (C60_slave_only_refuted), the default data set's two-step bit is always 0 (C60_two_step_refuted), requests that end early are undefined behaviour (C60_truncated_refuted, C60_disabled_refuted, C60_text_refuted), a configured unicast address takes the answers (C60_destination_refuted)."
  },
  {
   "property": "C61",
   "status": "partial",
   "theorems": [
    "C61_measured",
    "C61_acts",
    "C61_settings",
    "C61_init",
    "C61_once",
    "C61_never",
    "C61_forward",
    "C61_limit",
    "C61_read_only",
    "C61_uncontrolled_partial",
    "C61_alarm_partial",
    "C61_defined_partial",
    "C61_uncontrolled_refuted",
    "C61_restart_refuted",
    "C61_gains_refuted",
    "C61_clock_change_refuted",
    "C61_step_alarm_refuted",
    "C61_reset_alarm_refuted"
   ],
   "note": "Whole life of the servo over any history: measurements, actions, integral, policies, limits, read-only clocks proved (C61_measured, C61_acts, C61_once, C61_never, C61_forward, C61_limit, C61_read_only). Partial: no request without control holds for all calls but the orders themselves; alarms only for frequency requests; definedness if the conversion to seconds does not round up. Refuted: uncontrolled clocks at reset, second step after restart, gains that are not numbers, mixing two clocks' measurements, alarms after steps and resets. Floating point is exact except the conversion's floor."
  },
  {
   "property": "C62",
   "status": "partial",
   "theorems": [
    "C62_readings",
    "C62_edits",
    "C62_history",
    "C62_control",
    "C62_idle",
    "C62_fallback",
    "C62_service_refuted",
    "C62_crash",
    "C62_crash_refuted",
    "C62_unterminated_partial",
    "C62_unterminated_refuted",
    "C62_page_refuted",
    "C62_zero_refuted",
    "C62_lone_refuted",
    "C62_failures",
    "C62_stream_refuted"
   ],
   "note": "Proved for every sequence of take-overs and releases, any contents of the two files: what chronyd reads afterwards, that only the section of sfptpd changes, that nothing is written when nothing has to change, and what a crash can leave if the section is at the end. False of the code, and refuted: the `service` command as a fallback, a crash while the section is in the middle of a file, a file whose last line has no newline (whole file taken as one line; with a size that is a multiple of the page size, a read beyond the mapping), a file with a NUL byte, a file ending in a lone BEGIN line. Failures of each system call are reported, except of fdopen (refuted)."
  },
  {
   "property": "C63",
   "status": "partial",
   "theorems": [
    "C63_permitted",
    "C63_answers",
    "C63_device",
    "C63_closed_partial",
    "C63_closed_refuted",
    "C63_open_dev",
    "C63_chrony_control",
    "C63_open_chrony",
    "C63_no_helper",
    "C63_failure_partial",
    "C63_dead_helper_refuted",
    "C63_orphan_refuted",
    "C63_failing_step_refuted",
    "C63_failing_step_partial",
    "C63_own_answer",
    "C63_progress_partial",
    "C63_stuck_refuted"
   ],
   "note": "Proved for all requests, schedules and results of the system: the helper opens only /dev/ppsN and /dev/ptpN, each request gets an answer of its own kind in order, the daemon gets a descriptor or the error, at most one thread talks to the helper and gets the answer to its own request, no thread is shut out while nothing fails, fallback without the helper. False of the code, and refuted: a helper that dies after reading a request is taken for success with descriptor 0; the helper reads an unset request when the daemon has gone; send(2) failing leaves the lock held; the failing step of a connection is printed from an unset buffer; a socket is left open after EINPROGRESS."
  },
  {
   "property": "C64",
   "status": "partial",
   "theorems": [
    "C64_documented",
    "C64_only",
    "C64_signals",
    "C64_select_partial",
    "C64_reach",
    "C64_stepclocks",
    "C64_test_disabled",
    "C64_test_modes_partial",
    "C64_pool_partial",
    "C64_open_partial",
    "C64_gain_refuted",
    "C64_integer_refuted",
    "C64_long_refuted",
    "C64_name63_refuted",
    "C64_cancel_refuted",
    "C64_dump_refuted",
    "C64_leak_refuted",
    "C64_open_refuted"
   ],
   "note": "Proved for every documented command with every numeral, name (at most 127 bytes of text) and list of types; at most one effect per datagram, one whose word begins it, with parameters taken from it; signals; fan-out of gains; stepping; test modes; any number of commands other than dumptables and pid_adjust without ptp and pps; opening and closing when nothing fails. False of the code, and refuted: text that is not a number is taken for 0 and big numbers are cut; long names and datagrams are cut, names of 63 bytes are not terminated; local_leap_second_cancel fails an assertion; dumptables and some pid_adjust use up the message pool and block the daemon; a failed opening leads to a use after free. strtod is exact in the model."
  },
  {
   "property": "C65",
   "status": "partial",
   "theorems": [
    "C65_pulse",
    "C65_quiet",
    "C65_step",
    "C65_limit",
    "C65_first_lock_refuted",
    "C65_delay_refuted",
    "C65_second_partial",
    "C65_second_refuted",
    "C65_state",
    "C65_alarms",
    "C65_told_partial",
    "C65_told_refuted",
    "C65_timer_refuted",
    "C65_sync_partial",
    "C65_sync_refuted",
    "C65_checked_refuted",
    "C65_stale_refuted",
    "C65_no_day_refuted",
    "C65_start_refuted",
    "C65_day_partial",
    "C65_day_refuted",
    "C65_defined_partial"
   ],
   "note": "Proved: exactly which pulses are used and what they do; nothing else acts; the step policy, frequency limit and offset reported; states and alarms; the offset measured is right if the time of day error plus the fraction of the offset is under half a second; the engine knows of a signal, its alarms and failures after each poll; synchronized is bounded when there is no alarm; the time of day for one instance; definedness for under 2^31 operations. False of the code, and refuted: a time of day 0.15 s off gives an offset a second wrong; step-on-first-lock never steps; a step ignores the delay; the engine is not told of a return to listening, nor of anything the timer notices; an instance with alarms stays synchronized; the first pulse after a pause in processing is used unchecked; an offset it may not step is not reported; it steers without a time of day; instances share the time of day offset; starting without memory for the outlier filter reports success."
  },
  {
   "property": "C66",
   "status": "partial",
   "theorems": [
    "C66_reassembled",
    "C66_query",
    "C66_query_error",
    "C66_complete",
    "C66_beyond_last_refuted",
    "C66_request",
    "C66_names",
    "C66_errors_partial",
    "C66_errors_refuted",
    "C66_safe_partial",
    "C66_variables",
    "C66_variables_junk",
    "C66_read_partial",
    "C66_read_refuted",
    "C66_host",
    "C66_address",
    "C66_host_refuted",
    "C66_peers_partial",
    "C66_peers_holes_refuted",
    "C66_peers_many_refuted",
    "C66_peers_stale_refuted",
    "C66_peers_failed_refuted",
    "C66_peers_unsent_refuted",
    "C66_peers_novalue_refuted",
    "C66_peers_self_refuted",
    "C66_sys_info",
    "C66_sys_none",
    "C66_sys_errors",
    "C66_command_words",
    "C66_clock_control_partial",
    "C66_clock_control_refuted"
   ],
   "note": "Proved: soundness and completeness of reassembly, the round trip of variables and addresses, the octets of requests, the errors of codes 0-3, the peers if all are listed and answered, the selected peer, the outcome of the clock control command for answers of at least 18 bytes, and that waiting is defined unless the daemon sends an error code above 7. False of the code, and refuted: errors 5-255, fragments beyond the last, reading beyond the answer, unclosed brackets, missing values, skipped associations, more than 32 peers, failed lists and queries, stale answers."
  },
  {
   "property": "C67",
   "status": "partial",
   "theorems": [
    "C67_truthful",
    "C67_state",
    "C67_stale_refuted",
    "C67_told",
    "C67_refused",
    "C67_told_constraints_partial",
    "C67_told_refuted",
    "C67_commands",
    "C67_constraints_partial",
    "C67_lost_refuted",
    "C67_retry_refuted",
    "C67_step_partial",
    "C67_step_refuted",
    "C67_cadence",
    "C67_asks",
    "C67_sync",
    "C67_defined_partial",
    "C67_defined_refuted",
    "C67_start_partial",
    "C67_start_refuted"
   ],
   "note": "truthfulness, state, agreement of what was told, commands, cadence and synchronised are proved for all histories; told constraints, constraints, step, definedness and start are partial with refutations: after a failed question the old offset stays in the status; a refused command changes the constraints and the engine is never told; after two unanswered questions the instance no longer says that it must be selected though the daemon goes on disciplining; a refused command is never retried; after a step of the clock a peer that stays is never followed again, and a peer that vanishes for one answer is followed with the old measurement; as clustering determinant or selected, without a followed peer, it reads peers[-1]; if the first question fails it starts without taking the clock from the daemon"
  },
  {
   "property": "C68",
   "status": "partial",
   "theorems": [
    "C68_float",
    "C68_cmdline",
    "C68_cmdline_refuted",
    "C68_requests",
    "C68_replies",
    "C68_round_partial",
    "C68_unsynced",
    "C68_slave_refuted",
    "C68_slave_partial",
    "C68_datum_partial",
    "C68_status",
    "C68_stepped_partial",
    "C68_start_partial",
    "C68_refclock_refuted",
    "C68_empty",
    "C68_empty_refuted",
    "C68_silent",
    "C68_silent_refuted",
    "C68_told",
    "C68_connection",
    "C68_constraints",
    "C68_constraints_refuted",
    "C68_commands",
    "C68_wish",
    "C68_restore_refuted",
    "C68_blocked_partial",
    "C68_blocked_refuted",
    "C68_cadence",
    "C68_defined_refuted"
   ],
   "note": "proved for every life: reading of numbers, the requests, the connection, the state told and replied, consistency of the constraints, saving before any command, commands fitting looks and wishes, the cadence, blocking (if chronyd's control cannot be changed), indifference to foreign octets, the exact course and result of a round with NTP sources. Refuted: never a slave (issue_get_source_stats clears the selection just read), sources after a reference clock are lost, zero sources and silence leave the old state, -nx is not recognised, constraints change untold, the clock stays blocked after an outside restart was undone, the saved setting is never restored, and three ways to read or write outside the array of peers (a count of 2^31 or more, topology when selected, clustering determinant)"
  },
  {
   "property": "C69",
   "status": "partial",
   "theorems": [
    "C69_search",
    "C69_search_ends_partial",
    "C69_search_ends_refuted",
    "C69_start",
    "C69_start_succeeds",
    "C69_start_fails",
    "C69_status",
    "C69_step",
    "C69_step_once",
    "C69_saved",
    "C69_defined",
    "C69_traceability",
    "C69_class"
   ],
   "note": "proved: the search returns exactly if following VLANs and members ends, and then gives the first best NIC; success and failure of starting characterised; status, stepping and definedness over all histories; the two option parsers. Partial because the search does not end for a VLAN whose inner link is not in the table (C69_search_ends_refuted)"
  },
  {
   "property": "C70",
   "status": "partial",
   "theorems": [
    "C70_plain",
    "C70_macvlan",
    "C70_active_backup",
    "C70_all_members",
    "C70_empty_inactive_refuted",
    "C70_other_mode_partial",
    "C70_empty_mode_refuted",
    "C70_errors",
    "C70_vlan_cycle_refuted",
    "C70_vlan_answers_partial",
    "C70_select_member",
    "C70_select_partial",
    "C70_select_up_refuted",
    "C70_primary_refuted",
    "C70_primary",
    "C70_timestamps"
   ],
   "note": "proved: the set, active interface and error of plain, macvlan, active-backup, LACP, bridge and other bonds at any VLAN depth, errors, selection when the first member is up or has no hardware timestamps and none is marked active, timestamps exactly. Refuted: termination (VLANs naming each other), no active interface for an empty LACP set, an answer for an empty bond of another mode (assertion), a down member is not used while one is up, the active member of an active-backup bond is preferred"
  },
  {
   "property": "C71",
   "status": "partial",
   "theorems": [
    "C71_missing",
    "C71_refused",
    "C71_kind",
    "C71_kind_interface_refuted",
    "C71_choice",
    "C71_choice_refuted",
    "C71_settles_partial",
    "C71_steer",
    "C71_reset_partial",
    "C71_reset_refuted",
    "C71_stamps_on",
    "C71_removed_partial",
    "C71_removed_refuted",
    "C71_alarm",
    "C71_alarm_interface_refuted",
    "C71_open_error_refuted",
    "C71_pointer",
    "C71_pointer_refuted",
    "C71_quiet",
    "C71_table",
    "C71_table_returned_refuted"
   ],
   "note": "proved: missing and unusable bonds, kind of timestamps, exact choice, settling after a second table, steering, timestamping on for members over all histories, the alarm in error cases, quiet tables, order over interfaces. Refuted: interface of the present set (the old one is used, one table late), reset of all servos (only the first), switching off when the kind changes too, alarm cleared without an interface, open errors of other than the last port, valid bond description (points to a dead stack variable after any change), tables given back on error, hardware timestamps on a capable interface"
  },
  {
   "property": "C72",
   "status": "partial",
   "theorems": [
    "C72_states",
    "C72_class",
    "C72_class_refuted",
    "C72_accuracy",
    "C72_status",
    "C72_view",
    "C72_view_traceable_refuted",
    "C72_view_offset_refuted",
    "C72_view_accuracy_refuted",
    "C72_event",
    "C72_score",
    "C72_score_refuted",
    "C72_score_answer_refuted",
    "C72_sync",
    "C72_sync_alarm_refuted",
    "C72_sync_reached",
    "C72_threshold",
    "C72_threshold_software_refuted",
    "C72_defined",
    "C72_threshold_negative_refuted",
    "C72_published",
    "C72_published_late_refuted",
    "C72_leap",
    "C72_leap_late_refuted",
    "C72_cluster",
    "C72_cluster_stale_refuted",
    "C72_control",
    "C72_gm",
    "C72_discriminator_partial",
    "C72_discriminator_failed_refuted",
    "C72_discriminator_self_refuted"
   ],
   "note": "Proved for every history: the engine's view, the exact condition and content of each event, soundness and completeness of 'synchronised', the threshold, publication, leap seconds, clustering input, control flags, distribution of grandmaster data, definedness. Refuted parts: traceability, offset and timestamp accuracy are not compared; the score belongs to the previous offset and is 0 in the answer; an out-of-range offset during an alarm does not count; software timestamping starts with the hardware threshold; a negative threshold aborts; a leap flag seen before selection is never announced; the clustering keeps a stale offset; unknown class is sent as freerunning; a discriminator in the same thread never answers and a failed comparison is used."
  },
  {
   "property": "C73",
   "status": "partial",
   "theorems": [
    "C73_readings",
    "C73_accuracy",
    "C73_precise",
    "C73_pps_partial",
    "C73_pps_half_refuted",
    "C73_pps_normal_refuted",
    "C73_step",
    "C73_frozen_refuted",
    "C73_config",
    "C73_start_partial",
    "C73_empty_refuted",
    "C73_defined",
    "C73_settled",
    "C73_no_data",
    "C73_second_chance",
    "C73_ext_pps_partial",
    "C73_ext_pps_adjacent",
    "C73_ext_pps_refuted",
    "C73_pps_method",
    "C73_events",
    "C73_pin_events",
    "C73_no_event_refuted"
   ],
   "note": "Readings, precise method, configuration, fallback, second chance, steps and definedness are proved in full. The PPS difference is proved exact away from half a second, the choice at the start for non-empty device listings, the external input where it directly follows its clock; the rest of these claims is refuted, as is that an old PPS difference is ever given up and that no event is reported before the first."
  },
  {
   "property": "C74",
   "status": "partial",
   "theorems": [
    "C74_registry",
    "C74_rescan_partial",
    "C74_rescan_refuted",
    "C74_readonly",
    "C74_no_adjust",
    "C74_configured",
    "C74_step_partial",
    "C74_step_refuted",
    "C74_refusal",
    "C74_blocking",
    "C74_initial_partial",
    "C74_plugged_refuted",
    "C74_initial_refuted",
    "C74_threshold_refuted",
    "C74_set_not",
    "C74_compare",
    "C74_compare_fails",
    "C74_statistics_refuted",
    "C74_leap_partial",
    "C74_leap_refuted",
    "C74_leap_now",
    "C74_sync",
    "C74_lookup",
    "C74_lookup_refuted",
    "C74_identity",
    "C74_correction"
   ],
   "note": "Refuted: stepping after an adapter was removed aborts; an adapter plugged in while running is never set; the PHC of an adapter that stays is not reopened when its index changes; a blocked clock counts as initially corrected; a negative difference never reaches the threshold; the result of a successful leap second request is taken for an error; the statistic of the system clock counts only failures; lookup by identity never finds a clock. The rest is proved for all histories."
  },
  {
   "property": "C75",
   "status": "partial",
   "theorems": [
    "C75_create",
    "C75_clash",
    "C75_defaults",
    "C75_started",
    "C75_interfaces",
    "C75_multicast_partial",
    "C75_multicast_refuted",
    "C75_clean_partial",
    "C75_leak_refuted",
    "C75_ctx_refuted",
    "C75_port_refuted",
    "C75_shutdown",
    "C75_run_partial",
    "C75_run_refuted",
    "C75_pid",
    "C75_pid_refuted",
    "C75_code"
   ],
   "note": "False as stated and refuted: a failing interface context or port leads to a use of freed memory, a later failure leaks the global context, an interface with two instances never joins the multicast groups, a socket that cannot be added to the thread is a NULL dereference, a message for other servos is not released. Everything else is proved."
  },
  {
   "property": "C76",
   "status": "partial",
   "theorems": [
    "C76_pool_partial",
    "C76_init",
    "C76_option",
    "C76_shutdown",
    "C76_probe",
    "C76_tx",
    "C76_send",
    "C76_ready",
    "C76_handled",
    "C76_index",
    "C76_map_partial",
    "C76_many_refuted",
    "C76_ipv6_refuted",
    "C76_map_refuted"
   ],
   "note": "All parts proved for every history in which LACP bonds have at most 7 links and an IPv4 address, by an invariant over the operations and the exact effect of each. Missing and refuted: bonds of 8 to 16 links (the int 1 is shifted by 31, C76_many_refuted), IPv6 (the copy of the address overruns a struct sockaddr_in, C76_ipv6_refuted), and that a recorded socket is open after a socket option failed for it (C76_map_refuted; C76_map_partial without such failures)."
  },
  {
   "property": "C77",
   "status": "partial",
   "theorems": [
    "C77_handled_partial",
    "C77_rx",
    "C77_firsts",
    "C77_log",
    "C77_nodes",
    "C77_text",
    "C77_insert_refuted",
    "C77_gm_partial",
    "C77_gm_refuted"
   ],
   "note": "Proved for every history with at most 2^31 - 1 elements of a kind, by an invariant over the operations, whatever is read from the stack when a record is inserted. Missing and refuted: the insertion of a new Sync reads beyond a pointer (undefined behaviour, C77_insert_refuted), and the JSON output of a status always gives a null grandmaster (C77_gm_refuted; the text gives the right one)."
  },
  {
   "property": "C78",
   "status": "proved",
   "theorems": [
    "C78_digest",
    "C78_mac",
    "C78_mac_refuted"
   ],
   "note": "C78_digest: any message, any cutting, any initial memory and both byte orders give the digest of RFC 1321 (specified separately from the code, tried on the RFC's test suite). C78_mac: packet, key number and digest as stated if the length is a multiple of 4, defined exactly if there is room for 20 octets. C78_mac_refuted shows that the multiple of 4, which both callers ensure, is needed."
  },
  {
   "property": "C79",
   "status": "partial",
   "theorems": [
    "C79_safe_partial",
    "C79_safe_refuted",
    "C79_others",
    "C79_error_partial",
    "C79_timeout",
    "C79_success",
    "C79_arrival_partial",
    "C79_complete_partial",
    "C79_incomplete_partial",
    "C79_duplicate_refuted",
    "C79_order_refuted",
    "C79_size_refuted",
    "C79_retry",
    "C79_legacy"
   ],
   "note": "Proved: memory safety for packets with errors of the protocol, packets of others ignored, errors and time-out, success needs the last packet, a whole answer in any order gives all items in the order of arrival (in order: exactly the answer), an answer with packets missing and none repeated is never taken for a whole one. The repetition with smaller requests is proved. Refuted: duplicates are dropped, the order of the sequence, items larger than wanted, errors above 7."
  },
  {
   "property": "C80",
   "status": "proved",
   "theorems": [
    "C80_request",
    "C80_fit_refuted"
   ],
   "note": "C80_fit_refuted shows that the condition on the items is needed."
  }
 ]
}