{
 "claims": [
  {
   "property": "C01",
   "status": "proved",
   "theorems": [
    "C01_adaptive_output_prefix"
   ],
   "note": "adaptive pipeline with arbitrary window policy and RTT estimator, composed with the consumer; all histories"
  },
  {
   "property": "C02",
   "status": "proved",
   "theorems": [
    "C02_adaptive_complete_output"
   ],
   "note": "adaptive pipeline composed with the consumer"
  },
  {
   "property": "C03",
   "status": "proved",
   "theorems": [
    "C03_fixed_output_prefix"
   ],
   "note": "fixed pipeline composed with the consumer; all histories"
  },
  {
   "property": "C04",
   "status": "proved",
   "theorems": [
    "C04_fixed_complete_output"
   ],
   "note": "fixed pipeline composed with the consumer"
  },
  {
   "property": "C05",
   "status": "proved",
   "theorems": [
    "C05_adaptive_delivery_once",
    "C05_adaptive_delivery_requested",
    "C05_fixed_delivery_once",
    "C05_fixed_delivery_requested"
   ],
   "note": "all three pipeline types, any producer"
  },
  {
   "property": "C06",
   "status": "proved",
   "theorems": [
    "C06_adaptive_final_respected",
    "C06_fixed_final_respected"
   ],
   "note": "all three pipeline types, any producer"
  },
  {
   "property": "C07",
   "status": "proved",
   "theorems": [
    "C07_adaptive_requests_in_order",
    "C07_adaptive_resend_needed",
    "C07_fixed_requests_in_order",
    "C07_fixed_resend_needed"
   ],
   "note": "all three pipeline types, any producer"
  },
  {
   "property": "C08",
   "status": "proved",
   "theorems": [
    "C08_fixed_window",
    "C08_fixed_no_assertion_failure"
   ],
   "note": "all pipeline sizes and histories"
  },
  {
   "property": "C09",
   "status": "partial",
   "theorems": [
    "C09_adaptive_window_partial",
    "C09_adaptive_window_stale",
    "C09_adaptive_window_refuted",
    "C09_adaptive_assertion_refuted"
   ],
   "note": "false in general (in-flight counter drift); proved for all histories without a loss signal for a segment already queued for retransmission, and for all histories with the window enlarged by the number of such signals"
  },
  {
   "property": "C10",
   "status": "partial",
   "theorems": [
    "C10_adaptive_nothing_after_end",
    "C10_fixed_nothing_after_stop",
    "C10_fixed_nothing_after_done_partial",
    "C10_fixed_nothing_after_done_refuted"
   ],
   "note": "proved except for the fixed pipeline after a completion report, where a genuine producer is needed; false with a misbehaving producer"
  },
  {
   "property": "C11",
   "status": "proved",
   "theorems": [
    "C11_fetcher_interest_budget",
    "C11_fetcher_single_outcome",
    "C11_fetcher_failure_justified",
    "C11_fetcher_data_genuine",
    "C11_fetcher_retries_everything"
   ],
   "note": "DataFetcher, all event sequences"
  },
  {
   "property": "C12",
   "status": "partial",
   "theorems": [
    "C12_adaptive_retry_limit_partial",
    "C12_adaptive_retry_limit_refuted"
   ],
   "note": "proved for r >= 1; false for r = 0 (one retransmission is still made)"
  },
  {
   "property": "C13",
   "status": "partial",
   "theorems": [
    "C13_backoff_grows_refuted",
    "C13_backoff_constant"
   ],
   "note": "the property as stated is false of the code: the back-off delay is always 1 ms"
  },
  {
   "property": "C14",
   "status": "partial",
   "theorems": [
    "C14_adaptive_failure_justified",
    "C14_fixed_failure_justified_partial",
    "C14_fixed_failure_justified_refuted"
   ],
   "note": "proved for the adaptive pipelines; the fixed pipeline may report a missing FinalBlockId although one was received (refuted), the weaker claim without that clause is proved"
  },
  {
   "property": "C15",
   "status": "proved",
   "theorems": [
    "C15_fixed_never_hangs"
   ],
   "note": "any producer, unless an exception has ended the program"
  },
  {
   "property": "C16",
   "status": "partial",
   "theorems": [
    "C16_adaptive_never_hangs_partial",
    "C16_adaptive_timeout_follows_partial",
    "C16_aimd_never_hangs_partial",
    "C16_cubic_never_hangs_partial",
    "C16_cubic_never_hangs_days_partial",
    "C16_adaptive_never_hangs_refuted"
   ],
   "note": "proved for an honest producer unless a segment fails before the FinalBlockId is known; false in general: a fatal Nack before the FinalBlockId is known can leave the program waiting forever"
  },
  {
   "property": "C17",
   "status": "proved",
   "theorems": [
    "C17_adaptive_one_decrease_per_loss",
    "C17_adaptive_one_decrease_per_mark"
   ],
   "note": "all histories, all window policies"
  },
  {
   "property": "C18",
   "status": "proved",
   "theorems": [
    "C18_aimd_lower_bound",
    "C18_aimd_increase",
    "C18_aimd_decrease",
    "C18_aimd_allows_one",
    "C18_aimd_pipeline",
    "C18_small_initial_window_refuted",
    "C18_huge_initial_window_refuted"
   ],
   "note": "in binary64 arithmetic; the two refutations show what happens outside the range of parameters, which the option parser accepts"
  },
  {
   "property": "C19",
   "status": "proved",
   "theorems": [
    "C19_cubic_lower_bound",
    "C19_cubic_increase",
    "C19_cubic_allows_one",
    "C19_cubic_pipeline"
   ],
   "note": "in binary64 arithmetic, for arbitrary results of std::cbrt and std::pow"
  },
  {
   "property": "C20",
   "status": "proved",
   "theorems": [
    "C20_adaptive_summary_truthful",
    "C20_adaptive_retransmissions_need_losses"
   ],
   "note": "all histories"
  },
  {
   "property": "C21",
   "status": "proved",
   "theorems": [
    "C21_consumer_in_order",
    "C21_output_unique"
   ],
   "note": "all arrival orders of distinct segments"
  },
  {
   "property": "C22",
   "status": "proved",
   "theorems": [
    "C22_bad_segment_aborts",
    "C22_good_segments_do_not_abort"
   ],
   "note": "any validator verdicts"
  },
  {
   "property": "C23",
   "status": "proved",
   "theorems": [
    "C23_one_outcome",
    "C23_skipped",
    "C23_success_justified",
    "C23_failure_justified",
    "C23_never_stuck"
   ],
   "note": ""
  },
  {
   "property": "C24",
   "status": "proved",
   "theorems": [
    "C24_adaptive_end_to_end",
    "C24_fixed_end_to_end"
   ],
   "note": "The network is any that does not forge packets; the Face's matching of Data to Interests is part of the environment (honest_network)."
  },
  {
   "property": "C25",
   "status": "partial",
   "theorems": [
    "C25_at_most_one_reply",
    "C25_answered",
    "C25_segment_request",
    "C25_prefix_request",
    "C25_answer_satisfies_partial",
    "C25_answer_satisfies_refuted",
    "C25_answer_fresh_refuted"
   ],
   "note": "The claim that Data in reply satisfies the Interest is false for Interests in the other naming convention (or with a non-minimal segment number) and for MustBeFresh with freshness zero; proved for all other Interests."
  },
  {
   "property": "C26",
   "status": "proved",
   "theorems": [
    "C26_segmentation"
   ],
   "note": ""
  },
  {
   "property": "C27",
   "status": "proved",
   "theorems": [
    "C27_announced_is_served",
    "C27_version",
    "C27_discovered_name"
   ],
   "note": ""
  },
  {
   "property": "C28",
   "status": "proved",
   "theorems": [
    "C28_segment_round_trip",
    "C28_version_round_trip",
    "C28_segment_injective",
    "C28_version_injective",
    "C28_kinds_disjoint"
   ],
   "note": ""
  },
  {
   "property": "C29",
   "status": "proved",
   "theorems": [
    "C29_at_most_n",
    "C29_consecutive",
    "C29_names_different",
    "C29_names_prefix",
    "C29_progress",
    "C29_all_sent",
    "C29_no_assertion_failure"
   ],
   "note": "names different as long as the 64-bit sequence number does not wrap"
  },
  {
   "property": "C30",
   "status": "proved",
   "theorems": [
    "C30_finish_last",
    "C30_finish_iff",
    "C30_one_result_per_ping"
   ],
   "note": ""
  },
  {
   "property": "C31",
   "status": "partial",
   "theorems": [
    "C31_counters",
    "C31_counters_at_end",
    "C31_counters_range",
    "C31_minimum",
    "C31_maximum",
    "C31_minimum_attained",
    "C31_maximum_attained",
    "C31_average",
    "C31_average_between_partial",
    "C31_average_between_refuted",
    "C31_loss_rate",
    "C31_nack_rate"
   ],
   "note": "counters, minimum, maximum, rates and accuracy of the average proved in binary64 arithmetic; average between minimum and maximum holds only up to rounding (refuted exactly)"
  },
  {
   "property": "C32",
   "status": "partial",
   "theorems": [
    "C32_std_dev_number_partial",
    "C32_std_dev_cases",
    "C32_std_dev_accuracy",
    "C32_single_reply",
    "C32_std_dev_number_refuted"
   ],
   "note": "false: three replies after 0.1 ms each give NaN; proved that it is a number if the times vary enough, and for a single reply; if it is a number, it is accurate"
  },
  {
   "property": "C33",
   "status": "proved",
   "theorems": [
    "C33_exit_status",
    "C33_ends",
    "C33_interrupted"
   ],
   "note": ""
  },
  {
   "property": "C34",
   "status": "proved",
   "theorems": [
    "C34_server_answers",
    "C34_server_interrupted"
   ],
   "note": ""
  },
  {
   "property": "C35",
   "status": "partial",
   "theorems": [
    "C35_answer_satisfies_partial",
    "C35_answer_satisfies_refuted",
    "C35_received_le_answered"
   ],
   "note": "with server freshness 0 and a client that does not allow stale Data the answer does not satisfy the ping; everything else proved"
  },
  {
   "property": "C36",
   "status": "proved",
   "theorems": [
    "C36_one_output",
    "C36_first_event_decides",
    "C36_status",
    "C36_final"
   ],
   "note": ""
  },
  {
   "property": "C37",
   "status": "proved",
   "theorems": [
    "C37_packet",
    "C37_payload",
    "C37_no_payload",
    "C37_nack",
    "C36_status"
   ],
   "note": ""
  },
  {
   "property": "C38",
   "status": "proved",
   "theorems": [
    "C38_at_most_once",
    "C38_only_in_answer",
    "C38_answers",
    "C38_unsolicited",
    "C38_status",
    "C38_waits",
    "C38_final"
   ],
   "note": ""
  },
  {
   "property": "C39",
   "status": "partial",
   "theorems": [
    "C39_in_bounds_partial",
    "C39_no_wraparound",
    "C39_refuted"
   ],
   "note": "in bounds if the packet was captured completely; false of truncated captures, since the length on the wire is used; no computation wraps around in any case"
  },
  {
   "property": "C40",
   "status": "partial",
   "theorems": [
    "C40_decapsulation_partial",
    "C40_tcp_padding_refuted",
    "C40_fragment_refuted",
    "C40_ip_fragment_refuted"
   ],
   "note": "all encapsulations, header fields and options, and padding except behind TCP segments, where it is taken as payload (refuted); fragments may be shown as packets (refuted)"
  },
  {
   "property": "C41",
   "status": "proved",
   "theorems": [
    "C41_filter",
    "C41_filter_any_capture"
   ],
   "note": ""
  },
  {
   "property": "C42",
   "status": "proved",
   "theorems": [
    "C42_fields",
    "C42_timestamp"
   ],
   "note": "texts produced by ndn-cxx are assumed to contain no comma"
  },
  {
   "property": "C43",
   "status": "proved",
   "theorems": [
    "C43_output",
    "C43_every_input",
    "C43_every_element",
    "C43_one_line_each",
    "C43_recoverable",
    "C43_lossless",
    "C43_lossless_if_kept_refuted"
   ],
   "note": "the trees can always be recovered from the output; the bytes can if Block::parse of ndn-cxx discards the sub-elements of a value that is not a sequence of elements (refuted otherwise)"
  },
  {
   "property": "C44",
   "status": "proved",
   "theorems": [
    "C44_labels",
    "C44_names_distinct"
   ],
   "note": ""
  },
  {
   "property": "C45",
   "status": "proved",
   "theorems": [
    "C45_balanced",
    "C45_block_restores"
   ],
   "note": ""
  },
  {
   "property": "C46",
   "status": "partial",
   "theorems": [
    "C46_accepts_partial",
    "C46_rejects_partial",
    "C46_statuses",
    "C46_overflow_refuted"
   ],
   "note": "The options are accepted iff they are in the documented ranges, provided the RTO bounds are below 292 years, the name is valid, and the log files can be written. RTO bounds beyond that overflow (refuted). Splitting the command line into typed values is Boost code and not modelled."
  },
  {
   "property": "C47",
   "status": "partial",
   "theorems": [
    "C47_first_interest_partial",
    "C47_first_burst",
    "C47_refuted"
   ],
   "note": "An Interest for segment 0 is sent iff the pipeline is fixed or the initial window is in [1, 2^63); the statement is false for an initial window below 1, which is accepted. Version discovery precedes the pipeline and is covered by C23."
  },
  {
   "property": "C48",
   "status": "partial",
   "theorems": [
    "C48_ndnputchunks_partial",
    "C48_ndnping_partial",
    "C48_ndnpingserver_partial",
    "C48_ndnpeek",
    "C48_ndnpoke",
    "C48_ndndump",
    "C48_ndn_dissect",
    "C48_malformed_name_refuted"
   ],
   "note": "Proved for valid names; a malformed name leads to status 1 or an uncaught exception instead of status 2 (refuted), except for ndnpeek and ndnpoke."
  },
  {
   "property": "C49",
   "status": "partial",
   "theorems": [
    "C49_format_partial",
    "C49_below_1000_refuted"
   ],
   "note": "In binary64 arithmetic including the decimal output. The printed number is at most 1000, but not always below it (refuted)."
  },
  {
   "property": "C50",
   "status": "proved",
   "theorems": [
    "C50_rtt_samples_unambiguous"
   ],
   "note": "all histories"
  },
  {
   "property": "C51",
   "status": "partial",
   "theorems": [
    "C51_silence_ends_partial",
    "C51_always_ends_partial",
    "C51_unknown_final_refuted"
   ],
   "note": "proved if the final segment is known and the producer was honest, also when the network is not silent (C51_always_ends_partial); false if it is not known: with the default 15 retries and a window of 2, silence from the beginning leaves the pipeline waiting forever"
  },
  {
   "property": "C52",
   "status": "proved",
   "theorems": [
    "C52_fixed_interests_bounded",
    "C52_fixed_always_ends"
   ],
   "note": "any producer with finitely many segments; the only fairness assumption is that an awaited event happens at some time"
  },
  {
   "property": "C53",
   "status": "partial",
   "theorems": [
    "C53_fixed_success_complete",
    "C53_fixed_success_output",
    "C53_adaptive_success_output_partial",
    "C53_adaptive_success_complete_refuted",
    "C53_fixed_completion_succeeds",
    "C53_adaptive_completion_succeeds",
    "C53_fixed_appnack",
    "C53_adaptive_appnack",
    "C53_fixed_failure",
    "C53_adaptive_failure",
    "C53_no_other_status",
    "C53_fixed_transfer",
    "C53_adaptive_transfer"
   ],
   "note": "complete except: with an adaptive pipeline and a producer that answers segments beyond the final one it announces, status 0 is possible although a segment is missing (refuted)"
  },
  {
   "property": "C54",
   "status": "proved",
   "theorems": [
    "C54_damaged_headers",
    "C54_damaged_payload",
    "C54_no_payload",
    "C54_packet",
    "C54_every_packet",
    "C54_hexadecimal"
   ],
   "note": "Complete captures only (len = caplen), as for C39 and C40. Decoding by ndn-cxx is an arbitrary function."
  },
  {
   "property": "C55",
   "status": "proved",
   "theorems": [
    "C55_aimd_start",
    "C55_aimd_decrease",
    "C55_aimd_after_decrease",
    "C55_aimd_linear",
    "C55_aimd_round_trip",
    "C55_cubic_start",
    "C55_cubic_decrease",
    "C55_cubic_growth",
    "C55_cubic_no_fast_convergence",
    "C55_cubic_plateau",
    "C55_aimd_pipeline",
    "C55_cubic_pipeline"
   ],
   "note": "In binary64 arithmetic, one rounding per operation. AIMD: sane and moderate parameters as in C18, at most 2^42 changes. CUBIC: std::cbrt and std::pow are arbitrary functions; C55_cubic_growth needs W_max to be at least the initial window, which can fail only with fast convergence."
  },
  {
   "property": "C56",
   "status": "partial",
   "theorems": [
    "C56_exactly_elements_partial",
    "C56_elements_shown",
    "C56_items_genuine",
    "C56_content_fails_refuted",
    "C56_content_shown_as_elements_refuted"
   ],
   "note": "All elements of every packet are shown unless a Lua error stops the dissector; every item of any buffer is genuine. That exactly the elements are shown, without errors, is proved for packets whose values do not have the form of elements; it is false otherwise (refuted)."
  },
  {
   "property": "C57",
   "status": "proved",
   "theorems": [
    "C57_names_shown",
    "C57_uri_determines_name"
   ],
   "note": "Names anywhere in a packet that is dissected without a Lua error (see C56)."
  },
  {
   "property": "C58",
   "status": "partial",
   "theorems": [
    "C58_data",
    "C58_interest_partial",
    "C58_plain_interest",
    "C58_link_packet",
    "C58_interest_as_nack_refuted",
    "C58_data_as_interest_refuted"
   ],
   "note": "Data: proved for all contents. Interest: the name is right, but type Nack is shown if something inside looks like a Nack field. Link packets: proved for fields and values that do not look like packets, names or Nacks; refuted otherwise."
  },
  {
   "property": "C59",
   "status": "partial",
   "theorems": [
    "C59_several_packets_refuted",
    "C59_part_of_packet",
    "C59_short_part_ignored_refuted",
    "C59_incomplete_capture"
   ],
   "note": "False for every payload with a packet and (the beginning of) another one: the dissector fails after the first. Parts of packets are handled as promised if and only if they are longer than the header."
  },
  {
   "property": "C60",
   "status": "proved",
   "theorems": [
    "C60_output_is_input",
    "C60_success",
    "C60_same_name",
    "C60_unsolicited",
    "C60_never_answered",
    "C60_shorter_name",
    "C60_parameters",
    "C60_failures"
   ],
   "note": "Signatures, SHA-256 and the implicit digest are arbitrary functions; nobody else publishes matching Data."
  },
  {
   "property": "C61",
   "status": "proved",
   "theorems": [
    "C61_output",
    "C61_step",
    "C61_quit",
    "C61_end",
    "C61_readable"
   ],
   "note": "Without time stamps (-t). Clocks of 64 bits, fewer than 10^9 events."
  },
  {
   "property": "C62",
   "status": "partial",
   "theorems": [
    "C62_report",
    "C62_summary",
    "C62_hundred_percent_refuted"
   ],
   "note": "All proved except that 100% is printed only if there are no others: false because of six digits (refuted)."
  },
  {
   "property": "C63",
   "status": "proved",
   "theorems": [
    "C63_cwnd_file",
    "C63_cwnd_step",
    "C63_rtt_file",
    "C63_rtt_step",
    "C63_resolution_refuted"
   ],
   "note": "The estimator is an arbitrary function. The refutation shows that the lines cannot always be told apart by time."
  },
  {
   "property": "C64",
   "status": "proved",
   "theorems": [
    "C64_summary",
    "C64_fixed"
   ],
   "note": "The text of the elapsed time (boost::chrono) is an arbitrary function; a goodput is promised only if the clock advanced."
  },
  {
   "property": "C65",
   "status": "proved",
   "theorems": [
    "C65_adaptive_succeeds",
    "C65_aimd_succeeds",
    "C65_cubic_succeeds",
    "C65_cubic_succeeds_days",
    "C65_fixed_succeeds",
    "C65_adaptive_transfer",
    "C65_fixed_transfer"
   ],
   "note": "The condition that an adaptive window stays at least one is proved for AIMD with moderate parameters (C65_aimd_succeeds) and for CUBIC as long as the window stays below 2^63 (C65_cubic_succeeds); it does if it changes in the first eleven days only (C65_cubic_succeeds_days)."
  },
  {
   "property": "C66",
   "status": "partial",
   "theorems": [
    "C66_output",
    "C66_unregistered",
    "C66_sizes",
    "C66_ended_by_interest",
    "C66_large_payload_refuted"
   ],
   "note": "Output and exit status are proved for every execution, with the exact condition on sizes. That no Interest and no payload size ends the server is false: C66_ended_by_interest, C66_large_payload_refuted."
  },
  {
   "property": "C67",
   "status": "partial",
   "theorems": [
    "C67_output",
    "C67_segment_served",
    "C67_keeps_serving",
    "C67_ended_by_interest",
    "C67_registration_status_refuted",
    "C67_large_segments_refuted"
   ],
   "note": "Output, replies and exit status are proved for every execution. False: a failed registration gives status 0; a long Interest or a large segment size ends the program."
  },
  {
   "property": "C68",
   "status": "proved",
   "theorems": [
    "C68_packet",
    "C68_not_sent",
    "C68_unambiguous"
   ],
   "note": "SHA-256 is an arbitrary function (with 32 octets of output for C68_unambiguous); the nonce is arbitrary."
  },
  {
   "property": "C69",
   "status": "proved",
   "theorems": [
    "C69_lines",
    "C69_packet_line"
   ],
   "note": "For runs without a Lua error; C56 says for which packets there is none."
  },
  {
   "property": "C70",
   "status": "proved",
   "theorems": [
    "C70_program",
    "C70_no_crash",
    "C70_everything"
   ],
   "note": "libpcap is arbitrary; which line a packet gives is the subject of C40-C42 and C54. Packets of which only a part was captured: see C39."
  },
  {
   "property": "C71",
   "status": "partial",
   "theorems": [
    "C71_selection_partial",
    "C71_run_partial",
    "C71_ppp_nothing",
    "C71_ppp_refuted",
    "C71_7777_refuted"
   ],
   "note": "Proved for Ethernet and Linux cooked captures. False of PPP links: nothing is shown of NDN packets in PPP frames, and false of the Ethernet type 0x7777. The meaning of the filter expression is that of libpcap (trusted)."
  },
  {
   "property": "C72",
   "status": "partial",
   "theorems": [
    "C72_program_partial",
    "C72_total",
    "C72_behind_ndnpeek",
    "C72_readme",
    "C72_status_refuted",
    "C72_read_failure",
    "C72_read_failure_refuted"
   ],
   "note": "What is printed and the status are proved for all inputs. The status does not tell whether the input was intact (C72_status_refuted), and a failure to read looks like the end of the input. The text of the exception is an arbitrary function of the octets."
  },
  {
   "property": "C73",
   "status": "proved",
   "theorems": [
    "C73_program",
    "C73_verbose",
    "C73_silent"
   ],
   "note": "Text forms made by ndn-cxx, base64, the file system and the texts of exceptions are arbitrary; the clock does not go back (steady_clock)."
  },
  {
   "property": "C74",
   "status": "partial",
   "theorems": [
    "C74_program_partial",
    "C74_timeout_refuted",
    "C74_status_3_refuted"
   ],
   "note": "Proved except for the last sentence: the timer is started by the answer to the registration, so that -w does not limit the time before. Text forms made by ndn-cxx, signatures and the texts of exceptions are arbitrary."
  },
  {
   "property": "C75",
   "status": "partial",
   "theorems": [
    "C75_fixed_report",
    "C75_adaptive_report_partial",
    "C75_retransmission_refuted",
    "C75_discovery_report",
    "C75_summary",
    "C75_fixed_summary"
   ],
   "note": "Proved except for the last sentence: an adaptive pipeline may print \"Retransmitting segment\" for a segment whose retries are used up, and then gives up instead."
  },
  {
   "property": "C76",
   "status": "proved",
   "theorems": [
    "C76_program",
    "C76_accepted",
    "C76_silent"
   ],
   "note": "Text forms made by ndn-cxx and the texts of exceptions are arbitrary, as are the estimator of round-trip times, the file system and the cube root; an exception may leave the event loop at any time."
  },
  {
   "property": "C77",
   "status": "proved",
   "theorems": [
    "C77_measurement",
    "C77_timeout_due",
    "C77_timeout_found",
    "C77_reported"
   ],
   "note": "The estimator of ndn-cxx is arbitrary; what it has been told is computed from the history. The clock is the one of the model: it advances by arbitrary amounts between events."
  },
  {
   "property": "C78",
   "status": "proved",
   "theorems": [
    "C78_program",
    "C78_schedule",
    "C78_success"
   ],
   "note": "The specification is about notes that an observer takes, not about the variables of the program. Fewer than a thousand million events, a clock of 63 bits that does not go back. A prefix that is no name and a Face that cannot be made abort the program (no claim about the output then); an interval or timeout that does not fit 64 bits of nanoseconds is undefined behaviour."
  },
  {
   "property": "C79",
   "status": "proved",
   "theorems": [
    "C79_program",
    "C79_answers",
    "C79_success"
   ],
   "note": "The answers are specified by the size of the packet on the wire (at most 8800 octets). A prefix that is no name, and a Face, KeyChain or payload that cannot be made, abort the program (no claim about the output then)."
  },
  {
   "property": "C80",
   "status": "proved",
   "theorems": [
    "C80_program",
    "C80_sent",
    "C80_status_zero"
   ],
   "note": "C80_status_zero shows the finding about the exit status when the registration fails (see C67). The clock fits 64 bits. The text of names, packets and exceptions is arbitrary."
  },
  {
   "property": "C81",
   "status": "proved",
   "theorems": [
    "C81_transfer",
    "C81_fixed_succeeds",
    "C81_aimd_succeeds",
    "C81_cubic_succeeds",
    "C81_cubic_succeeds_days"
   ],
   "note": "Composition of C76 and C80. The time and the number of segments fit 64 bits, the versioned name can be encoded, the pipeline is not cancelled from outside (no code of ndncatchunks does so). For success with AIMD the parameters are moderate in the sense of C18 and the window changes at most 2^42 times; with CUBIC, the default, the window stays below 2^63 so that it can be converted to a 64-bit integer."
  },
  {
   "property": "C82",
   "status": "proved",
   "theorems": [
    "C82_counts",
    "C82_succeeds"
   ],
   "note": "Composition of C78 and C79. The numbers of the clock and of events are plausible as in C78; the prefix can be encoded. That all pings asked for have been sent is a hypothesis of C82_succeeds (the timer fires); the server -p limit, if any, is at least the number of Interests that reach it."
  },
  {
   "property": "C83",
   "status": "proved",
   "theorems": [
    "C83_output",
    "C83_succeeds"
   ],
   "note": "Composition of C73 and C74. For success the packet and the Interest are not longer than 8800 octets, the name has no component of type ParametersSha256Digest and no parameters are given; a timer of -w of either program does not fire first."
  },
  {
   "property": "C84",
   "status": "proved",
   "theorems": [
    "C84_window",
    "C84_pipeline",
    "C84_convertible",
    "C84_zero_rtt_refuted"
   ],
   "note": "C84_convertible gives the condition on the window in C65_cubic_succeeds and C81_cubic_succeeds. Assumed of cbrt and pow (root_like, cube_like): finite, the right sign, at most x + 1 and at most 2 x^3 + 1. Without the condition on the round-trip time it is false (C84_zero_rtt_refuted)."
  }
 ]
}