# Design of the ndn-tools verification

Everything is Rocq (Coq 8.16.1). `/repo` is read as text only. Every model
definition cites the file and lines that it models.

## Layout of `rocq/theories`

| file group | contents |
|---|---|
| `*Model.v`   | executable Gallina model of the C++ code, no proofs |
| `*Spec.v`    | small vocabulary used in the theorem statements, independent of the model helpers |
| `*Proofs.v`  | invariants and lemmas |
| `Props*.v`   | only the property theorems (closed by `exact`), their examples and `Print Assumptions` |

Modelling style: every program is a deterministic transition system
`step : config -> state -> event -> state`; the event list is the adversary
(network, clock, user, scheduler). Observable effects are accumulated in a trace
kept in the state, which the model only ever extends. Theorems are proved by
induction over the event list (no bound on lengths, sizes, or numbers of steps).

* C++ exceptions that leave the event loop: the state records the exception, and
  every later event is ignored (the process has terminated).
* `BOOST_ASSERT`: recorded as a trace event, execution continues (as with NDEBUG).
* Out-of-range accesses are a distinct outcome.
* Unordered-map iteration order: chosen by the environment (part of the event).

## Per property plan

| id | model | proof |
|---|---|---|
| C01, C02 | adaptive pipeline (`AdaptiveModel`), consumer (`ConsumerModel`), window policy and RTT estimator are arbitrary functions | invariant: delivered set, tracked set and next segment partition the requested segments; consumer refinement |
| C03, C04 | fixed pipeline (`FixedModel`) over `FetcherModel` | same, by slot invariant |
| C05 | both pipelines, arbitrary (malicious) Data | invariant "delivered => no longer tracked, below next" |
| C06, C07 | both pipelines | trace invariant |
| C08 | fixed pipeline | slot count |
| C09 | adaptive: the full statement is false (finding 1); proved for histories without the counter drift, and for all histories up to the number of stale signals; refuted in general | counting invariant + witness |
| C10 | both pipelines; false for the fixed one with a misbehaving producer (finding 5) | trace invariant + witness |
| C11, C13 | `FetcherModel` | budget invariant; C13 is false of the code (finding 8), refuted with witness and the exact delay is proved |
| C12 | adaptive retransmission counter; false for r = 0 (finding 6), proved with max(r,1)+1 | per-segment counting |
| C14 | adaptive: proved; fixed: refuted (finding 7), partial proved | trace invariant |
| C15 | fixed | slot invariant |
| C16 | adaptive: refuted in general (finding 3); proved for honest producers that are not refused early | progress invariant (`AdaptiveProgress.v`), witness |
| C51 | adaptive: proved once the final segment is known; refuted otherwise (finding 3) | descent on the number of possible timeouts along an infinite schedule (`AdaptiveLive.v`); for any arrivals `AdaptiveEnd.v` |
| C65 | both pipelines, consumer, exit status, composition with the producer | an infinite schedule with boundedly many losses: every Interest is answered or lost, each segment is sent boundedly often, so that the pipeline ends (`AdaptiveEnd.v`, `FixedEndLoss.v`); a failure would need more losses (`TransferTheorems.v`, for CUBIC `CubicProgress.v`) |
| C52 | fixed pipeline: proved | potential function on slots bounds Interests; strictly growing count along an infinite schedule (`FixedEnd.v`) |
| C17 | adaptive | recovery point invariant |
| C18, C19 | AIMD and CUBIC in IEEE binary64 (Flocq `BinarySingleNaN`), cube root and cube are arbitrary functions (for C84: of the right sign and order of magnitude) | monotonicity of rounding |
| C20 | adaptive counters vs. trace | counting invariant |
| C21, C22 | consumer | refinement to "longest gap-free run" |
| C23 | discovery over the fetcher | case analysis + fetcher theorems |
| C24 | composition producer + pipelines + consumer | corollary of C01-C04, C26 |
| C25-C28 | names, components, producer | structural induction, number encodings |
| C29-C35 | ping client, statistics (binary64), server, composition | counting invariants, error analysis; C31, C32, C35 refuted in part (findings 10, 20) |
| C36-C38 | peek, poke | invariants over event lists |
| C39-C42 | ndndump on byte lists with checked reads | Hoare-style lemma per printer; encapsulation theorem; C39 and C40 refuted in part (finding 11) |
| C43-C45 | TLV trees, dissector | structural induction on trees |
| C46-C48 | option validation in the `main` functions | case analysis; refuted in part (findings 12, 23, 24) |
| C49 | throughput formatting in binary64, decimal text of `std::to_string` | error analysis of three roundings; refuted in part (finding 25) |
| C50 | adaptive | trace invariant |
| C53 | whole ndncatchunks (`ExitModel`); adaptive pipelines only against a genuine producer (finding 5) | idle states from the slot and timer invariants; causes of exceptions along the trace |
| C70, C71 | `DumpRunModel`: run and main of ndndump over an arbitrary libpcap; the default filter as libpcap compiles it | behaviour relation, both directions; reading lemmas for headers; C71 refuted on PPP links (finding 35) |
| C72 | `DissectRunModel`: main of ndn-dissect over arbitrary streams and files; `DissectPipe`: ndnpoke, ndnpeek and ndn-dissect one after the other | behaviour relation, both directions; composition with C43 and C60 |
| C73, C74 | `PeekRunModel`: main of ndnpeek and ndnpoke with messages, over arbitrary events | behaviour relations, both directions (determinism and totality) |
| C75, C76 | `CatMsgModel`, `CatRunModel`: all messages of ndncatchunks and main with its options, over arbitrary events | messages and failure of each step related to what the step adds to the history (`tells`, `pipeline_explained`), composed along the run; all lines, reasons and parameters letter by letter in `CatTextSpec` |
| C77 | the adaptive pipelines with their clock, estimator and timer | invariant that ties each pending segment to the event that sent its latest Interest and to the estimate of that moment |
| C78 | `PingRunModel`: ndnping as a program, with options, packets, clock, timestamps, signals, exceptions and exit status | simulation between the counters of the program and the notes of an observer; texts by C61, C62 |
| C79 | `ServerRunModel`: ndnpingserver as a program, with options, timestamps, signals, registration, exceptions and exit status | the events read as phases serving and stopping, by induction over the events |
| C80 | `PutRunModel`: ndnputchunks as a program, with options, naming convention, messages, registration, exceptions and exit status | case analysis of the three Interest filters, induction over the events, C26 for the segments |
| C81 | `CatRunModel` and `PutRunModel` composed: every Data that the one gets was sent by the other | what the one program sends is published (induction over its events), then C24, C53, C65 and C76 |
| C82 | `PingRunModel` and `ServerRunModel` composed; Interests are read from the octets that ndnping sends | no ping has two outcomes, numbers and names are distinct (induction over the notes of C78), encoding of Interests is injective, induction over the run of the server in C79 |
| C83 | the two halves of `PeekRunModel` composed: every Data that ndnpeek gets was sent by ndnpoke | what ndnpoke sends (induction over its events), the Interest that ndnpeek sends is read back (C68), then C60, C73 and C74 |
| C84 | the CUBIC window in binary64 with times, alone and in the adaptive pipeline | rounding errors of each operation (`CubicUpper.v`); what can be added in x seconds, x^3 + 2^32 x, is superadditive, so that a bound in terms of the time and the number of changes is an invariant (`CubicUpper2.v`); the times of the changes in a run are in order (`AdaptiveTimed.v`); with this the window condition of `C65_cubic_succeeds` and `C81_cubic_succeeds` follows from the length of the run (`C84_convertible`, `C65_cubic_succeeds_days`, `C81_cubic_succeeds_days`) |
| C54 | ndndump on complete captures; relational specification of damage in `DumpSpec2` | one lemma per header: damaged ones are printed, intact ones lead to the payload; totality of the case distinction |
| C55 | AIMD and CUBIC windows in binary64, alone and inside the adaptive pipeline; specification in `RateSpec` | exact value after each change by induction on the operations since the last decrease; rounding error bound for a round trip; the pipeline's history is parsed into window changes (`window_log`) |
| C60 | composition of peek, poke and a network | projections to the two programs and their theorems |
| C61, C62 | the lines and summaries of ndnping as bytes (`PingTextModel`); `operator<<(double)` as `DecimalModel.double_text` | its text is a literal of the value rounded to six digits (Flocq FLX); the bounds of C32 carry over; reading the lines back; C62 refuted in part (finding 30) |
| C63, C64 | `ChunksTextModel`: the files of StatisticsCollector and the text of printSummary, driven by the signals of the adaptive pipelines | invariant per event: at most one window change, one sample and one completion; counters of C34 and decimal texts of C61/C49; times from the sum of the ticks |
| C66, C67 | `ServeModel`: the server programs with messages, the packet size limit of `Face::put`, registration, exit status | closed form of the state after any event list; sizes of encoded packets as arithmetic; construction of an Interest of 8800 octets; refuted in part (findings 32-34) |
| C68 | `PeekWireModel`: the Interest of ndnpeek as octets | elements by type; reading back by the injectivity of TLV encoding |
| C56-C59 | ndn.lua on byte lists; Lua numbers and UInt64 objects kept apart; errors are an outcome (`WiresharkModel`) | blocks of encoded elements are read back; queue and stack invariants; termination by total sizes; C56, C58, C59 refuted in part (findings 16, 26-28) |
| C69 | the loop over the items of a tree that makes the summaries, with its stack (`WiresharkSummaryModel`) | breadth-first shape of the items (`made`); invariant of the stack: items below are done; independent description of a summary (`WiresharkSummarySpec`) |

## Testing the theorems

`seeded/LOG.jsonl` records realistic wrong edits of the model made in a scratch copy. After an
edit, each lemma whose proof breaks is replaced by one that assumes a contradiction, until
everything builds; a theorem counts as failed if `Print Assumptions` then shows such an
assumption. Examples and refutations are left out, so that only theorems count.

## Trusted base

* Coq's kernel (8.16.1).
* Axioms. `Print Assumptions` is printed below every theorem in `Props*.v`. All theorems are
  closed under the global context, except those that mention floating-point numbers
  (`PropsPingStats.v`, `PropsPingText.v`, `PropsPingRun.v`, `PropsChunksText.v`, `PropsWindow.v`, `PropsRate.v`, `PropsCatRun.v`, `C75_summary`, `C75_fixed_summary`, `C16_aimd_never_hangs_partial`, `C65_aimd_succeeds`, and C46, C47, C49 in `PropsOptions.v`). Those depend on
  the axioms of Coq's classical real numbers, through Flocq:
  `ClassicalDedekindReals.sig_not_dec`, `ClassicalDedekindReals.sig_forall_dec`,
  `FunctionalExtensionality.functional_extensionality_dep`, `Classical_Prop.classic`.
  No axioms of our own.
* The correspondence between the model and the C++ code: by citation, reviewed by hand.
* ndn-cxx, Boost, libpcap, libc, and the C++ library behave as described in the "environment"
  comments of the models. Wireshark: `tvb(offset, n)` raises an error outside of the buffer;
  UInt64 objects follow the comments at the top of `WiresharkModel.v`.

What is modelled, by program:

| program | modelled | not modelled |
|---|---|---|
| ndncatchunks | data-fetcher, discover-version, pipeline-interests, -fixed, -adaptive, -aimd, -cubic, consumer, option checks and exit statuses of main, formatThroughput, all messages (except the text of the elapsed time), statistics-collector (log files) | option parsing by Boost, signature validation (the program uses the accept-all validator), RttEstimator (an arbitrary function), real time (an arbitrary clock that does not go back) |
| ndnputchunks | the whole program (`PutRunModel`): options with their messages, producer (segmentation, store, filters, metadata), messages, the packet size limit, registration failure, exceptions, exit status | the value of signatures, the text of exceptions, of the usage and of names and packets (arbitrary); signals (there is no handler) |
| ndnping | ping client, statistics collector, tracer and all text on both output streams, the packets, option checks, the clock, signals, exceptions, exit status | the text of a point in time (`-t`), of exceptions, of the usage and of the prefix (arbitrary), the sign of a NaN |
| ndnpingserver | the whole program (`ServerRunModel`): options with their messages, ping-server, tracer with time stamps, the packet size limit, registration, SIGINT, exceptions, exit status | the value of signatures, the text of exceptions, of the usage, of names and of points in time (arbitrary); the answer to the unregistration of the prefix |
| ndnpeek, ndnpoke | both tools, the Interest and the Data packet they make (as octets), both in a network, option checks, all messages, exit statuses | the value of signatures, SHA-256 (an arbitrary function), base64, text forms made by ndn-cxx (arbitrary functions) |
| ndndump | printPacket and all printers, the name filter, the line format, option checks, run and main with their output and exit status | libpcap (an arbitrary value of type `pcap`; what it makes of the default filter is written down in `bpf_default` from pcap-filter(7) and gencode.c, and trusted), text forms made by ndn-cxx (arbitrary functions) |
| ndn-dissect | dissector, option checks, main with its output and exit status | the text of exceptions (an arbitrary function of the octets) |
| dissect-wireshark | the whole dissector: finding packets, elements, items and their values, Info column, requests for more data, summaries appended to the lines | hidden fields, registration for ports, preferences of Wireshark |

The event loop: handlers run one at a time; a cancelled timer or Interest has no effect; the
Face answers an Interest at most once. `uint64_t` segment and sequence numbers are unbounded
naturals except where a comment says otherwise (ping sequence numbers are modulo 2^64).
Floating-point arithmetic is IEEE binary64, round to nearest even, without extended precision.

## Findings

Statements that turned out to be false of the code; names in parentheses are theorems.

1. Adaptive pipelines: a segment that waits for retransmission and is cancelled because it is
   beyond the final segment is subtracted from the in-flight counter a second time. The
   counter becomes negative: the assertion in `schedulePackets` fails and the window is
   exceeded (`C09_adaptive_assertion_refuted`, `C09_adaptive_window_refuted`). The excess is
   at most the number of such stale signals (`C09_adaptive_window_stale`).
2. Adaptive pipelines: a congestion Nack or lifetime expiry for a segment that already waits
   for retransmission decrements the counter again and queues the segment twice.
3. Adaptive pipelines: a fatal Nack (or an exhausted retry limit) before the final segment is
   known can leave the program waiting forever (`C16_adaptive_never_hangs_refuted`). In
   particular a producer that never answers makes ndncatchunks hang although the number of
   retries is limited (`C51_unknown_final_refuted`).
4. Adaptive pipelines: Data whose own number is greater than its FinalBlockId is dropped
   without checking for completion, so that the program can wait forever.
5. Completion is decided by counting, so that segments beyond the final one count. The fixed
   pipeline can then report completion and go on (`C10_fixed_nothing_after_done_refuted`).
   With an adaptive pipeline ndncatchunks then exits with status 0 although a segment is missing
   (`C53_adaptive_success_complete_refuted`).
6. `--retries 0` still retransmits once (`C12_adaptive_retry_limit_refuted`).
7. Fixed pipeline: a failure remembered before the final segment is known is not cleared
   afterwards: "no FinalBlockId" is reported although there is one
   (`C14_fixed_failure_justified_refuted`).
8. DataFetcher: the congestion counter is reset by every Interest, so the back-off is always
   1 ms (`C13_backoff_grows_refuted`, `C13_backoff_constant`).
9. Consumer alone: a duplicate of a segment already written stays in the buffer and stalls the
   output. The pipelines never deliver duplicates (C05).
10. ndnping: the standard deviation can be NaN (`C32_std_dev_number_refuted`); the average can
    exceed the maximum by a rounding error (`C31_average_between_refuted`).
11. ndndump uses the length on the wire instead of the captured length: reads out of bounds
    for truncated captures (`C39_refuted`). The IP total length is not applied to TCP, so
    Ethernet padding is shown as payload (`C40_tcp_padding_refuted`). NDNLP and IPv4 fragments
    are not recognised (`C40_fragment_refuted`, `C40_ip_fragment_refuted`). Only the first
    packet of a TCP segment is shown.
12. ndncatchunks accepts `--init-cwnd` below 1, and then sends nothing (`C47_refuted`), and
    windows so large that the conversion to an integer is undefined
    (`C18_huge_initial_window_refuted`). Step, coefficients, alpha and beta are not checked.
13. ndnpoke relies on the Face to deliver no Interest before the registration has succeeded.
14. ndn-dissect: trailing bytes may be missing in the output if `Block::parse` keeps elements
    on errors (`C43_lossless_if_kept_refuted`). Values that happen to be valid TLV are shown
    as trees.
15. ndnping without `-c` counts in an int, which overflows after 2^31 pings; `isalnum` is
    called with possibly negative characters.
16. ndn.lua: a packet that is followed by (the beginning of) another one leads to an index of a
    nil value; the Info column stays empty, and no more data is requested
    (`C59_several_packets_refuted`).
17. ndncatchunks: after a failure inside the timeout check the timer is scheduled again
    although the pipeline has stopped (harmless).
18. ndnputchunks answers an Interest in the other naming convention, or with a segment number
    in a longer form, with Data that does not satisfy it (`C25_answer_satisfies_refuted`);
    likewise with freshness 0 (`C25_answer_fresh_refuted`).
19. ndnputchunks accepts `--size` up to 8800, but such a packet exceeds the packet size limit: the
    program ends when a full segment is requested (`C67_large_segments_refuted`).
20. ndnpingserver accepts freshness 0; ndnping is then never satisfied
    (`C35_answer_satisfies_refuted`).
21. A prefix with two version components at its end makes ndncatchunks skip discovery.
22. ndnpeek accepts the empty name.
23. `--min-rto` and `--max-rto` overflow for large values (`C46_overflow_refuted`).
24. A malformed name terminates ndnping and ndnpingserver by an uncaught exception, and gives
    status 1 instead of 2 in the chunks programs (`C48_malformed_name_refuted`).
    `ndnping --help` exits with 2.
25. The throughput can be printed as `1000.000000 bit/s` (`C49_below_1000_refuted`).
26. ndn.lua takes every value for a sequence of elements if it has this form: bogus items are
    shown (`C56_content_shown_as_elements_refuted`); a bogus Nonce, HopLimit, FinalBlockId or a
    length of nine octets raises a Lua error that ends the dissection
    (`C56_content_fails_refuted`).
27. ndn.lua: the Info column can be influenced by values: an Interest is shown as a Nack
    (`C58_interest_as_nack_refuted`), Data in a link packet with a PIT token of two octets as an
    Interest (`C58_data_as_interest_refuted`).
28. ndn.lua does not reassemble a packet whose header is cut
    (`C59_short_part_ignored_refuted`). A malformed name is shown as "/", a malformed integer as
    2^64 - 1.
29. ndnpeek does not get the packet of a waiting ndnpoke by a prefix of its name, even with `-P`
    (`C60_shorter_name`), nor with application parameters (`C60_parameters`): the Interest is
    never answered.
30. ndnping prints percentages with six digits: "100% lost" although a reply was received, if
    more than two million pings were lost (`C62_hundred_percent_refuted`).
31. The times in the files of `--log-cwnd` have six digits, since the stream keeps its default
    precision. After a quarter of an hour, changes of the window within 5 ms get the same
    time (`C63_resolution_refuted`), so that a plot shows vertical jumps.
32. An Interest that is not longer than 8800 octets, but whose answer is, ends ndnpingserver with
    status 1: `Face::put` throws and nothing catches the exception before `main`. Every consumer
    can send one (`C66_ended_by_interest`). The same holds for every ping if the payload size is
    too large for a packet, which the option check accepts (`C66_large_payload_refuted`).
33. ndnputchunks likewise: a Nack contains the Interest and 12 more octets, so that an Interest of
    more than 8788 octets that is answered by a Nack ends the program
    (`C67_ended_by_interest`).
34. ndnputchunks exits with status 0 if the registration of its prefix fails
    (`C67_registration_status_refuted`); ndnpoke and ndnpingserver do not.
35. ndndump, called without a filter expression, shows nothing of NDN packets in PPP frames,
    although its manual page lists PPP links (traces of ndnSIM): the default filter compares the
    protocol field with the Ethernet type 0x8624 only (`C71_ppp_nothing`, `C71_ppp_refuted`). An
    empty filter expression (`ndndump -r FILE ''`) shows them. Likewise the Ethernet type 0x7777,
    which the printing code accepts (`C71_7777_refuted`).
36. ndn-dissect exits with status 0 also if its input is malformed (`C72_status_refuted`); only
    the message on the standard error tells. A failure to read, such as `ndn-dissect /` (opening
    a directory succeeds, reading it does not), looks like an empty input: no output, no message,
    status 0 (`C72_read_failure`, `C72_read_failure_refuted`).
37. `ndnpoke -w` starts its timer only when the prefix has been registered: the time until then
    (up to the timeout of the command Interest in ndn-cxx) is not limited
    (`C74_timeout_refuted`). Its exit status 3 does not mean that no Interest was received, as
    the manual page says, but that none was received that the packet satisfies
    (`C74_status_3_refuted`).
38. The adaptive pipelines print "Retransmitting segment #k" before they check whether a
    retransmission is permitted, and may then fail instead
    (`C75_retransmission_refuted`). With `-v`, a CUBIC pipeline lists the additive increase step,
    the multiplicative decrease factor and the reset of the window among its parameters, which it
    does not use (`adaptive_report` in `CatRunModel`).
39. `PipelineInterestsCubic::increaseWindow` divides by the smoothed round-trip time without a
    check. If that is 0 (a clock of low resolution and a local producer), the window becomes
    infinite, its conversion to `int64_t` is undefined (on x86-64 it gives -2^63) and no Interest
    is sent any more (`C84_zero_rtt_refuted`). With any other round-trip time the window stays
    below 2^60 (`C84_pipeline`).
