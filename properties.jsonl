{"id": "C01", "title": "Adaptive catchunks never writes wrong bytes", "statement": "While ndncatchunks runs with an adaptive pipeline (aimd or cubic) against a producer whose segment Data are genuine, the bytes written to standard output are at every moment a prefix of the published content.", "quantifier": "every content, every interleaving of Data, Nacks, lifetime expirations, RTO checks and clock advances, every option setting, every window policy and RTT estimator", "why_tests_cant": "tests replay a handful of arrival orders; the number of reorderings, losses and retransmissions is unbounded", "anchors": ["tools/chunks/catchunks/pipeline-interests-adaptive.cpp: PipelineInterestsAdaptive::{doRun,checkRto,sendInterest,schedulePackets,handleData,handleNack,handleLifetimeExpiration,handleFail}", "tools/chunks/catchunks/pipeline-interests.cpp", "tools/chunks/catchunks/consumer.cpp: Consumer::{handleData,writeInOrderData}"]}
{"id": "C02", "title": "Adaptive catchunks completion means whole content", "statement": "When an adaptive pipeline reports that all segments have been received (and stops), and the producer's segments and FinalBlockId are genuine, standard output holds exactly the whole published content.", "quantifier": "every content, every network history, every option setting, every window policy", "why_tests_cant": "depends on all loss/reorder histories", "anchors": ["tools/chunks/catchunks/pipeline-interests-adaptive.cpp: PipelineInterestsAdaptive::{doRun,checkRto,sendInterest,schedulePackets,handleData,handleNack,handleLifetimeExpiration,handleFail}", "tools/chunks/catchunks/pipeline-interests.cpp", "tools/chunks/catchunks/consumer.cpp: Consumer::{handleData,writeInOrderData}"]}
{"id": "C03", "title": "Fixed catchunks never writes wrong bytes", "statement": "While ndncatchunks runs with the fixed pipeline against a genuine producer, standard output is at every moment a prefix of the published content.", "quantifier": "every content, pipeline size, retry limit and network history", "why_tests_cant": "unbounded set of histories", "anchors": ["tools/chunks/catchunks/pipeline-interests-fixed.cpp: PipelineInterestsFixed::{doRun,fetchNextSegment,handleData,handleFail}", "tools/chunks/catchunks/data-fetcher.cpp", "tools/chunks/catchunks/pipeline-interests.cpp", "tools/chunks/catchunks/consumer.cpp: Consumer::{handleData,writeInOrderData}"]}
{"id": "C04", "title": "Fixed catchunks completion means whole content", "statement": "When the fixed pipeline reports completion and the producer is genuine, standard output holds exactly the whole published content.", "quantifier": "every content, pipeline size, retry limit and network history", "why_tests_cant": "unbounded set of histories", "anchors": ["tools/chunks/catchunks/pipeline-interests-fixed.cpp: PipelineInterestsFixed::{doRun,fetchNextSegment,handleData,handleFail}", "tools/chunks/catchunks/data-fetcher.cpp", "tools/chunks/catchunks/pipeline-interests.cpp", "tools/chunks/catchunks/consumer.cpp: Consumer::{handleData,writeInOrderData}"]}
{"id": "C05", "title": "Segments are delivered at most once", "statement": "No segment is handed to the application twice, whatever the network (or a malicious producer) does, in either pipeline.", "quantifier": "every event history, honest or not, every option setting", "why_tests_cant": "duplicates arise only in rare interleavings of retransmission and late Data", "anchors": ["tools/chunks/catchunks/pipeline-interests-adaptive.cpp: PipelineInterestsAdaptive::{doRun,checkRto,sendInterest,schedulePackets,handleData,handleNack,handleLifetimeExpiration,handleFail}", "tools/chunks/catchunks/pipeline-interests.cpp", "tools/chunks/catchunks/pipeline-interests-fixed.cpp: PipelineInterestsFixed::{doRun,fetchNextSegment,handleData,handleFail}", "tools/chunks/catchunks/data-fetcher.cpp", "tools/chunks/catchunks/pipeline-interests.cpp"]}
{"id": "C06", "title": "No Interest beyond the final segment", "statement": "Once a FinalBlockId has been received, no Interest for a segment after it is ever sent (first transmission or retransmission), in either pipeline.", "quantifier": "every event history", "why_tests_cant": "needs all interleavings of queued retransmissions and FinalBlockId arrival", "anchors": ["tools/chunks/catchunks/pipeline-interests-adaptive.cpp: PipelineInterestsAdaptive::{doRun,checkRto,sendInterest,schedulePackets,handleData,handleNack,handleLifetimeExpiration,handleFail}", "tools/chunks/catchunks/pipeline-interests.cpp", "tools/chunks/catchunks/pipeline-interests-fixed.cpp: PipelineInterestsFixed::{doRun,fetchNextSegment,handleData,handleFail}", "tools/chunks/catchunks/data-fetcher.cpp", "tools/chunks/catchunks/pipeline-interests.cpp"]}
{"id": "C07", "title": "New segments are requested in order without gaps", "statement": "The first-time Interests of a pipeline run are for segments 0,1,2,... in this order, each exactly once.", "quantifier": "every event history", "why_tests_cant": "unbounded runs", "anchors": ["tools/chunks/catchunks/pipeline-interests-adaptive.cpp: PipelineInterestsAdaptive::{doRun,checkRto,sendInterest,schedulePackets,handleData,handleNack,handleLifetimeExpiration,handleFail}", "tools/chunks/catchunks/pipeline-interests.cpp", "tools/chunks/catchunks/pipeline-interests-fixed.cpp: PipelineInterestsFixed::{doRun,fetchNextSegment,handleData,handleFail}", "tools/chunks/catchunks/data-fetcher.cpp", "tools/chunks/catchunks/pipeline-interests.cpp"]}
{"id": "C08", "title": "Fixed window bound", "statement": "With the fixed pipeline at most pipeline-size Interests are outstanding at any moment.", "quantifier": "every pipeline size and event history", "why_tests_cant": "a violation needs a particular interleaving", "anchors": ["tools/chunks/catchunks/pipeline-interests-fixed.cpp: PipelineInterestsFixed::{doRun,fetchNextSegment,handleData,handleFail}", "tools/chunks/catchunks/data-fetcher.cpp", "tools/chunks/catchunks/pipeline-interests.cpp"]}
{"id": "C09", "title": "Adaptive window bound", "statement": "An adaptive pipeline sends an Interest only while the number of outstanding Interests (sent, not answered and not declared lost) is below the floor of the congestion window.", "quantifier": "every event history and every window policy", "why_tests_cant": "the in-flight counter drifts only in rare histories", "anchors": ["tools/chunks/catchunks/pipeline-interests-adaptive.cpp: PipelineInterestsAdaptive::{doRun,checkRto,sendInterest,schedulePackets,handleData,handleNack,handleLifetimeExpiration,handleFail}", "tools/chunks/catchunks/pipeline-interests.cpp"]}
{"id": "C10", "title": "Nothing happens after the end", "statement": "A pipeline reports failure at most once, never reports completion after a failure or a failure after completion, and after a failure, an adaptive completion or a cancel it sends no Interest and delivers no segment.", "quantifier": "every event history", "why_tests_cant": "late events after termination are schedule dependent", "anchors": ["tools/chunks/catchunks/pipeline-interests-adaptive.cpp: PipelineInterestsAdaptive::{doRun,checkRto,sendInterest,schedulePackets,handleData,handleNack,handleLifetimeExpiration,handleFail}", "tools/chunks/catchunks/pipeline-interests.cpp", "tools/chunks/catchunks/pipeline-interests-fixed.cpp: PipelineInterestsFixed::{doRun,fetchNextSegment,handleData,handleFail}", "tools/chunks/catchunks/data-fetcher.cpp", "tools/chunks/catchunks/pipeline-interests.cpp"]}
{"id": "C11", "title": "DataFetcher retry budget", "statement": "A fetch with retry limits N (Nacks) and T (timeouts) sends at most 1+N+T Interests, reports exactly one outcome, gives up on a Duplicate/Congestion Nack only after N of them were retried, and on a timeout only after T retries; with infinite retries it never gives up because of timeouts.", "quantifier": "every limit (including infinite) and every sequence of Data/Nack/timeout/cancel events", "why_tests_cant": "all sequences", "anchors": ["tools/chunks/catchunks/data-fetcher.cpp: DataFetcher::{fetch,cancel,expressInterest,handleData,handleNack,handleTimeout}", "tools/chunks/catchunks/data-fetcher.hpp"]}
{"id": "C12", "title": "Adaptive retry limit", "statement": "With --retries r >= 0 an adaptive pipeline sends at most r+1 Interests for any single segment.", "quantifier": "every event history and every r", "why_tests_cant": "requires tracking all segments along unbounded histories; boundary at r=0", "anchors": ["tools/chunks/catchunks/pipeline-interests-adaptive.cpp: PipelineInterestsAdaptive::{doRun,checkRto,sendInterest,schedulePackets,handleData,handleNack,handleLifetimeExpiration,handleFail}", "tools/chunks/catchunks/pipeline-interests.cpp", "manpages/ndncatchunks.rst: --retries"]}
{"id": "C13", "title": "Congestion Nack backoff grows", "statement": "Successive congestion Nacks for one fetch are retried after exponentially growing delays, up to 10 seconds.", "quantifier": "every number of consecutive congestion Nacks", "why_tests_cant": "tests look at one retry", "anchors": ["tools/chunks/catchunks/data-fetcher.cpp: handleNack, expressInterest (m_nCongestionRetries)", "tools/chunks/catchunks/data-fetcher.hpp: MAX_CONGESTION_BACKOFF_TIME"]}
{"id": "C14", "title": "Failures are justified", "statement": "A pipeline reports failure only if a segment that belongs to the content could not be retrieved, or the fetching ended without any FinalBlockId having been seen.", "quantifier": "every event history with a genuine producer", "why_tests_cant": "depends on order of failure and FinalBlockId arrival", "anchors": ["tools/chunks/catchunks/pipeline-interests-adaptive.cpp: PipelineInterestsAdaptive::{doRun,checkRto,sendInterest,schedulePackets,handleData,handleNack,handleLifetimeExpiration,handleFail}", "tools/chunks/catchunks/pipeline-interests.cpp", "tools/chunks/catchunks/pipeline-interests-fixed.cpp: PipelineInterestsFixed::{doRun,fetchNextSegment,handleData,handleFail}", "tools/chunks/catchunks/data-fetcher.cpp", "tools/chunks/catchunks/pipeline-interests.cpp"]}
{"id": "C15", "title": "Fixed pipeline never hangs silently", "statement": "As long as the fixed pipeline has reported neither completion nor failure and was not cancelled, at least one Interest or retry timer is outstanding, so that the run continues.", "quantifier": "every event history with a genuine producer", "why_tests_cant": "a stall is the absence of an event in some schedule", "anchors": ["tools/chunks/catchunks/pipeline-interests-fixed.cpp: PipelineInterestsFixed::{doRun,fetchNextSegment,handleData,handleFail}", "tools/chunks/catchunks/data-fetcher.cpp", "tools/chunks/catchunks/pipeline-interests.cpp"]}
{"id": "C16", "title": "Adaptive pipeline never hangs silently", "statement": "As long as an adaptive pipeline has reported neither completion nor failure and was not cancelled, at least one of its Interests is in flight (so that Data, a Nack or a retransmission timeout will follow).", "quantifier": "every event history", "why_tests_cant": "a stall is the absence of an event in some schedule", "anchors": ["tools/chunks/catchunks/pipeline-interests-adaptive.cpp: PipelineInterestsAdaptive::{doRun,checkRto,sendInterest,schedulePackets,handleData,handleNack,handleLifetimeExpiration,handleFail}", "tools/chunks/catchunks/pipeline-interests.cpp"]}
{"id": "C17", "title": "One window decrease per loss event", "statement": "With conservative window adaptation enabled, two consecutive loss-triggered decreases are separated by the loss (or marking) of a segment first sent after the earlier decrease.", "quantifier": "every event history", "why_tests_cant": "needs all loss patterns", "anchors": ["tools/chunks/catchunks/pipeline-interests-adaptive.cpp: PipelineInterestsAdaptive::{doRun,checkRto,sendInterest,schedulePackets,handleData,handleNack,handleLifetimeExpiration,handleFail}", "tools/chunks/catchunks/pipeline-interests.cpp", "tools/chunks/catchunks/pipeline-interests-adaptive.cpp: recordTimeout, handleData"]}
{"id": "C18", "title": "AIMD window stays usable", "statement": "Starting from an initial window of at least 1, with a non-negative additive step, the AIMD congestion window never falls below min(initial window, 2) and is never NaN, for every double-precision evaluation, so at least one Interest is always allowed.", "quantifier": "every sequence of increases and decreases, every double parameter in range; for the last clause up to 2^42 changes, an initial window up to 2^40 and a step up to 2^20", "why_tests_cant": "all floating point values", "anchors": ["tools/chunks/catchunks/pipeline-interests-aimd.cpp: increaseWindow, decreaseWindow"]}
{"id": "C19", "title": "CUBIC window stays usable", "statement": "Starting from an initial window of at least 1 the CUBIC congestion window never falls below the initial window, and an increase never lowers it.", "quantifier": "every sequence of increases and decreases at arbitrary times", "why_tests_cant": "all values", "anchors": ["tools/chunks/catchunks/pipeline-interests-cubic.cpp: increaseWindow, decreaseWindow"]}
{"id": "C20", "title": "Adaptive statistics are truthful", "statement": "The counters printed by the adaptive summary agree with what happened: sent Interests, retransmissions, timeouts, congestion marks, received segments and bytes equal the numbers of the corresponding observable events, and skipped+performed retransmissions never exceed timeouts plus congestion Nacks.", "quantifier": "every event history", "why_tests_cant": "unbounded histories", "anchors": ["tools/chunks/catchunks/pipeline-interests-adaptive.cpp: PipelineInterestsAdaptive::{doRun,checkRto,sendInterest,schedulePackets,handleData,handleNack,handleLifetimeExpiration,handleFail}", "tools/chunks/catchunks/pipeline-interests.cpp", "tools/chunks/catchunks/pipeline-interests-adaptive.cpp: printSummary"]}
{"id": "C21", "title": "Consumer writes in order", "statement": "Whatever the arrival order of distinct segments, the consumer's output is the concatenation of the longest gap-free run of segments received so far starting at segment 0.", "quantifier": "every finite sequence of distinct segments", "why_tests_cant": "factorially many orders", "anchors": ["tools/chunks/catchunks/consumer.cpp: Consumer::{handleData,writeInOrderData}"]}
{"id": "C22", "title": "Bad segments abort and are never written", "statement": "If a segment fails validation or is an application-level Nack, the consumer stops with the documented exception/exit status and nothing of that segment is written.", "quantifier": "every sequence of arrivals and every validator verdict", "why_tests_cant": "all positions of the bad segment", "anchors": ["tools/chunks/catchunks/consumer.cpp: Consumer::{handleData,writeInOrderData}", "tools/chunks/catchunks/main.cpp"]}
{"id": "C23", "title": "Version discovery has one correct outcome", "statement": "Discovery reports exactly one outcome at most; it succeeds at once without any Interest if discovery is disabled or the name already ends with a version, otherwise it succeeds only with a name ending in a version component taken from valid metadata, and fails otherwise.", "quantifier": "every name, option and network history", "why_tests_cant": "all histories", "anchors": ["tools/chunks/catchunks/discover-version.cpp"]}
{"id": "C24", "title": "Chunks end to end", "statement": "Content published by ndnputchunks and fetched by ndncatchunks (any pipeline) over a network that may lose, delay, reorder, duplicate or Nack packets is reproduced byte for byte whenever the fetch completes, and never partially wrong before.", "quantifier": "every content, segment size, pipeline, network history", "why_tests_cant": "product of all the above", "anchors": ["tools/chunks/putchunks/producer.cpp", "tools/chunks/catchunks/pipeline-interests-adaptive.cpp: PipelineInterestsAdaptive::{doRun,checkRto,sendInterest,schedulePackets,handleData,handleNack,handleLifetimeExpiration,handleFail}", "tools/chunks/catchunks/pipeline-interests.cpp", "tools/chunks/catchunks/pipeline-interests-fixed.cpp: PipelineInterestsFixed::{doRun,fetchNextSegment,handleData,handleFail}", "tools/chunks/catchunks/data-fetcher.cpp", "tools/chunks/catchunks/pipeline-interests.cpp", "tools/chunks/catchunks/consumer.cpp: Consumer::{handleData,writeInOrderData}"]}
{"id": "C25", "title": "Producer answers are correct", "statement": "ndnputchunks answers an Interest with a Data packet that satisfies it; a request for an existing segment gets this very segment, for a missing segment a Nack; every Interest gets at most one reply.", "quantifier": "every Interest name and selector, every content", "why_tests_cant": "all names", "anchors": ["tools/chunks/putchunks/producer.cpp: processSegmentInterest, processDiscoveryInterest"]}
{"id": "C26", "title": "Segmentation is lossless", "statement": "The stored segments concatenate to the input, each is at most the maximum segment size, all but the last are full, there is at least one, and each carries the number of the last as FinalBlockId.", "quantifier": "every input and every segment size >= 1", "why_tests_cant": "all inputs", "anchors": ["tools/chunks/putchunks/producer.cpp: Producer::Producer"]}
{"id": "C27", "title": "Version announced equals version served", "statement": "The version in the metadata reply leads the discovering client to exactly the name under which the segments are served.", "quantifier": "every prefix with or without version, every timestamp", "why_tests_cant": "all names", "anchors": ["tools/chunks/putchunks/producer.cpp", "tools/chunks/catchunks/discover-version.cpp"]}
{"id": "C28", "title": "Segment and version components round trip", "statement": "Encoding a segment or version number as a name component and decoding it returns the number, in both naming conventions, and different numbers give different components; a component of the other kind is never mistaken for it.", "quantifier": "every 64-bit number", "why_tests_cant": "2^64 values", "anchors": ["tools/chunks/putchunks/producer.cpp", "tools/chunks/catchunks/pipeline-interests-adaptive.cpp: getSegmentFromPacket"]}
{"id": "C29", "title": "Ping client sends what was asked", "statement": "ndnping -c n sends exactly n Interests (never more, and n if not interrupted), with consecutive sequence numbers and pairwise different names under prefix/ping.", "quantifier": "every n, start sequence, prefix, identifier and event order", "why_tests_cant": "all schedules", "anchors": ["tools/ping/client/ping.cpp: Ping::{start,performPing,makePingName}"]}
{"id": "C30", "title": "Ping client finishes exactly once", "statement": "The finish notification is emitted at most once, exactly when n Interests were sent and all were answered, Nacked or timed out.", "quantifier": "every n and event order", "why_tests_cant": "all schedules", "anchors": ["tools/ping/client/ping.cpp: Ping::finish"]}
{"id": "C31", "title": "Ping statistics are truthful", "statement": "The counters equal the numbers of sent, received, nacked pings; minimum <= average <= maximum of the observed RTTs, min and max are attained; loss figures are consistent.", "quantifier": "every history of pings", "why_tests_cant": "all histories", "anchors": ["tools/ping/client/statistics-collector.cpp"]}
{"id": "C32", "title": "Ping standard deviation is a number", "statement": "The printed standard deviation is a non-negative number for every history in which a ping was received, and it is the standard deviation of the measured round-trip times up to rounding.", "quantifier": "every history, in double arithmetic", "why_tests_cant": "rounding-dependent", "anchors": ["tools/ping/client/statistics-collector.cpp: computeStatistics"]}
{"id": "C33", "title": "Ping exit status", "statement": "ndnping exits with 0 iff all pings sent were answered with Data, 1 otherwise, also when interrupted.", "quantifier": "every history including interruption", "why_tests_cant": "all schedules", "anchors": ["tools/ping/client/main.cpp: Runner::run", "manpages/ndnping.rst"]}
{"id": "C34", "title": "Ping server serves exactly what was asked", "statement": "ndnpingserver answers every ping Interest with one Data of the same name, configured freshness and payload size, and with -p n stops after exactly n answers.", "quantifier": "every Interest history and n", "why_tests_cant": "all histories", "anchors": ["tools/ping/server/ping-server.cpp", "tools/ping/server/main.cpp"]}
{"id": "C35", "title": "Ping client and server interoperate", "statement": "Over any network history, a Data generated by the server for a client's ping satisfies exactly this ping; the client never counts more replies than the server answered Interests.", "quantifier": "every history of the composed system", "why_tests_cant": "all schedules", "anchors": ["tools/ping/client/ping.cpp", "tools/ping/server/ping-server.cpp"]}
{"id": "C36", "title": "Peek has exactly one outcome", "statement": "ndnpeek prints at most one packet, its exit status tells which of Data/timeout/Nack/none happened, and once an outcome is known later events change nothing.", "quantifier": "every option and event order", "why_tests_cant": "all schedules", "anchors": ["tools/peek/ndnpeek/ndnpeek.cpp", "tools/peek/ndnpeek/main.cpp"]}
{"id": "C37", "title": "Peek output", "statement": "With Data the output is exactly the payload (-p) or exactly the packet's wire encoding; with a Nack the reason or the Nack header; otherwise nothing.", "quantifier": "every option and packet", "why_tests_cant": "all packets", "anchors": ["tools/peek/ndnpeek/ndnpeek.cpp: onData, onNack"]}
{"id": "C38", "title": "Poke sends at most one Data", "statement": "ndnpoke transmits its Data at most once: immediately if unsolicited, otherwise only in answer to an Interest that it satisfies, and never after a timeout; the exit status says which outcome happened.", "quantifier": "every option and event order", "why_tests_cant": "all schedules", "anchors": ["tools/peek/ndnpoke/ndnpoke.cpp", "tools/peek/ndnpoke/main.cpp"]}
{"id": "C39", "title": "ndndump reads only captured bytes", "statement": "Printing a captured packet never reads a byte outside the captured buffer and no length computation wraps around, for every link type and every content.", "quantifier": "every packet of every length", "why_tests_cant": "all byte strings", "anchors": ["tools/dump/ndndump.cpp: NdnDump::{printPacket,printEther,printLinuxSll,printPpp,printIp4,printIp6,printTcp,printUdp,printNdn}"]}
{"id": "C40", "title": "ndndump decapsulates correctly", "statement": "An NDN packet carried in Ethernet, Linux cooked, PPP, IPv4/IPv6 with UDP or TCP is printed with the right addresses, transport, length and packet description.", "quantifier": "every payload, every header field value, options and padding included", "why_tests_cant": "all packets", "anchors": ["tools/dump/ndndump.cpp"]}
{"id": "C41", "title": "ndndump name filter", "statement": "With a name filter, an Interest, Data or Nack line is printed iff its name matches the filter.", "quantifier": "every packet and filter", "why_tests_cant": "all packets", "anchors": ["tools/dump/ndndump.cpp: matchesFilter, printNdn"]}
{"id": "C42", "title": "ndndump line format", "statement": "Each printed line is a list of non-empty fields separated by exactly one ', ', optionally preceded by a timestamp with exactly six fractional digits.", "quantifier": "every packet", "why_tests_cant": "all packets", "anchors": ["tools/dump/ndndump.cpp: OutputFormatter, printPacket, printTimestamp"]}
{"id": "C43", "title": "Dissect shows the whole TLV tree", "statement": "ndndissect prints every TLV element once, in order, each on its own line with its type number, size and depth-correct tree prefix, so the tree structure can be recovered from the output.", "quantifier": "every TLV block of any depth and width", "why_tests_cant": "unbounded trees", "anchors": ["tools/dissect/dissector.cpp: printBlock, printBranches"]}
{"id": "C44", "title": "Dissect type naming", "statement": "Every TLV type gets exactly the documented label: its standard name, or UNKNOWN_APP for the application range, or RESERVED otherwise.", "quantifier": "all type numbers", "why_tests_cant": "2^32 values", "anchors": ["tools/dissect/dissector.cpp: printType, TLV_DICT"]}
{"id": "C45", "title": "Dissect terminates and stays in bounds", "statement": "The dissector's branch stack is balanced: it returns to its initial state after each top-level block and is never accessed empty.", "quantifier": "every block", "why_tests_cant": "unbounded trees", "anchors": ["tools/dissect/dissector.cpp: printBlock (m_branches)"]}
{"id": "C46", "title": "catchunks option validation", "statement": "ndncatchunks proceeds to fetch iff the option values are in the documented ranges, and exits with status 2 otherwise.", "quantifier": "every option tuple", "why_tests_cant": "all values", "anchors": ["tools/chunks/catchunks/main.cpp"]}
{"id": "C47", "title": "Accepted catchunks options make progress", "statement": "For every accepted option combination ndncatchunks sends at least one Interest for segment 0.", "quantifier": "every option tuple accepted by validation", "why_tests_cant": "all values", "anchors": ["tools/chunks/catchunks/main.cpp", "tools/chunks/catchunks/pipeline-interests-adaptive.cpp: schedulePackets"]}
{"id": "C48", "title": "Option validation of the other tools", "statement": "ndnputchunks, ndnping, ndnpingserver, ndnpeek, ndnpoke and ndndump run iff their options are in the documented ranges, and exit with status 2 otherwise.", "quantifier": "every option tuple", "why_tests_cant": "all values", "anchors": ["tools/chunks/putchunks/main.cpp", "tools/ping/client/main.cpp", "tools/ping/server/main.cpp", "tools/peek/ndnpeek/main.cpp", "tools/peek/ndnpoke/main.cpp", "tools/dump/main.cpp"]}
{"id": "C49", "title": "Throughput formatting", "statement": "The formatted throughput denotes the same quantity as the input, with the mantissa below 1000 unless the largest unit is used, and at least 1 unless the unit is bit/s.", "quantifier": "every non-negative throughput", "why_tests_cant": "all values", "anchors": ["tools/chunks/catchunks/pipeline-interests.cpp: formatThroughput"]}
{"id": "C50", "title": "RTT samples are unambiguous", "statement": "An adaptive pipeline never takes a round-trip-time sample from a segment whose Interest was retransmitted before, and every sample is non-negative.", "quantifier": "every event history, every retransmission pattern", "why_tests_cant": "needs all interleavings of retransmission and late Data", "anchors": ["tools/chunks/catchunks/pipeline-interests-adaptive.cpp: PipelineInterestsAdaptive::{doRun,checkRto,sendInterest,schedulePackets,handleData,handleNack,handleLifetimeExpiration,handleFail}", "tools/chunks/catchunks/pipeline-interests.cpp"]}
{"id": "C51", "title": "Silence ends in a failure report", "statement": "If the number of retransmissions per segment is limited and from some moment on nothing arrives any more, an adaptive pipeline that is not finished reports failure after finitely many timer checks.", "quantifier": "every event history before the silence, every schedule of clock ticks and timer checks during it in which time diverges", "why_tests_cant": "liveness over infinite schedules", "anchors": ["tools/chunks/catchunks/pipeline-interests-adaptive.cpp: PipelineInterestsAdaptive::{doRun,checkRto,sendInterest,schedulePackets,handleData,handleNack,handleLifetimeExpiration,handleFail}", "tools/chunks/catchunks/pipeline-interests.cpp"]}
{"id": "C52", "title": "The fixed pipeline always ends", "statement": "With a limited number of retries r, the fixed pipeline sends at most 2r+1 Interests for each segment it tries, and it always ends: if the producer has finitely many segments and every awaited answer or timer happens at some time, the pipeline reports completion or failure after finitely many events.", "quantifier": "every pipeline size, retry limit, producer, and every infinite schedule of network and timer events that does not stall", "why_tests_cant": "liveness over infinite schedules", "anchors": ["tools/chunks/catchunks/pipeline-interests-fixed.cpp", "tools/chunks/catchunks/data-fetcher.cpp"]}
{"id": "C53", "title": "Exit status of ndncatchunks", "statement": "ndncatchunks exits with status 0 only if the whole content, up to the announced final segment, was written to standard output; with status 3 exactly if an application-level Nack was received in place of a segment; with status 1 only if the version discovery failed, the pipeline reported failure, or a FinalBlockId was malformed; and with no other status. When the transfer completes, the status is 0. Together with ndnputchunks: if the exit status is 0, the output equals the published input.", "quantifier": "every discovery and pipeline history, every option value, any producer", "why_tests_cant": "needs all interleavings of events and the moment at which the event loop runs out of work", "anchors": ["tools/chunks/catchunks/main.cpp", "tools/chunks/catchunks/consumer.cpp", "tools/chunks/catchunks/pipeline-interests.cpp"]}
{"id": "C54", "title": "ndndump reports damaged and unsupported packets", "statement": "For a packet that was captured completely, ndndump prints the intact headers and then says what is wrong with the first damaged or unsupported one: truncated Ethernet, Linux cooked and PPP frames, IP version, header length and total length, truncated IP packets, TCP data offset, UDP length, unsupported protocols, payloads that are no complete NDN packet or cannot be decoded, LpPackets without a complete network packet. Such reports do not depend on the name filter. A packet with intact headers and no payload is not printed. Every packet falls into one of these cases or carries an NDN packet that is printed iff its name passes the filter.", "quantifier": "every byte string, link type and filter", "why_tests_cant": "damage can occur in every field of nested headers; tests use a few hand-made packets", "anchors": ["tools/dump/ndndump.cpp: printEther, printLinuxSll, printPpp, printIp4, printIp6, printTcp, printUdp, printNdn"]}
{"id": "C55", "title": "Rates of the congestion windows", "statement": "AIMD: below the slow start threshold the window grows by one step per acknowledgment; from the threshold on by step / floor(window), that is by at most one step per window of acknowledgments; a loss multiplies it by the configured factor but leaves at least 2, or restores the initial window with the reset option, and the reduced value becomes the threshold; without resets there is no slow start after the first loss. CUBIC: slow start by 1 per acknowledgment; a loss multiplies the window by beta but leaves at least the initial window; afterwards each acknowledgment makes up for 1/window of the distance to the larger of the cubic and the TCP-friendly window of RFC 8312, measured from the last loss, and leaves the window alone when that target is reached. In a running pipeline the window rises exactly once per delivered packet without (respected) congestion mark, falls only for a loss or a mark, and never changes otherwise.", "quantifier": "every option value in the sane range, every sequence of increases and decreases, every pipeline history", "why_tests_cant": "unbounded sequences of floating point operations; tests check a few increments", "anchors": ["tools/chunks/catchunks/pipeline-interests-aimd.cpp: increaseWindow, decreaseWindow", "tools/chunks/catchunks/pipeline-interests-cubic.cpp: increaseWindow, decreaseWindow", "tools/chunks/catchunks/pipeline-interests-adaptive.cpp: handleData, recordTimeout"]}
{"id": "C56", "title": "Wireshark shows the elements of a packet", "statement": "For a buffer that begins with an NDN packet, the Wireshark dissector shows one item per element of the packet: the item covers the element's octets, hangs on the item of the enclosing element, and carries the element's type, the name of this type, and its value (URI of a name or component, integer, Nack reason, cache policy). Nothing else is shown. For any other buffer, every item that is shown stands for octets of the buffer that have the form of an element of the item's type and size, inside of the element it hangs on; and the dissector always ends.", "quantifier": "every packet of arbitrary size and nesting, every trailing data, every buffer", "why_tests_cant": "unbounded nesting; heuristic parsing of arbitrary bytes; there are no automated tests of the dissector", "anchors": ["tools/dissect-wireshark/ndn.lua", "tools/dissect-wireshark/README.md"]}
{"id": "C57", "title": "Wireshark shows names as URIs", "statement": "Wherever a packet contains a name, the Wireshark dissector shows its NDN URI: components in order, unreserved characters as they are, other octets as %XX, values of periods only with three more periods, typed components with their number, digest components in hexadecimal. Different names are never shown as the same text.", "quantifier": "every name, every packet that contains it", "why_tests_cant": "injectivity over all byte strings and component types", "anchors": ["tools/dissect-wireshark/ndn.lua: getUriFromNameComponent, getUriFromName"]}
{"id": "C58", "title": "Type and name in Wireshark's packet list", "statement": "The Info column shows the type of the packet (Interest, Data, or Nack) and its own name: not that of a key locator, forwarding hint, or of something inside the content; for a link packet those of the network packet inside, as a Nack if there is a Nack field.", "quantifier": "every packet, every order of nested elements", "why_tests_cant": "depends on the order in which all nested elements are visited", "anchors": ["tools/dissect-wireshark/ndn.lua: ndn.dissector"]}
{"id": "C59", "title": "Several packets and reassembly in Wireshark", "statement": "All NDN packets in one datagram or segment are dissected. If a segment ends in the middle of a packet, the dissector asks for more data, starting at the first octet of this packet, and shows nothing of it until then. Incompletely captured packets are not dissected.", "quantifier": "every sequence of packets, every cut position", "why_tests_cant": "all cut positions of all packets", "anchors": ["tools/dissect-wireshark/ndn.lua: ndn.dissector, findNdnPacket, readVarNumber", "tools/dissect-wireshark/README.md"]}
{"id": "C60", "title": "Peek fetches what poke publishes", "statement": "When ndnpeek is pointed at the name ndnpoke was given, it prints exactly the bytes ndnpoke read from its standard input (-p) or the Data packet around them, and both programs exit with status 0 as soon as the registration, the Interest and the Data packet got through. Whatever the network does, an exit status 0 of ndnpeek means that. An Interest that does not ask for exactly that name (a mere prefix even with -P, a name with application parameters, or fresh Data when no freshness was given) is never answered by a waiting ndnpoke.", "quantifier": "all names, inputs and option combinations of both programs; all schedules of delivery, loss, repetition, expiry, timers, Nacks and Interests of other consumers", "why_tests_cant": "Unit tests run each program against a dummy face; nothing runs the two against each other, and the schedules of a network between them are unbounded.", "anchors": ["tools/peek/ndnpeek/ndnpeek.cpp:43-107", "tools/peek/ndnpoke/ndnpoke.cpp:46-105", "manpages/ndnpeek.rst", "manpages/ndnpoke.rst"]}
{"id": "C61", "title": "ndnping prints one line per ping", "statement": "Standard output of ndnping: for every ping that is answered by Data, answered by a Nack, or times out, one line at that moment, with its kind, its sequence number and, unless it timed out, its round-trip time to six digits; for SIGQUIT a summary of the pings so far, unless the program is about to end; at the end the statistics. The output can be read back: it determines the outcomes, their order and sequence numbers, and the times to the printed precision.", "quantifier": "all options, prefixes, Nack reasons, and all sequences of answers, timeouts, timers and signals", "why_tests_cant": "The text of all numbers in all orders of events; no test looks at the output.", "anchors": ["tools/ping/client/tracer.cpp", "tools/ping/client/statistics-collector.cpp:104-142", "tools/ping/client/main.cpp:54-108"]}
{"id": "C62", "title": "The printed statistics of ndnping are right", "statement": "The statistics that ndnping prints are those of the pings that were answered or timed out: the counts are exact; the percentages of lost and nacked pings are within 0.0006 and printed as 0 only if there are none, and as 100 only if there are no others; minimum, average, maximum and total of the round-trip times have an error of at most six millionths; the standard deviation is as accurate as its computation allows, or \"nan\".", "quantifier": "all histories of fewer than 2^31 pings, all round-trip times that a 64-bit clock can measure", "why_tests_cant": "Accumulated rounding errors and decimal text for unbounded histories.", "anchors": ["tools/ping/client/statistics-collector.cpp:40-142"]}
{"id": "C63", "title": "The log files of ndncatchunks record the transfer", "statement": "The file of --log-cwnd has, after its header, one line for every change of the congestion window, in order: the time since the start and the new window, as decimal numbers with six digits; the times never decrease. The file of --log-rtt has one line for every round-trip time measured, in order: the exact segment number, the measured time, and the RTT variation, smoothed RTT and RTO after this measurement, in milliseconds with six digits.", "quantifier": "all executions of the adaptive pipelines, all round-trip times and all windows", "why_tests_cant": "Unbounded executions, and the decimal text of every double.", "anchors": ["tools/chunks/catchunks/statistics-collector.cpp:27-50", "tools/chunks/catchunks/pipeline-interests-adaptive.cpp:262-280"]}
{"id": "C64", "title": "The summary of ndncatchunks is right", "statement": "ndncatchunks prints no summary before the transfer is complete, and then exactly one. Its numbers of segments, congestion marks, timeouts, window decreases, retransmissions and skipped retransmissions are exactly those of this transfer; the size has six digits, the goodput is eight times the bytes delivered divided by the time with six decimals of the printed unit, the percentage of retransmissions has six digits, and the round-trip times have three decimals.", "quantifier": "all executions of the adaptive pipelines that complete within 292 years, with fewer than 10^15 signals and 2^60 bytes; the common part for all executions of the fixed-size pipeline", "why_tests_cant": "Counters over unbounded executions; conversions to double and to text.", "anchors": ["tools/chunks/catchunks/pipeline-interests.cpp:124-135", "tools/chunks/catchunks/pipeline-interests-adaptive.cpp:422-445"]}
{"id": "C65", "title": "A transfer that is not lost too often succeeds", "statement": "If the version of the content is found, the producer publishes the content unchanged, no Interest is answered by a Nack that rules out a retry, every segment is lost at most as often as it may be retransmitted, and the network and the clock keep going, then ndncatchunks (fixed pipeline of any size, or an adaptive pipeline whose window stays at least one and bounded) exits with status 0 after finitely many events, and its standard output is the content; in particular the input of ndnputchunks, when that is the producer. Unlimited retransmissions (-1) tolerate any bounded number of losses.", "quantifier": "for all contents, segment sizes, pipeline sizes, window policies, retransmission timeouts, orders of arrival, patterns of loss, delays and option values", "why_tests_cant": "a test runs a few loss patterns; that every fair pattern leads to success is a statement about infinitely many infinite executions", "anchors": ["tools/chunks/catchunks/pipeline-interests-adaptive.cpp", "tools/chunks/catchunks/pipeline-interests-fixed.cpp", "tools/chunks/catchunks/data-fetcher.cpp", "tools/chunks/catchunks/consumer.cpp", "tools/chunks/putchunks/producer.cpp"]}
{"id": "C66", "title": "ndnpingserver reports what it does, and keeps running", "statement": "ndnpingserver prints one line with the last name component for every Interest it handles (none with the quiet option). It answers every Interest under prefix/ping until it is interrupted or the limit of pings is reached; then it prints the number of its answers and exits with status 0. It exits with status 1 only if the prefix cannot be registered; no Interest and no accepted payload size makes it end.", "quantifier": "every sequence of Interests, interruptions and answers to the registration; every prefix, limit, payload size, freshness and signature", "why_tests_cant": "unbounded sequences of Interests, all sizes of names and payloads against the packet size limit; no test looks at the output or the exit status", "anchors": ["tools/ping/server/main.cpp:41-79", "tools/ping/server/ping-server.cpp:40-77", "tools/ping/server/tracer.cpp:27-42"]}
{"id": "C67", "title": "ndnputchunks reports what it publishes, and keeps serving it", "statement": "ndnputchunks says how many packets it has published, which is the number of pieces of the given size that the input needs, and under which name; with -p the version is on the standard output; with -v every Interest and its reply. It answers every Interest until the registration of the prefix fails: every request for a segment gets this segment, at any time. If the registration fails it says so and exits with a non-zero status. No Interest and no accepted segment size makes it end.", "quantifier": "every input, prefix, version, segment size, naming convention and signature; every sequence of Interests", "why_tests_cant": "unbounded sequences of Interests and inputs; all sizes of names and segments against the packet size limit", "anchors": ["tools/chunks/putchunks/producer.cpp:40-159", "tools/chunks/putchunks/main.cpp:128-166"]}
{"id": "C68", "title": "The Interest of ndnpeek says what the options say", "statement": "The packet that ndnpeek sends is an Interest with the given name, with CanBePrefix, MustBeFresh, forwarding hint, hop limit and application parameters exactly if the options were given, with exactly the given values, and with the given lifetime unless it is the default; with application parameters the name also has exactly one digest of them. Different options make different packets. Nothing is sent only if the name has superfluous digest components or the packet would exceed 8800 octets.", "quantifier": "every name, option combination, nonce and parameter contents", "why_tests_cant": "all combinations of optional elements and all values; tests look at a few Interests", "anchors": ["tools/peek/ndnpeek/ndnpeek.cpp:43-80", "tools/peek/ndnpeek/main.cpp:130-204"]}
{"id": "C69", "title": "The one-line summaries of the Wireshark dissector are right", "statement": "Whenever the dissection of a buffer ends without an error, the line of every Interest, Data, MetaInfo, SignatureInfo, KeyLocator, forwarding hint, link packet, Nack and cache policy ends with the names and values of the known fields inside, in the order of their octets and at any depth, and no other line has such a summary. The line of a packet reads: the type of the packet, and then its fields as the sender has put them in, whatever the content and whatever follows the packet.", "quantifier": "every buffer; every packet of any fields and nesting", "why_tests_cant": "unbounded nesting and orders of elements; the repository has no test of the dissector", "anchors": ["tools/dissect-wireshark/ndn.lua:299-327", "tools/dissect-wireshark/ndn.lua:464-501"]}
{"id": "C70", "title": "ndndump as a program", "statement": "ndndump prints on the standard output exactly the lines of the packets that pass its filter, in the order of the capture, at most one line per packet, and nothing else; it says on the standard error what it captures from. It ends with status 2 for wrong options, 1 if the source, the link type or the filter cannot be used or the capture fails (after the lines printed so far), and 0 at the end of the file. It captures from the given interface or file, otherwise from the first interface that libpcap lists. Complete captures never lead to undefined behaviour.", "quantifier": "every command line, every behaviour of libpcap, every sequence of packets", "why_tests_cant": "unbounded captures; needs interfaces and failures of libpcap", "anchors": ["tools/dump/ndndump.cpp:97-178", "tools/dump/main.cpp:47-143"]}
{"id": "C71", "title": "The default filter of ndndump selects the NDN traffic", "statement": "Without a filter expression, ndndump shows the NDN packets of the links and tunnels listed in its manual page, and no other packets.", "quantifier": "every frame, every capture", "why_tests_cant": "unbounded captures, all addresses, ports, options and fragments; tests bypass libpcap", "anchors": ["tools/dump/ndndump.hpp:63-67", "tools/dump/ndndump.cpp:153-177", "manpages/ndndump.rst:14-24"]}
{"id": "C72", "title": "ndn-dissect as a program", "statement": "ndn-dissect reads the given file, or the standard input if there is none or it is a dash, and prints the trees of the elements in it and nothing else; if the input does not go on with an element, it says so on the standard error with the offset of that place. It ends with status 2 for wrong options, 3 if the file cannot be opened and 0 otherwise; the status tells whether the input was intact. Behind ndnpeek it shows the Data packet received, so that in the example of the README it shows as Content what was given to ndnpoke.", "quantifier": "every input, every command line, every behaviour of the file system; every Data packet that can be sent", "why_tests_cant": "unbounded inputs and nesting; no test runs the program or a pipe of the tools", "anchors": ["tools/dissect/main.cpp:42-101", "tools/dissect/dissector.cpp:42-56", "tools/dissect/README.md", "manpages/ndn-dissect.rst"]}
{"id": "C73", "title": "ndnpeek as a program", "statement": "ndnpeek writes to the standard output exactly one thing: the received packet or its payload, or the Nack or its reason; nothing after a timeout or an error. It exits with 0 for Data, 1 for an error, 2 for wrong options, 3 for a timeout and 4 for a Nack; what arrives after the first answer has no effect. Every refused option gives its message. With -v it shows the Interest, what was received and the round-trip time in whole milliseconds on the standard error, and nothing else changes; without -v the standard error is empty unless there is an error.", "quantifier": "every command line, every sequence of answers, timeouts and failures at any times", "why_tests_cant": "unbounded sequences of events; all combinations of options, failures and races between the answer and the timeouts", "anchors": ["tools/peek/ndnpeek/main.cpp:54-204", "tools/peek/ndnpeek/ndnpeek.cpp:43-139", "core/program-options-ext.cpp:30-43", "manpages/ndnpeek.rst"]}
{"id": "C74", "title": "ndnpoke as a program", "statement": "ndnpoke sends at most one packet, with the given name, freshness and final block and the standard input as content: at once with -u, otherwise in answer to the first Interest that it satisfies after the prefix is registered. It exits with 0 if it was sent, 1 for an error (as for a packet that is too long), 2 for wrong options, 3 if the timeout ends before and 5 if the registration fails; every refused option gives its message, and -v shows the registration, the Interests and the packet in their order. With -w it ends after the given time.", "quantifier": "every command line, every input, every sequence of Interests, timeouts and failures", "why_tests_cant": "unbounded sequences of events; all combinations of options and failures", "anchors": ["tools/peek/ndnpoke/main.cpp:51-168", "tools/peek/ndnpoke/ndnpoke.cpp:46-131", "manpages/ndnpoke.rst"]}
{"id": "C75", "title": "ndncatchunks -v reports what happens", "statement": "With --verbose, ndncatchunks prints exactly one line when it first requests a segment, for each segment that it hands to the application, for each Nack (with the Interest it answers), for each expired Interest of the fixed pipeline, for each retransmission of the adaptive pipelines, with the number of retries from the second on, for each decrease of the window, and for what the version discovery receives and finds; all in the order in which it happens. No line reports what did not happen.", "quantifier": "every pipeline, every option, every window policy, every sequence of events", "why_tests_cant": "unbounded sequences of losses, Nacks and races; the lines must match the whole history", "anchors": ["tools/chunks/catchunks/data-fetcher.cpp:87-174", "tools/chunks/catchunks/discover-version.cpp:69-95", "tools/chunks/catchunks/pipeline-interests-fixed.cpp:66-162", "tools/chunks/catchunks/pipeline-interests-adaptive.cpp:109-353"]}
{"id": "C76", "title": "ndncatchunks as a program", "statement": "ndncatchunks refuses each option value that is out of range with the message for it and status 2, an invalid name with status 1 and an unusable log file with status 4, and sends nothing. Otherwise its exit status is 0 exactly without an error line, and 3 for an application Nack, else 1, with exactly one error line; the reason in this line is true: the Nack was received, the retries are used up, the segment failed, the metadata was invalid. With --quiet nothing else is printed, by default only the summary when all has been received, with --verbose the parameters and the lines of C75. The received data is on the standard output in each case. (An RTO bound that is not representable in nanoseconds is undefined behaviour.)", "quantifier": "every command line, every sequence of events in discovery and transfer, every environment", "why_tests_cant": "all combinations of options, failures and sequences of events; the truth of the reason depends on the whole history", "anchors": ["tools/chunks/catchunks/main.cpp:55-312", "tools/chunks/catchunks/consumer.cpp:40-75", "tools/chunks/catchunks/consumer.hpp:52-72", "tools/chunks/catchunks/pipeline-interests.cpp:99-135", "tools/chunks/catchunks/pipeline-interests-adaptive.cpp:355-442"]}
{"id": "C77", "title": "Round-trip times and retransmission timeouts are measured right", "statement": "A round-trip time that an adaptive pipeline of ndncatchunks measures is the time between sending an Interest and receiving its Data, for a segment that was requested once only. An Interest is declared lost by the timer only if more time than the retransmission timeout has passed since it was sent, where the timeout is the one in force at that moment, computed from the measurements and losses before it; and every outstanding Interest of which this is true is found by the next check. The times, windows and thresholds reported with --verbose are these.", "quantifier": "every window policy, every estimator, every option, every sequence of network and timer events", "why_tests_cant": "clocks, retransmissions and races: the Interest to which a Data belongs and the timeout in force when it was sent depend on the whole history", "anchors": ["tools/chunks/catchunks/pipeline-interests-adaptive.cpp:78-169", "tools/chunks/catchunks/pipeline-interests-adaptive.cpp:195-291", "tools/chunks/catchunks/pipeline-interests-adaptive.cpp:336-362"]}
{"id": "C78", "title": "ndnping does what its manual page says, as a program", "statement": "For every command line and everything that may happen: ndnping complains about each option value that it does not accept and explains its usage; otherwise it prints the prefix, sends the Interests prefix/ping[/identifier]/number with successive numbers from the given or a random one, one at once and the others at least the interval apart, not more than asked for and none after an interrupt; it prints, with a timestamp if wanted, a line for each answer, Nack and timeout with the number and the time since that Interest was sent, a summary for each SIGQUIT, and the statistics of exactly these pings when it ends; it ends when everything sent has been settled and the pings are complete or the user has interrupted; the exit status is 0 if every ping was answered by Data, 1 if not, 2 for an exception, of which the standard error tells.", "quantifier": "every command line, every sequence of timer events, packets, timeouts, signals and exceptions at any times", "why_tests_cant": "the text, the packets and the status depend on the order and the times of everything that happens; tests cover a few runs of single classes", "anchors": ["tools/ping/client/main.cpp:37-243", "tools/ping/client/ping.cpp:30-122", "tools/ping/client/tracer.cpp:28-75", "tools/ping/client/statistics-collector.cpp:28-142"]}
{"id": "C79", "title": "ndnpingserver does what its manual page says, as a program", "statement": "For every command line and everything that may happen: ndnpingserver complains about each option value that it does not accept; otherwise it prints the prefix, answers every Interest under prefix/ping with a Data packet of the same name, the payload size and the freshness period asked for, and prints (unless quiet) a line with the last component of the name, with a timestamp if wanted; it stops when it has given as many answers as asked for or is interrupted, waits for the answer to the registration of its prefix if that is pending, and prints the number of its answers; the exit status is then 0; if the registration fails, an answer is too long or another exception occurs, the standard error tells so and the exit status is 1.", "quantifier": "every command line, every sequence of Interests, registration results, interrupts and exceptions at any times", "why_tests_cant": "the order of registration, interrupts, Interests and the limit matters; tests check the counter of the class for a few Interests", "anchors": ["tools/ping/server/main.cpp:40-188", "tools/ping/server/ping-server.cpp:30-77", "tools/ping/server/tracer.cpp:28-37"]}
{"id": "C80", "title": "ndnputchunks does what its manual page says, as a program", "statement": "For every command line, input and everything that may happen: ndnputchunks complains about each option value that it does not accept; otherwise it cuts the input into segments of the size asked for, under the name given with its version or with the time as version, in the chosen naming convention, says how many there are and under which name, prints the version if wanted, and answers requests for a segment by this segment or a Nack if there is none, requests for the content by the first segment if that satisfies them, and requests for metadata by the name of this version; with -v it tells each Interest and its answer; every Data packet that it sends is a segment of the input or such metadata; failures are told on the standard error, with the exit status 1, except that of the registration.", "quantifier": "every command line, every input, every sequence of Interests, registration failures and exceptions", "why_tests_cant": "the input, the segment size, the convention and the order of the events are unbounded; tests look at single Interests", "anchors": ["tools/chunks/putchunks/main.cpp:55-165", "tools/chunks/putchunks/producer.cpp:40-159"]}
{"id": "C81", "title": "What ndncatchunks writes is what ndnputchunks was given, as programs", "statement": "ndnputchunks is started with any input and any options that it accepts, ndncatchunks with its name (with the version, or without and discovery) and any options. If every packet that ndncatchunks gets has been sent by this ndnputchunks, possibly late, repeated, reordered or from a cache, then whatever happens to the two programs the standard output of ndncatchunks is at every moment a prefix of the input, and it is the input if the exit status is 0. If moreover the discovery succeeds, the network refuses nothing, loses each segment at most as often as the retries allow and every Interest is answered or expires, ndncatchunks does write the whole input and exit with status 0.", "quantifier": "every command line of both programs, every input, every sequence of events of both programs", "why_tests_cant": "two processes, an unreliable network, timers and unbounded inputs: integration tests see a handful of transfers", "anchors": ["tools/chunks/catchunks/main.cpp:55-312", "tools/chunks/putchunks/main.cpp:55-165", "tools/chunks/catchunks/consumer.cpp:40-109", "tools/chunks/putchunks/producer.cpp:40-159"]}
{"id": "C82", "title": "What ndnping and ndnpingserver report fits together, as programs", "statement": "ndnping and ndnpingserver run with any options. The network loses, delays, reorders and refuses packets but invents none and gives no Interest twice to the server. When both have ended regularly, the number of packets that the server prints as processed is at least the number that ndnping prints as received and at most the number that it prints as transmitted. If the server is left alone, its answers fit into packets, every ping reaches it and every answer comes back before the timeout, ndnping prints that all pings asked for were received and exits with status 0.", "quantifier": "every command line of both programs, every sequence of events of both programs with their times", "why_tests_cant": "two processes with timers and an unreliable network: tests see few runs", "anchors": ["tools/ping/client/main.cpp:37-243", "tools/ping/client/ping.cpp:30-122", "tools/ping/client/statistics-collector.cpp:28-142", "tools/ping/server/main.cpp:40-188", "tools/ping/server/ping-server.cpp:30-77"]}
{"id": "C83", "title": "What ndnpeek writes is what ndnpoke was given, as programs", "statement": "ndnpoke is started with any command line and any input, ndnpeek with any options. If ndnpeek gets no Data that this ndnpoke has not sent, then whatever else happens to the two programs: if ndnpeek exits with status 0 then ndnpoke has sent exactly one packet with this input and exits with status 0 too, and the standard output of ndnpeek is with -p exactly the input, without -p exactly the packet; with every other status except 4 (Nack) it is empty. If moreover ndnpeek asks for the packet by its name or its full name, the prefix is registered, the Interest arrives afterwards and the packet comes back in time, then both programs do exit with status 0.", "quantifier": "every command line of both programs, every input, every sequence of events of both programs", "why_tests_cant": "two processes, a network and timers: integration tests see a handful of exchanges", "anchors": ["tools/peek/ndnpeek/main.cpp:54-204", "tools/peek/ndnpeek/ndnpeek.cpp:43-139", "tools/peek/ndnpoke/main.cpp:51-168", "tools/peek/ndnpoke/ndnpoke.cpp:46-131"]}
{"id": "C84", "title": "The CUBIC window stays in a usable range", "statement": "With the default CUBIC pipeline the congestion window is at every moment an ordinary number below 2^60 that allows at least one Interest: it never becomes infinite or NaN and its conversion to a 64-bit integer never overflows, whatever increases and decreases happen in whatever order. This holds for transfers of up to eleven days with up to 2^42 window changes, an initial window of at most 2^40, a factor beta between 0 and 1 and a smoothed round-trip time that is not 0.", "quantifier": "every sequence of data, congestion marks, losses and timeouts; every round-trip time other than 0; every library cbrt and pow that is right in sign and order of magnitude", "why_tests_cant": "floating-point arithmetic over arbitrarily long histories: tests see a few window changes with fixed times", "anchors": ["tools/chunks/catchunks/pipeline-interests-cubic.cpp:47-112", "tools/chunks/catchunks/pipeline-interests-adaptive.cpp:170-185"]}
