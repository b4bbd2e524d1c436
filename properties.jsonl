{"id": "C01", "title": "Fixed-point multiplication is exact", "statement": "OWPNum64Mult(x,y) returns the exact product of the two 32.32 fixed-point numbers, truncated to 32 fractional bits and reduced modulo 2^32 seconds; no intermediate carry is lost.", "quantifier": "every pair of 64-bit values x, y", "why_tests_cant": "2^128 input pairs; the carry chain of the digit loop goes wrong only on rare operand patterns", "anchors": ["owamp/owamp/owamp/arithm64.c:OWPNum64Mult"]}
{"id": "C02", "title": "OWPNum64 <-> timespec/timeval conversions lose less than one unit and never run forward", "statement": "Converting a normalised timespec (timeval) to OWPNum64 and back yields a time that is never later than the original and less than 2 ns (2 us) earlier, with seconds and sub-seconds in range; converting an OWPNum64 to timespec and back never increases it and loses less than 6 fractional units (2^-32 s). Both directions preserve <=, so ordering of times is never inverted by conversion.", "quantifier": "all 64-bit fixed-point times and all normalised timespec/timeval values with 32-bit seconds", "why_tests_cant": "the input space is 2^64 and the rounding error depends on every low-order bit", "anchors": ["owamp/owamp/owamp/arithm64.c:OWPNum64ToTimespec", "owamp/owamp/owamp/arithm64.c:OWPTimespecToNum64", "owamp/owamp/owamp/arithm64.c:OWPNum64ToTimeval", "owamp/owamp/owamp/arithm64.c:OWPTimevalToNum64"]}
{"id": "C03", "title": "Timestamps survive the wire", "statement": "Encoding a timestamp into 8 octets of network order and decoding it gives the same 64-bit timestamp, every 8-octet string is the encoding of exactly one timestamp, and the Unix-epoch/NTP-epoch conversions used on either side are mutually inverse up to the sub-nanosecond rounding of the fixed-point format.", "quantifier": "all 64-bit timestamps, all 8-octet strings, all wall-clock times whose NTP second count fits 32 bits", "why_tests_cant": "2^64 values", "anchors": ["owamp/owamp/owamp/time.c:_OWPEncodeTimeStamp", "owamp/owamp/owamp/time.c:_OWPDecodeTimeStamp", "owamp/owamp/owamp/time.c:OWPTimespecToTimestamp", "owamp/owamp/owamp/time.c:OWPTimestampToTimespec"]}
{"id": "C04", "title": "The reported error estimate is a sound and tight bound on the clock error", "statement": "When a clock error of e microseconds is attached to a timestamp, the (scale,multiplier) pair put in the timestamp denotes an error of at least e, the multiplier is in 1..255 (so the pair is always legal on the wire), and the over-estimate is at most one unit of 2^scale plus the fixed-point rounding.", "quantifier": "every 32-bit microsecond clock error", "why_tests_cant": "the loop runs a data dependent number of times and the bound must hold for all 2^32 errors", "anchors": ["owamp/owamp/owamp/time.c:OWPTimespecToTimestamp", "owamp/owamp/owamp/arithm64.c:OWPUsecToNum64", "owamp/owamp/owamp/time.c:OWPGetTimeStampError"]}
{"id": "C05", "title": "Error-estimate octets round-trip and the illegal multiplier 0 never crosses the wire", "statement": "Encoding an error estimate succeeds exactly when the multiplier is non-zero; decoding what was encoded gives the same sync bit, multiplier and (6-bit) scale; decoding two octets whose multiplier is zero fails and forces the synchronised/scale octet to zero.", "quantifier": "all sync/scale/multiplier combinations and all pairs of octets", "why_tests_cant": "the claim is about every octet pair and every estimate, including malformed ones from peers", "anchors": ["owamp/owamp/owamp/time.c:_OWPEncodeTimeStampErrEstimate", "owamp/owamp/owamp/time.c:_OWPDecodeTimeStampErrEstimate"]}
{"id": "C06", "title": "Sender and receiver compute the same schedule", "statement": "The send schedule is a function of the session identifier and the test specification only: two schedule contexts created from the same SID and spec yield equal delays for packet 0,1,2,...; resetting a context (with or without re-supplying SID and spec) restarts exactly the same sequence, whatever was drawn before.", "quantifier": "all SIDs, all test specs, all numbers of previously drawn delays", "why_tests_cant": "needs equality of unbounded streams after arbitrary histories", "anchors": ["owamp/owamp/owamp/schedule.c:OWPScheduleContextCreate", "owamp/owamp/owamp/schedule.c:OWPScheduleContextReset", "owamp/owamp/owamp/schedule.c:OWPScheduleContextGenerateNextDelta"]}
{"id": "C07", "title": "Slots are used in rotation, one per packet", "statement": "The delay of packet i is produced by slot (i mod number-of-slots): a literal slot gives exactly its offset, an exponential slot gives its mean times the next unit exponential deviate; literal slots consume no randomness; the slot list passed by the caller is never read out of bounds although the context may internally shorten its slot count to the packet count.", "quantifier": "all slot lists, all packet indices", "why_tests_cant": "unbounded packet index and slot list", "anchors": ["owamp/owamp/owamp/schedule.c:OWPScheduleContextGenerateNextDelta", "owamp/owamp/owamp/schedule.c:OWPScheduleContextCreate"]}
{"id": "C08", "title": "The exponential generator implements Knuth's Algorithm S safely", "statement": "For every stream of uniform 32-bit words the generator terminates, never indexes its constant table out of bounds, and returns exactly the value prescribed by Algorithm S (j*ln2+U below ln2, otherwise (j+min of k uniforms)*ln2 with the least k>=2 such that U<Q[k]); the result is below 33 ln 2 in every case, so no overflow can occur.", "quantifier": "all uniform word streams", "why_tests_cant": "the table-overrun and 32-leading-ones cases have probability below 2^-31 per draw and are not reached by tests", "anchors": ["owamp/owamp/owamp/schedule.c:OWPExpContextNext", "owamp/owamp/owamp/schedule.c:OWPUnifRand64"]}
{"id": "C09", "title": "The uniform stream is AES in counter mode keyed by the SID", "statement": "The n-th 32-bit word drawn after a reset is the (n mod 4)-th big-endian word of the block cipher applied to the 128-bit big-endian counter whose value is n with its low two bits cleared; carries propagate through all 16 octets and the cipher is called once every four words.", "quantifier": "all n, all keys and all block ciphers", "why_tests_cant": "carries into high octets occur only after 2^8, 2^16, ... draws", "anchors": ["owamp/owamp/owamp/schedule.c:OWPUnifRand64"]}
{"id": "C10", "title": "An exhausted schedule is detectable", "statement": "Asking a schedule context for more delays than the session has packets produces a result that no in-range packet can produce.", "quantifier": "all schedules", "why_tests_cant": "needs a statement about every possible delay value", "anchors": ["owamp/owamp/owamp/schedule.c:OWPScheduleContextGenerateNextDelta"]}
{"id": "C11", "title": "Request-Session preamble round-trips", "statement": "Decoding the 112-octet Request-Session preamble produced by the encoder yields the same role configuration, addresses, ports, SID, padding, start time, timeout, typeP, slot and packet counts, for one-way requests and for two-way requests (where slot and packet counts are sent as zero).", "quantifier": "all test specs accepted by the encoder, IPv4 and IPv6, all four role combinations", "why_tests_cant": "the product of field values is astronomically large and byte-offset mistakes only show for particular values", "anchors": ["owamp/owamp/owamp/protocol.c:_OWPEncodeTestRequestPreamble", "owamp/owamp/owamp/protocol.c:_OWPDecodeTestRequestPreamble"]}
{"id": "C12", "title": "Malformed Request-Session preambles are rejected", "statement": "Whatever 112 octets arrive, the decoder succeeds if and only if the low four bits of the address-family octet say 4 or 6, at least one role octet is non-zero (one-way), and all role octets, the slot count and the packet count are zero (two-way); any other string is reported as a request that cannot be honoured, and an accepted preamble is fully determined by its octets. (The command octet is checked when the request type is read.)", "quantifier": "all octet strings of the preamble length", "why_tests_cant": "256^112 inputs", "anchors": ["owamp/owamp/owamp/protocol.c:_OWPDecodeTestRequestPreamble"]}
{"id": "C13", "title": "Slot descriptions round-trip and unknown slot types are refused", "statement": "Encoding a schedule slot into 16 octets and decoding it yields the same slot, and decoding refuses every slot whose type octet is not exponential or literal.", "quantifier": "all slots, all 16-octet strings", "why_tests_cant": "2^65 slots; all octet strings", "anchors": ["owamp/owamp/owamp/protocol.c:_OWPEncodeSlot", "owamp/owamp/owamp/protocol.c:_OWPDecodeSlot"]}
{"id": "C14", "title": "Data records round-trip through their 25-octet form", "statement": "A one-way data record written by OWPWriteDataRecord and read back by the record parser is equal in sequence number, both timestamps, both error estimates and TTL; a record whose error-estimate multiplier is zero is refused by the encoder; the older 24-octet form decodes to TTL 255.", "quantifier": "all records with 6-bit scales", "why_tests_cant": "2^220 records", "anchors": ["owamp/owamp/owamp/protocol.c:_OWPEncodeDataRecord", "owamp/owamp/owamp/protocol.c:_OWPDecodeDataRecord"]}
{"id": "C15", "title": "Two-way data records round-trip through their 50-octet form", "statement": "A two-way record (sent and reflected half) written by OWPWriteTWDataRecord and parsed back is unchanged in both halves.", "quantifier": "all pairs of records with 6-bit scales", "why_tests_cant": "2^440 records", "anchors": ["owamp/owamp/owamp/protocol.c:_OWPEncodeTWDataRecord", "owamp/owamp/owamp/protocol.c:_OWPDecodeTWDataRecord"]}
{"id": "C16", "title": "Control messages round-trip between client and server", "statement": "For each control message (server greeting, setup response, server start, accept-session, start-sessions, start-ack, fetch-session, fetch-ack) what one side writes is what the other side reads, in every mode, including the accept codes; a reader given anything else than the expected fixed fields marks the connection invalid.", "quantifier": "all field values of every message, all modes", "why_tests_cant": "every field combination; readers face arbitrary octets", "anchors": ["owamp/owamp/owamp/protocol.c:_OWPWriteServerGreeting", "owamp/owamp/owamp/protocol.c:_OWPReadServerGreeting", "owamp/owamp/owamp/protocol.c:_OWPWriteSetupResponse", "owamp/owamp/owamp/protocol.c:_OWPReadSetupResponse", "owamp/owamp/owamp/protocol.c:_OWPWriteServerStart", "owamp/owamp/owamp/protocol.c:_OWPReadServerStart", "owamp/owamp/owamp/protocol.c:_OWPWriteAcceptSession", "owamp/owamp/owamp/protocol.c:_OWPReadAcceptSession", "owamp/owamp/owamp/protocol.c:_OWPWriteStartAck", "owamp/owamp/owamp/protocol.c:_OWPReadStartAck", "owamp/owamp/owamp/protocol.c:_OWPWriteFetchSession", "owamp/owamp/owamp/protocol.c:_OWPReadFetchSession", "owamp/owamp/owamp/protocol.c:_OWPWriteFetchAck", "owamp/owamp/owamp/protocol.c:_OWPReadFetchAck"]}
{"id": "C17", "title": "Encrypted control streams decrypt to what was sent, across message boundaries", "statement": "If both ends start with the same key and IV, then for any sequence of messages sent in blocks over one direction of an authenticated/encrypted control connection, the receiver obtains the same sequence of plaintext blocks, no matter how the sender grouped them into write calls and the receiver into read calls.", "quantifier": "all block ciphers with an inverse, all message sequences and groupings", "why_tests_cant": "chaining state is carried across unboundedly many messages", "anchors": ["owamp/owamp/owamp/io.c:_OWPEncryptBlocks", "owamp/owamp/owamp/io.c:_OWPDecryptBlocks", "owamp/owamp/owamp/io.c:_OWPSendBlocksIntr", "owamp/owamp/owamp/io.c:_OWPReceiveBlocksIntr"]}
{"id": "C18", "title": "Control messages with a wrong integrity code are never acted upon", "statement": "On an authenticated or encrypted control connection each reader accepts a message only if the received authentication code equals the HMAC of exactly the octets of that message, otherwise the connection becomes invalid and no later command on it succeeds.", "quantifier": "all messages, all modifications, all message histories", "why_tests_cant": "quantifies over adversarial octets and histories", "anchors": ["owamp/owamp/owamp/io.c:_OWPRecvHMACCheckClear", "owamp/owamp/owamp/io.c:_OWPSendHMACDigestClear", "owamp/owamp/owamp/protocol.c:OWPReadRequestType"]}
{"id": "C19", "title": "Control commands are only processed in the protocol states that allow them", "statement": "On a server connection, commands are only handled after a completed setup, start-sessions/fetch only while no test is running, stop only while a test is running; reading a request while another operation is in progress fails; once a connection has become invalid it stays invalid.", "quantifier": "all histories of control commands, valid or not", "why_tests_cant": "histories are unbounded", "anchors": ["owamp/owamp/owamp/protocol.c:OWPReadRequestType", "owamp/owamp/owamp/owampP.h:_OWPStateIsRequest", "owamp/owamp/owamp/sapi.c:OWPUnexpectedRequestType"]}
{"id": "C20", "title": "The client uses only a security mode that was both requested and offered", "statement": "When OWPControlOpen succeeds past mode selection, the mode in use is a single mode that is contained in the set the caller allowed and in the set the server offered, it is the strongest such mode, and modes needing a key are only chosen when the caller has one.", "quantifier": "all offered masks, all requested masks, all user-id situations", "why_tests_cant": "2^64 mask combinations and must hold for malicious servers", "anchors": ["owamp/owamp/owamp/capi.c:OWPControlOpenCommon"]}
{"id": "C21", "title": "The server accepts only a security mode it offered", "statement": "A control connection is accepted only when the mode chosen by the client is exactly one mode and that mode is among the modes the server offered.", "quantifier": "all client mode words, all offered masks", "why_tests_cant": "must hold against every (malicious) client value", "anchors": ["owamp/owamp/owamp/sapi.c:OWPControlAcceptCommon"]}
{"id": "C22", "title": "Authenticated modes require proof of knowledge of the user's key", "statement": "In authenticated or encrypted mode the server accepts a connection only if the user name is known and the token sent by the client, decrypted with that user's key, contains exactly the challenge the server generated; the session keys used afterwards are those in the token; and an honest client that knows the key is always able to pass this step.", "quantifier": "all users, keys, tokens and challenges, for every invertible block cipher", "why_tests_cant": "adversarial tokens", "anchors": ["owamp/owamp/owamp/sapi.c:OWPControlAcceptCommon", "owamp/owamp/owamp/io.c:OWPDecryptToken", "owamp/owamp/owamp/io.c:OWPEncryptToken", "owamp/owamp/owamp/capi.c:OWPControlOpenCommon"]}
{"id": "C23", "title": "Open-mode clients cannot direct test traffic to third parties", "statement": "When a server in open mode accepts a one-way request in which the server is the sender, the receiver address equals the address of the control client; requests with both (or no) endpoints on the server are refused.", "quantifier": "all test requests and connection addresses", "why_tests_cant": "security property over all requests", "anchors": ["owamp/owamp/owamp/sapi.c:OWPProcessTestRequest"]}
{"id": "C24", "title": "Session file header round-trips", "statement": "Reading the header written by OWPWriteDataHeader (with any sequence of schedule slots) returns the same test specification, SID, addresses and slots, and the data-record offset it reports is where the first record is written.", "quantifier": "all test specs and slot counts for which the header size fits in 32 bits", "why_tests_cant": "unbounded slot counts, all field values", "anchors": ["owamp/owamp/owamp/api.c:OWPWriteDataHeader", "owamp/owamp/owamp/api.c:OWPReadDataHeader", "owamp/owamp/owamp/api.c:OWPReadDataHeaderSlots", "owamp/owamp/owamp/api.c:_OWPReadDataHeaderInitial"]}
{"id": "C25", "title": "In-place header updates touch only their own fields", "statement": "Updating finished/next-sequence, number of skip records or number of data records in a session file changes only the octets of those fields: every other octet of the file, in particular all data records, is unchanged, and re-reading returns the new values.", "quantifier": "all files, all values, all sequences of updates", "why_tests_cant": "all files and update histories", "anchors": ["owamp/owamp/owamp/api.c:_OWPWriteDataHeaderFinished", "owamp/owamp/owamp/api.c:OWPWriteDataHeaderNumSkipRecs", "owamp/owamp/owamp/api.c:OWPWriteDataHeaderNumDataRecs"]}
{"id": "C26", "title": "Record parsing visits every record once, in file order", "statement": "OWPParseRecords calls the application function exactly once for each of the requested records, in file order with the decoded values, stops at the first non-zero return and reports it, and reports an error if the file holds fewer records than requested.", "quantifier": "all files, all record counts, all application callbacks with state", "why_tests_cant": "arbitrary stateful callbacks and unbounded files", "anchors": ["owamp/owamp/owamp/api.c:OWPParseRecords", "owamp/owamp/owamp/api.c:OWPParseTWRecords"]}
{"id": "C27", "title": "A session file remains readable with the right records at every crash point", "statement": "If the process that completes a session dies after any prefix of its file writes, a later OWPReadDataHeader either refuses the file or reports a number of data records all of which are genuine data records.", "quantifier": "all crash points between individual file writes of session completion", "why_tests_cant": "crash points are not exercised by tests", "anchors": ["owamp/owamp/owamp/protocol.c:_OWPReadStopSessions", "owamp/owamp/owamp/api.c:OWPReadDataHeader", "owamp/owamp/owamp/api.c:OWPWriteDataHeaderNumSkipRecs", "owamp/owamp/owamp/api.c:_OWPWriteDataHeaderFinished"]}
{"id": "C28", "title": "The disk-space estimate covers the file actually written", "statement": "The size that OWPTestDiskspace reports for a test (used for the disk limits of the server) is at least the size of header plus one record per packet that the receiver may write.", "quantifier": "all test specifications", "why_tests_cant": "overflow appears only for enormous packet counts", "anchors": ["owamp/owamp/owamp/api.c:OWPTestDiskspace"]}
{"id": "C29", "title": "Skip lists survive the wire and the file", "statement": "The skip ranges written by the sender into its skip file, sent in the stop message and stored in the session file are read back by OWPReadDataSkips unchanged and in order.", "quantifier": "all skip lists whose octet length fits the format", "why_tests_cant": "unbounded lists", "anchors": ["owamp/owamp/owamp/protocol.c:_OWPEncodeSkipRecord", "owamp/owamp/owamp/protocol.c:_OWPDecodeSkipRecord", "owamp/owamp/owamp/api.c:OWPReadDataSkips", "owamp/owamp/owamp/endpoint.c:run_sender"]}
{"id": "C30", "title": "Inconsistent stop messages are refused", "statement": "A stop-sessions message is accepted only if it names every session for which the reader is the receiver exactly once and its skip ranges are in increasing, non-overlapping order below the announced next sequence number.", "quantifier": "all stop messages, all session lists", "why_tests_cant": "malformed messages from peers; arbitrary session lists", "anchors": ["owamp/owamp/owamp/protocol.c:_OWPReadStopSessions"]}
{"id": "C31", "title": "Clean-up keeps exactly the records that belong to the stopped session", "statement": "After the stop exchange, the receiver's session file contains, in original order, exactly those data records that precede the sender's next sequence number and whose (presumed) send time is not later than the stop time minus the loss timeout; missing records up to that point are added as lost, and the recorded count equals the records present.", "quantifier": "all record sequences, stop times, skip lists and next sequence numbers", "why_tests_cant": "quantifies over every recorded session", "anchors": ["owamp/owamp/owamp/api.c:_OWPCleanDataRecs"]}
{"id": "C32", "title": "Clean-up terminates on every session file", "statement": "The search for the first record that may have to be removed terminates for every file of records and every stop time and returns a position before which no record has to be removed.", "quantifier": "all record sequences sorted by (presumed) receive time", "why_tests_cant": "non-termination occurs for particular equalities between record times and the threshold", "anchors": ["owamp/owamp/owamp/api.c:_OWPCleanDataRecs"]}
{"id": "C33", "title": "Sender accounts for every sequence number exactly once", "statement": "Whatever the clock, send errors, signals and lateness, at the end of a send session every sequence number below the reported next-sequence-number was either transmitted exactly once or is contained in exactly one reported skip range, never both; no number at or above it was transmitted.", "quantifier": "all schedules, clock readings, send results and stop instants", "why_tests_cant": "all interleavings of clock, errors and signals", "anchors": ["owamp/owamp/owamp/endpoint.c:run_sender", "owamp/owamp/owamp/endpoint.c:skip"]}
{"id": "C34", "title": "Skip ranges are sorted, disjoint and maximal", "statement": "The skip ranges reported by the sender are in increasing order, pairwise disjoint, non-adjacent and non-empty, and the announced number of ranges equals the number written.", "quantifier": "all patterns of skipped packets", "why_tests_cant": "2^npackets patterns", "anchors": ["owamp/owamp/owamp/endpoint.c:skip", "owamp/owamp/owamp/endpoint.c:run_sender"]}
{"id": "C35", "title": "Packets are only sent inside their time window", "statement": "A test packet is transmitted only when the sender's clock is past the packet's scheduled time and not more than the loss timeout after it; packets that are later than that are skipped instead.", "quantifier": "all schedules and clock readings", "why_tests_cant": "all clock behaviours", "anchors": ["owamp/owamp/owamp/endpoint.c:run_sender"]}
{"id": "C36", "title": "Receiver records every packet of the session exactly as received or lost", "statement": "At any time during reception, each sequence number whose loss window has expired has either one or more received records and no lost record, or exactly one lost record and no received record; lost records appear in increasing sequence order with the scheduled send time; sequence numbers still inside the window have no lost record.", "quantifier": "all sequences of packet arrivals, duplicates, reorderings, invalid packets, and clock values", "why_tests_cant": "unbounded arrival histories with reordering, duplication and loss", "anchors": ["owamp/owamp/owamp/endpoint.c:run_receiver", "owamp/owamp/owamp/endpoint.c:flush_lost", "owamp/owamp/owamp/endpoint.c:get_node"]}
{"id": "C37", "title": "Only plausible packets are recorded", "statement": "Every received (non-lost) record has a sequence number below the packet count, a send time within the timeout of its scheduled time (up to the few 2^-32 s lost when the schedule is converted to nanoseconds), and a receive time within the timeout of its send time; every packet violating this leaves no record; and a packet of the session that satisfies it is recorded.", "quantifier": "all packet arrivals and clocks", "why_tests_cant": "all adversarial packets", "anchors": ["owamp/owamp/owamp/endpoint.c:run_receiver"]}
{"id": "C38", "title": "Lost packets are recorded even when the session is stopped early", "statement": "When the receiver is told to stop (by signal) every missing packet whose scheduled time plus timeout already passed has a lost record in the file.", "quantifier": "all arrival histories and stop instants", "why_tests_cant": "depends on the instant of the stop signal", "anchors": ["owamp/owamp/owamp/endpoint.c:run_receiver", "owamp/owamp/owamp/endpoint.c:flush_lost"]}
{"id": "C39", "title": "A stray datagram cannot destroy a running session", "statement": "A datagram that is not part of the session (wrong length, or from another host) arriving on a receiver's port leaves the session running and its recorded data intact.", "quantifier": "all datagrams and receiver states", "why_tests_cant": "adversarial traffic at any moment", "anchors": ["owamp/owamp/owamp/endpoint.c:run_receiver"]}
{"id": "C40", "title": "Port search covers the configured range and only that range", "statement": "When a test port range is configured, an endpoint binds a port inside the range if any port of the range is free, reports failure after trying every port once otherwise, and never binds a port outside of the range.", "quantifier": "all ranges, all initial random numbers, all sets of busy ports", "why_tests_cant": "depends on random number and all busy-port sets", "anchors": ["owamp/owamp/owamp/endpoint.c:_OWPEndpointInit"]}
{"id": "C41", "title": "Two-way reflector replies mirror the request", "statement": "Each reflected packet carries the reflector's own consecutive sequence number, and copies unchanged the sender's sequence number, timestamp, error estimate and the received TTL; the reply is never sent for packets failing the size or integrity checks.", "quantifier": "all request packets, all modes", "why_tests_cant": "all packets", "anchors": ["owamp/owamp/owamp/endpoint.c:run_reflector"]}
{"id": "C42", "title": "Fetching returns exactly the requested records", "statement": "A fetch of sequence range [begin,end] transfers exactly the records in the session file whose sequence number lies in the range (of a session that has not finished normally: none above the last packet received), in file order, and the number announced before the data equals the number transferred; a request for the complete session is refused unless the session finished normally.", "quantifier": "all session files and ranges", "why_tests_cant": "all files and ranges", "anchors": ["owamp/owamp/owamp/sapi.c:OWPProcessFetchSession", "owamp/owamp/owamp/sapi.c:DoDataRecords"]}
{"id": "C43", "title": "Fetched record streams are framed losslessly", "statement": "The block-aligned stream of n records sent by the server is parsed by the client into the same n records and the same number of trailing padding octets, for every n, and no internal buffer overflows.", "quantifier": "all record counts and contents", "why_tests_cant": "block/record phase relation repeats only every 16 records; all n required", "anchors": ["owamp/owamp/owamp/sapi.c:OWPProcessFetchSession", "owamp/owamp/owamp/sapi.c:DoDataState", "owamp/owamp/owamp/capi.c:OWPFetchSession"]}
{"id": "C44", "title": "Session statistics count every packet once", "statement": "For a record stream as produced by the receiver, the statistics report: sent = number of distinct sequence numbers recorded, lost = number of lost records, duplicates = received records minus distinct received sequence numbers.", "quantifier": "all record streams satisfying the receiver's guarantees", "why_tests_cant": "unbounded streams with reordering and duplicates", "anchors": ["owamp/owamp/owamp/stats.c:IterateSummarizeSession", "owamp/owamp/owamp/stats.c:PacketGet", "owamp/owamp/owamp/stats.c:PacketBeginFlush"]}
{"id": "C45", "title": "Reordering metric equals its definition", "statement": "The n-reordering counts printed for a session equal, for each n, the number of first-copy packets that arrive after at least n immediately preceding first-copy packets with larger sequence numbers.", "quantifier": "all arrival orders", "why_tests_cant": "all permutations", "anchors": ["owamp/owamp/owamp/stats.c:IterateSummarizeSession"]}
{"id": "C46", "title": "Percentiles and extremes are order-correct", "statement": "The reported percentile is the smallest recorded delay bucket such that at least the requested fraction of sent packets have a delay in that bucket or below; minimum and maximum TTL are the extremes of those observed.", "quantifier": "all delay multisets and fractions", "why_tests_cant": "all multisets", "anchors": ["owamp/owamp/owamp/stats.c:BucketBufferSortPercentile", "owamp/owamp/owamp/stats.c:CalculateTtlStats"]}
{"id": "C47", "title": "A statistics object can be re-used", "statement": "Calling OWPStatsParse repeatedly on the same statistics object is allowed and never crashes.", "quantifier": "all numbers of calls and record files", "why_tests_cant": "history dependent", "anchors": ["owamp/owamp/owamp/stats.c:OWPStatsParse", "owamp/owamp/owamp/stats.c:PacketAlloc", "owamp/owamp/owamp/stats.c:PacketFree"]}
{"id": "C48", "title": "Resource usage never exceeds a configured limit", "statement": "After any history of resource requests and releases by any number of control connections, the usage recorded at every class of the limit tree that has a non-zero limit is at most that limit (times the disk fudge factor for claims), and equals the sum of outstanding grants of the class and its descendants.", "quantifier": "all limit trees, all request/release histories with values in the exactly representable range", "why_tests_cant": "unbounded histories over arbitrary trees", "anchors": ["owamp/owamp/owampd/policy.c:IntegerResourceDemand", "owamp/owamp/owampd/policy.c:OWPDResourceDemand"]}
{"id": "C49", "title": "Resource requests are all-or-nothing along the class hierarchy", "statement": "A request is granted exactly when it fits at the class and at every ancestor that limits the resource; a refused request or release changes no usage anywhere; a granted one changes exactly the class and its ancestors by exactly the requested amount.", "quantifier": "all trees and amounts", "why_tests_cant": "all trees", "anchors": ["owamp/owamp/owampd/policy.c:IntegerResourceDemand"]}
{"id": "C50", "title": "Connections are assigned to the most specific matching network class", "statement": "The class selected for an address is that of the longest configured prefix containing it, otherwise the default class, and IPv4-mapped IPv6 addresses are treated as IPv4.", "quantifier": "all addresses and all sets of configured prefixes", "why_tests_cant": "2^128 addresses times all configurations", "anchors": ["owamp/owamp/owampd/policy.c:GetNodeFromAddr"]}
{"id": "C51", "title": "Limits are inherited by sub-classes", "statement": "After parsing any limits file, each class has a limit for every resource its parent limits, taken from its own line if given there and otherwise equal to the parent's.", "quantifier": "all limits files", "why_tests_cant": "all class hierarchies", "anchors": ["owamp/owamp/owampd/policy.c:parselimitline"]}
{"id": "C52", "title": "An authenticated user gets the class assigned to that user", "statement": "A connection authenticated as user U is put in the class named in the 'assign user U' line, when there is one.", "quantifier": "all configurations and all octets a client may send as its 80-octet user field", "why_tests_cant": "adversarial padding of the user field and name clashes", "anchors": ["owamp/owamp/owampd/policy.c:OWPDCheckControlPolicy", "owamp/owamp/owampd/policy.c:GetNodeFromUserID"]}
{"id": "C53", "title": "Resources of a dead connection are returned", "statement": "When a control connection process ends for whatever reason, everything it had been granted and has not released is released by the parent.", "quantifier": "all request histories and all crash points of the child", "why_tests_cant": "crash points", "anchors": ["owamp/owamp/owampd/owampd.c:FreeChldState", "owamp/owamp/owampd/owampd.c:ReapChildren", "owamp/owamp/owampd/policy.c:OWPDTestComplete"]}
{"id": "C54", "title": "Parent/child policy messages are understood as sent", "statement": "Class announcement and resource query messages written by a connection process are decoded by the parent to the same class, query kind, resource and amount, and every response is decoded to the same verdict; malformed messages are refused.", "quantifier": "all class names, resources and amounts; all octet strings for refusal", "why_tests_cant": "all values", "anchors": ["owamp/owamp/owampd/policy.c:OWPDSendClass", "owamp/owamp/owampd/policy.c:OWPDReadClass", "owamp/owamp/owampd/policy.c:OWPDQuery", "owamp/owamp/owampd/policy.c:OWPDReadQuery"]}
{"id": "C55", "title": "Port-range strings are parsed to sane ranges", "statement": "OWPParsePortRange succeeds only with 0 <= low <= high <= 65535 denoting the numbers in the text, accepts every string of the documented forms 'p' and 'low-high', and refuses everything else.", "quantifier": "all strings", "why_tests_cant": "all strings", "anchors": ["owamp/owamp/owamp/capi.c:OWPParsePortRange"]}
{"id": "C56", "title": "A clock without error estimate is not advertised as precise", "statement": "A timestamp taken from an unsynchronised clock, for which no error estimate is available, does not claim an error smaller than timestamps of synchronised clocks when it is sent to a peer.", "quantifier": "all clock readings", "why_tests_cant": "concerns every comparison with every synchronised estimate", "anchors": ["owamp/owamp/owamp/time.c:OWPTimespecToTimestamp", "owamp/owamp/owamp/time.c:OWPGetTimeOfDay", "owamp/owamp/owamp/time.c:_OWPEncodeTimeStampErrEstimate"]}
{"id": "C57", "title": "Cached error estimates are never stale", "statement": "An endpoint stamps each packet with the error estimate of the clock reading of that packet, although it re-computes the estimate only when the error changed, for every history of clock readings including loss and re-gain of synchronisation.", "quantifier": "all histories of clock readings", "why_tests_cant": "history dependent", "anchors": ["owamp/owamp/owamp/time.c:OWPTimespecToTimestamp", "owamp/owamp/owamp/endpoint.c:run_sender", "owamp/owamp/owamp/endpoint.c:run_receiver"]}
{"id": "C58", "title": "Clock readings are normalised and include the NTP offset exactly", "statement": "The wall-clock time used by endpoints equals the system time plus the (positive or negative) NTP offset, with nanoseconds in [0,10^9); a synchronised reading always has a non-zero error estimate.", "quantifier": "all system times, offsets and error estimates", "why_tests_cant": "all offsets", "anchors": ["owamp/owamp/owamp/time.c:_OWPGetTimespec"]}
{"id": "C59", "title": "Every schedule accepted by create or reset can be drawn from", "statement": "After OWPScheduleContextCreate or OWPScheduleContextReset reports success, all npackets delays can be generated without undefined behaviour.", "quantifier": "all test specs accepted by create/reset", "why_tests_cant": "all specs", "anchors": ["owamp/owamp/owamp/schedule.c:OWPScheduleContextReset", "owamp/owamp/owamp/schedule.c:CheckSlots", "owamp/owamp/owamp/schedule.c:OWPScheduleContextGenerateNextDelta"]}
{"id": "C60", "title": "Every refused test request is answered negatively", "statement": "Whenever the server turns a test request down without giving up the connection, the client receives an Accept-Session message with a non-zero code; a client is never left waiting and never told that a refused session was accepted.", "quantifier": "all requests, resource failures, policy answers and connection states", "why_tests_cant": "every failure path of the request processing", "anchors": ["owamp/owamp/owamp/sapi.c:OWPProcessTestRequest", "owamp/owamp/owamp/sapi.c:OWPProcessTestRequestTW", "owamp/owamp/owamp/protocol.c:_OWPReadTestRequest"]}
{"id": "C61", "title": "Refusing a request never loses the message boundaries", "statement": "After a request has been refused and the connection is still usable, the next request the server reads starts at the first octet of the client's next message.", "quantifier": "all requests of all kinds and all refusals", "why_tests_cant": "depends on the length of the refused message and on all failure points", "anchors": ["owamp/owamp/owamp/sapi.c:OWPUnexpectedRequestType", "owamp/owamp/owamp/protocol.c:_OWPReadTestRequest", "owamp/owamp/owamp/protocol.c:OWPReadRequestType"]}
{"id": "C62", "title": "Test packets carry their sequence number and send time intact", "statement": "In every mode, the receiver holding the session keys takes out of each test packet exactly the sequence number and the time stamp (the sender's clock reading, to 2^-32 s) that the sender put in; the packet has the length both sides derive from the session parameters; in open mode it has the layout of RFC 4656 4.1.2.", "quantifier": "all modes, keys, sequence numbers, time stamps, paddings and executions of the sender", "why_tests_cant": "all 2^96 sequence number/time stamp combinations under all keys", "anchors": ["owamp/owamp/owamp/endpoint.c:run_sender", "owamp/owamp/owamp/endpoint.c:run_receiver", "owamp/owamp/owamp/time.c:_OWPEncodeTimeStamp"]}
{"id": "C63", "title": "Resource limits hold whatever amounts are asked for", "statement": "A request is granted only if the usage plus the amount asked for is at most the limit, for every 64-bit amount, usage and limit.", "quantifier": "all 64-bit amounts, usages and limits", "why_tests_cant": "overflow and rounding show only for particular huge amounts", "anchors": ["owamp/owamp/owampd/policy.c: IntegerResourceDemand"]}
{"id": "C64", "title": "The order of the parameters of a limit line does not matter", "statement": "Two limit lines with the same parameters in a different order are both accepted or both refused, and define classes with the same limits.", "quantifier": "all limit lines and all permutations of their parameters", "why_tests_cant": "the accepted orders cannot be enumerated by tests for all lines", "anchors": ["owamp/owamp/owampd/policy.c: parselimitline"]}
{"id": "C65", "title": "Parsing a limits file never reads outside the line", "statement": "For every limits file, however malformed, the parser stays within the line read: a malformed line is refused with an error.", "quantifier": "all octet strings as lines", "why_tests_cant": "the violation needs a particular malformed line and a memory checker", "anchors": ["owamp/owamp/owampd/policy.c: parselimitline"]}
{"id": "C66", "title": "Only an authentic stop message completes a session", "statement": "A session file is marked as complete, and skip records are added to it, only if the stop message that reported them carries a valid authentication code (in the authenticated modes).", "quantifier": "all stop messages from any peer, all session lists", "why_tests_cant": "needs every altered message; the violation is visible only in the file after the connection was dropped", "anchors": ["owamp/owamp/owamp/protocol.c:_OWPReadStopSessions", "owamp/owamp/owamp/io.c:_OWPRecvHMACDigestAndClear"]}
{"id": "C67", "title": "A stop exchange between two correct sides succeeds", "statement": "If client and server each run their sessions to a proper end and neither the network nor the file system fails, OWPStopSessions at the client and OWPStopSessionsWait at the server both report success and acceptance, every sender's report ends up in the matching session file at the other side, and the connection is usable for further requests by both.", "quantifier": "all session lists with matching identifiers, all reports, all modes and keys, one-way and two-way", "why_tests_cant": "quantifies over all session lists and both protocol roles", "anchors": ["owamp/owamp/owamp/api.c:OWPStopSessions", "owamp/owamp/owamp/api.c:OWPStopSessionsWait", "owamp/owamp/owamp/protocol.c:_OWPWriteStopSessions", "owamp/owamp/owamp/protocol.c:_OWPReadStopSessions"]}
{"id": "C68", "title": "A broken session keeps no trailing guesses", "statement": "When a control connection is lost without a stop message, the session file of a test received on it is marked as incomplete and contains no lost-packet record with a sequence number above that of the last packet actually received.", "quantifier": "all recorded sessions, stop times and schedules", "why_tests_cant": "depends on the interplay of lost and received records in the whole file", "anchors": ["owamp/owamp/owamp/api.c:_OWPCleanUpSessions", "owamp/owamp/owamp/api.c:GetMaxRecv", "owamp/owamp/owamp/api.c:_OWPCleanDataRecs"]}
{"id": "C69", "title": "Statistics of consecutive ranges lose no record", "statement": "When the statistics of consecutive ranges of packets of a session are made one after the other on the same statistics object, each starting at the file position the previous one has left as next_oset, every summary reports for its range exactly what the whole file contains about it (packets sent, lost, duplicates), however late or repeated packets arrive within the timeout.", "quantifier": "all record files a receiver can write, all sequences of consecutive ranges", "why_tests_cant": "depends on the interleaving of records of different ranges around the boundary", "anchors": ["owamp/owamp/owamp/stats.c:OWPStatsParse", "owamp/owamp/owamp/stats.c:IterateSummarizeSession", "owamp/owamp/powstream/powstream.c:write_session"]}
{"id": "C70", "title": "Two-way records say what was measured", "statement": "Every packet a two-way client sends carries its number, the clock's time, a right authentication code and the size agreed on, and is sent on schedule and only once; every record in the resulting session either repeats what an authentic reply to a packet of the session says, or reports the loss of a packet that was sent. If the network carries a packet to the reflector of the session and its answer back, the record has the client's times of sending and receiving, the reflector's times of receiving and sending, both sequence numbers and both TTLs.", "quantifier": "all executions of the client and the reflector: schedules, clock readings, datagrams from anywhere, signals, failures of sendto and recvmsg, three kinds of protection", "why_tests_cant": "the record depends on two processes, the network and the clock readings of a whole history", "anchors": ["owamp/owamp/owamp/endpoint.c:run_tw_test", "owamp/owamp/owamp/endpoint.c:run_reflector", "owamp/owamp/owamp/endpoint.c:flush_lost"]}
{"id": "C71", "title": "No two-way packet is both lost and received", "statement": "A packet of a two-way session is recorded as lost at most once, and never both as lost and as received, neither during the test nor after its end.", "quantifier": "all executions of the client including late, duplicated and forged replies", "why_tests_cant": "depends on the order of timeouts and late replies", "anchors": ["owamp/owamp/owamp/endpoint.c:run_tw_test", "owamp/owamp/owamp/endpoint.c:flush_lost"]}
{"id": "C72", "title": "Every two-way packet sent is accounted for at the end", "statement": "When a two-way test has ended without an error, every packet that was handed to the network has a record in the file: as received or as lost.", "quantifier": "all executions that end normally", "why_tests_cant": "needs an interrupted system call, or a stop before the first reply; depends on an uninitialised variable", "anchors": ["owamp/owamp/owamp/endpoint.c:run_tw_test", "owamp/owamp/owamp/endpoint.c:flush_lost"]}
{"id": "C73", "title": "A two-way client accepts the replies of its own reflector", "statement": "Whatever amount of padding is configured, a reply that the reflector of the same session sends in time to a packet of the client is recognised by the client and recorded.", "quantifier": "all sessions, paddings, modes and histories", "why_tests_cant": "the size check is bypassed while errno is EINTR by accident, which hides the violation in most runs", "anchors": ["owamp/owamp/owamp/endpoint.c:run_tw_test", "owamp/owamp/owamp/endpoint.c:run_reflector", "owamp/owamp/owamp/api.c:OWPTestTWPayloadSize"]}
{"id": "C74", "title": "Test packets stay inside the buffer allocated for them", "statement": "Whatever padding a session is requested with, the octets that the sender, the receiver, the reflector and the two-way client write to or read from their packet buffer lie inside the memory allocated for it; a request whose padding is too large for this is refused.", "quantifier": "all 32-bit paddings, all modes, all four roles of an endpoint", "why_tests_cant": "the violation needs the few largest paddings, requested by a remote peer, and a memory checker", "anchors": ["owamp/owamp/owamp/endpoint.c:_OWPEndpointInit", "owamp/owamp/owamp/endpoint.c:run_sender", "owamp/owamp/owamp/endpoint.c:run_reflector", "owamp/owamp/owamp/endpoint.c:run_tw_test", "owamp/owamp/owamp/api.c:OWPTestPayloadSize"]}
{"id": "C75", "title": "The bandwidth asked of the broker is what the test needs", "statement": "The amount of bandwidth that is demanded for a one-way session is the average rate of the session in bits per second, headers included, up to rounding, for every schedule, padding, mode and address family.", "quantifier": "all lists of slots, paddings, modes and address families", "why_tests_cant": "rounding and overflow depend on all numbers involved", "anchors": ["owamp/owamp/owamp/api.c:OWPTestPacketBandwidth", "owamp/owamp/owamp/api.c:OWPTestPacketRate", "owamp/owamp/owamp/api.c:OWPTestPacketSize", "owamp/owamp/owampd/policy.c:OWPDCheckTestPolicy"]}
{"id": "C76", "title": "The broker's books are right", "statement": "At any time the usage the server records for bandwidth and disk space in every limiting class is exactly what the sessions that were accepted and have not ended and the session files that are kept, of the class and the classes below it, hold; when all sessions have ended and all files are gone nothing is charged. No event makes the server fail an assertion.", "quantifier": "all configurations with exact limits, all interleavings of connections, requests, session ends, fetches, disconnections, interruptions and crashes of any length", "why_tests_cant": "the books go wrong only through particular interleavings of several processes, or failures between two messages; a test exercises a few schedules", "anchors": ["owamp/owamp/owampd/policy.c: OWPDCheckTestPolicy, OWPDTestComplete, OWPDCloseFile, OWPDQuery, OWPDResourceDemand", "owamp/owamp/owamp/api.c: _OWPTestSessionFree", "owamp/owamp/owamp/endpoint.c: EndpointFree"]}
{"id": "C77", "title": "Deleting a fetched file credits its owner", "statement": "When a session file is deleted because it has been fetched and delete_on_fetch is set, its size is taken off the disk usage of the class it is charged to and of all classes above.", "quantifier": "all limit trees, all files, all classes of the fetching connection", "why_tests_cant": "needs files of one class fetched by clients of another over the life of a server; leaks show up only when a limit is reached", "anchors": ["owamp/owamp/owampd/policy.c: OWPDCloseFile, OWPDQuery"]}
{"id": "C78", "title": "Session files disappear only when fetched", "statement": "A session file that is kept disappears only when a fetch of its whole range has ended successfully and the class that owns the file has delete_on_fetch set; and then it does. Nothing else the server does, crashes included, removes it.", "quantifier": "all histories of the server, all fetch ranges, all limit trees", "why_tests_cant": "an assertion about all histories; a test sees that certain events do not remove certain files", "anchors": ["owamp/owamp/owampd/policy.c: OWPDCloseFile, OWPDCheckFetchPolicy, GetLimit"]}
{"id": "C79", "title": "The number of sessions is limited", "statement": "A connection is granted no more test sessions than the test_sessions limit of its class and of each class above allows, whatever fails; and the end of a session makes room for another.", "quantifier": "all histories, all limit trees, all sequences of requests on a connection", "why_tests_cant": "the count is kept in a copy of the limit tree that the process inherits; errors show up only after particular sequences of refused and failed requests", "anchors": ["owamp/owamp/owampd/policy.c: OWPDCheckTestPolicy, OWPDTestComplete, IntegerResourceDemand"]}
{"id": "C80", "title": "Sessions are accepted exactly if there is room", "statement": "A request for a test session is accepted exactly if the connection may have another session, the class and all classes above have the bandwidth left (one-way sessions) and the disk space left (if the server receives), and the session file can be made.", "quantifier": "all states of the server that can be reached, all requests, all outcomes of the messages to the resource broker", "why_tests_cant": "the answer depends on what all other connections hold, and on answers left unread by interrupted queries", "anchors": ["owamp/owamp/owampd/policy.c: OWPDCheckTestPolicy, OWPDQuery, OWPDReadResponse", "owamp/owamp/owamp/sapi.c: OWPProcessTestRequest"]}
{"id": "C81", "title": "A fetch believes nothing unauthenticated", "statement": "In authenticated and encrypted mode OWPFetchSession reports success with a file only if the answer and each of the four parts that follow it (request, slots, ranges not sent, records) was read to its end and carried a valid integrity code, and the file consists of these parts only; otherwise it fails and the connection cannot be used any more.", "quantifier": "all octets a server or anyone in between can send, all ranges, sessions and I/O failures", "why_tests_cant": "one would have to try all alterations of all answers", "anchors": ["owamp/owamp/owamp/capi.c: OWPFetchSession", "owamp/owamp/owamp/protocol.c: _OWPReadFetchAck, _OWPReadTestRequest", "owamp/owamp/owamp/io.c: _OWPRecvHMACCheckClear"]}
{"id": "C82", "title": "The cipher is AES", "statement": "Encrypting a block with a key gives exactly what FIPS 197 specifies for AES-128, decrypting gives exactly the inverse cipher of the standard, and decryption inverts encryption; both turn 16 octets into 16 octets.", "quantifier": "all 16-octet keys and all 16-octet blocks", "why_tests_cant": "2^256 pairs of keys and blocks; known-answer tests exercise a handful of table entries", "anchors": ["owamp/owamp/owamp/rijndael-alg-fst.c: rijndaelKeySetupEnc, rijndaelKeySetupDec, rijndaelEncrypt, rijndaelDecrypt", "owamp/owamp/owamp/rijndael-api-fst.c: bytes2Key", "owamp/owamp/owamp/schedule.c: OWPUnifRand64"]}
{"id": "C83", "title": "The two ends of a test session hold matching keys", "statement": "The AES and HMAC keys of a test session are derived from the keys of the connection and the SID as RFC 4656 (4.1) prescribes, in exactly the modes that protect test packets; what one end encrypts with its key the other end decrypts, in both directions of a two-way session; connections with different keys have different test keys.", "quantifier": "all connection keys, SIDs, modes and roles", "why_tests_cant": "ranges over all keys and SIDs", "anchors": ["owamp/owamp/owamp/endpoint.c: _OWPEndpointInitHook", "owamp/owamp/owamp/rijndael-api-fst.c: blockEncrypt"]}
{"id": "C84", "title": "The summary of a two-way session reports what its records say", "statement": "For every session of a two-way client that ended normally and every range of its packets, OWPStatsParse makes a summary: sent is the number of packets, lost the number of those recorded as lost, duplicates are counted separately for both ways, the delay histograms and TTL counts are those of the first answer to each packet, start and end times are those of the first and the last packet of the range, and the synchronized flag tells whether the clocks of all packets were.", "quantifier": "all files of two-way records, all ranges, all histories of client, network and reflector", "why_tests_cant": "the outcome depends on the order of all records, and on replies overtaking each other around the timeout", "anchors": ["owamp/owamp/owamp/stats.c:OWPStatsParse", "owamp/owamp/owamp/stats.c:IterateSummarizeTWSession", "owamp/owamp/owamp/stats.c:PacketGet", "owamp/owamp/owamp/stats.c:PacketBeginFlush"]}
{"id": "C85", "title": "The memory for a summary is proportional to the session", "statement": "While a summary of a two-way session is made, the number of packet records in memory is at most the number of packets of the range, whatever the records read from the file (and thus the replies of the other host) contain.", "quantifier": "all files of two-way records", "why_tests_cant": "the violation needs a reply with a particular forged number and a memory limit", "anchors": ["owamp/owamp/owamp/stats.c:PacketGet", "owamp/owamp/owamp/stats.c:PacketAlloc", "owamp/owamp/owamp/stats.c:IterateSummarizeTWSession"]}
{"id": "C86", "title": "powstream's sessions follow each other without overlap", "statement": "Whenever powstream starts a session, every session it has started before that is not over has its last packet scheduled no later than the start of the new session.", "quantifier": "all executions of the program: options, schedules, clock readings, signals, failures of any library or system call at any point", "why_tests_cant": "the next session is set up while the current one runs; what goes wrong depends on the time of every failure and signal", "anchors": ["owamp/owamp/powstream/powstream.c:SetupSession", "owamp/owamp/powstream/powstream.c:main"]}
{"id": "C87", "title": "powstream stores the records of a session once", "statement": "The file with the records of a session is put in place at most once, under one name.", "quantifier": "all executions of the program", "why_tests_cant": "the file is written at four places, reached through signals, failures and the normal end", "anchors": ["owamp/owamp/powstream/powstream.c:write_session", "owamp/owamp/powstream/powstream.c:ResetSession", "owamp/owamp/powstream/powstream.c:main"]}
{"id": "C88", "title": "powstream does not fail", "statement": "Whatever signals arrive, whatever the clock shows and whichever library or system calls fail, powstream does not use a NULL pointer, fail an assertion or print an indeterminate string: it goes on or ends with a message.", "quantifier": "all executions of the program", "why_tests_cant": "needs a signal between two particular calls, or a lack of resources at one of them", "anchors": ["owamp/owamp/powstream/powstream.c:sig_check", "owamp/owamp/powstream/powstream.c:FetchSession", "owamp/owamp/powstream/powstream.c:write_session"]}
{"id": "C89", "title": "powstream names its files after the schedule", "statement": "Every summary file is named after the scheduled times of the start and the end of the range of packets it covers, the ranges of a session are summarized once each and in order; the files of a whole session are named after its start and its scheduled end, or after an earlier packet if the session was abandoned; when a session that was not abandoned is stored, all its summaries are stored or a message says that one is missing; the files of different sessions have disjoint times.", "quantifier": "all executions of the program", "why_tests_cant": "consumers order and merge the files by their names; a wrong name appears only if a particular call fails at a particular time", "anchors": ["owamp/owamp/powstream/powstream.c:main", "owamp/owamp/powstream/powstream.c:SetupSession", "owamp/owamp/powstream/powstream.c:write_session"]}
{"id": "C90", "title": "powstream measures continuously", "statement": "A session starts as soon as it can be set up (10 seconds after its setup begins), or exactly at the scheduled end of an earlier session if that is later.", "quantifier": "all executions of the program", "why_tests_cant": "gaps and wrong start times depend on failures and the clock during the setup", "anchors": ["owamp/owamp/powstream/powstream.c:SetupSession", "owamp/owamp/powstream/powstream.c:main"]}
{"id": "C91", "title": "Waiting for sessions returns what happened", "statement": "OWPStopSessionsWait returns as owamp.h documents: 1 exactly when the wake-up time is reached (at once if it is past), 2 only on a signal of interest, never 1 or 2 without wake-up time and flag, a negative value only on an error.", "quantifier": "all sequences of events before, between and during its system calls, all wake-up times, all sets of sessions", "why_tests_cant": "return values depend on the order of signals, ends of processes, input and the clock", "anchors": ["owamp/owamp/owamp/api.c:OWPStopSessionsWait", "owamp/owamp/owamp/owamp.h:965-1012"]}
{"id": "C92", "title": "Waiting ends when the sessions are over", "statement": "OWPStopSessionsWait without a wake-up time does not go on sleeping when all local sessions are over, or when one has failed.", "quantifier": "all interleavings of the ends of test processes with the steps of the function", "why_tests_cant": "a lost wake-up needs a process to end between two system calls", "anchors": ["owamp/owamp/owamp/api.c:OWPStopSessionsWait", "owamp/owamp/owamp/endpoint.c:_OWPEndpointStatus"]}
{"id": "C93", "title": "Sessions are stopped by the side whose sessions are over", "statement": "OWPStopSessionsWait stops the sessions of its own accord only if all local sessions are over or one has failed, and then it does; the server of two-way sessions leaves it to the client.", "quantifier": "all interleavings, all outcomes of the sessions", "why_tests_cant": "a running session would be cut short only for particular orders of events", "anchors": ["owamp/owamp/owamp/api.c:OWPStopSessionsWait", "owamp/owamp/owamp/api.c:OWPSessionsActive"]}
{"id": "C94", "title": "The status of sessions is reported truthfully", "statement": "OWPSessionStatus tells for every session that runs locally whether it is complete and with which acceptance value, and for no other; OWPSessionsActive returns the number of local sessions that run and the largest acceptance value of the others; a status that is final does not change.", "quantifier": "all sets of sessions, all outcomes, all histories of questions", "why_tests_cant": "depends on what was asked before and on when processes end", "anchors": ["owamp/owamp/owamp/api.c:OWPSessionStatus", "owamp/owamp/owamp/api.c:OWPSessionsActive", "owamp/owamp/owamp/endpoint.c:_OWPEndpointStatus", "owamp/owamp/owamp/owamp.h:1016-1052"]}
{"id": "C95", "title": "After waiting the connection can be used for new sessions", "statement": "When OWPStopSessionsWait has returned 0, further sessions can be requested and started on the connection.", "quantifier": "all outcomes of the sessions, client and server, one-way and two-way", "why_tests_cant": "needs a reflector that fails, then another session on the same connection", "anchors": ["owamp/owamp/owamp/api.c:OWPStopSessionsWait", "owamp/owamp/owamp/endpoint.c:_OWPEndpointStart", "owamp/owamp/owamp/sapi.c:OWPProcessStartSessions"]}
{"id": "C96", "title": "A session that is started runs", "statement": "The process of a session does nothing before it is told to start; when it was started and not cancelled, it runs the session, and the acceptance value is that of the session.", "quantifier": "all interleavings of start, stop, cancel and the scheduling of the process", "why_tests_cant": "depends on whether the process gets the processor between two signals", "anchors": ["owamp/owamp/owamp/endpoint.c:_OWPEndpointInitHook", "owamp/owamp/owamp/endpoint.c:_OWPEndpointStart", "owamp/owamp/owamp/endpoint.c:_OWPEndpointStop"]}
{"id": "C97", "title": "Test packets carry the DSCP that was asked for", "statement": "owping -D accepts every name in the manual and every number of six bits in decimal, octal or hexadecimal notation, and nothing but numbers and names (in any case, with blanks around them); the code point is sent to the endpoint in the test request, which puts exactly it into the traffic class of its packets, leaves the class alone for 0 and refuses every other value of the field.", "quantifier": "all strings, all 32-bit values of the field", "why_tests_cant": "all strings and all values of the field", "anchors": ["owamp/owamp/owping/owping.c:parse_typeP", "owamp/owamp/owamp/endpoint.c:_OWPEndpointInit", "owamp/owamp/doc/owping_test_opts.man"]}
{"id": "C98", "title": "The schedule given to owping is the schedule used", "statement": "owping -i accepts a list of non-negative numbers of seconds separated by commas, each followed by nothing or e (exponential) or f (fixed), makes one slot of each in their order with that value up to 2^-32 s, and refuses everything else.", "quantifier": "all strings, whatever strtod makes of the numbers", "why_tests_cant": "all strings", "anchors": ["owamp/owamp/owping/owping.c:parse_slots", "owamp/owamp/owamp/arithm64.c:OWPDoubleToNum64"]}
{"id": "C99", "title": "Configuration values are what was last stored", "statement": "A value read from the configuration of a context or connection is the one stored last under the same key and not deleted since; reading never uses freed memory; a store that fails changes nothing; the memory is released with the context.", "quantifier": "all sequences of operations, all keys, all failures of memory and hash table", "why_tests_cant": "depends on the whole history of the table", "anchors": ["owamp/owamp/owamp/context.c:OWPContextConfigSetV", "owamp/owamp/owamp/context.c:OWPContextConfigSetU32", "owamp/owamp/owamp/context.c:OWPContextConfigGetV", "owamp/owamp/owamp/context.c:OWPContextConfigGetU32", "owamp/owamp/owamp/context.c:OWPContextConfigDelete", "owamp/owamp/owamp/context.c:OWPContextFree"]}
{"id": "C100", "title": "The configured key derivation count is used", "statement": "The number of rounds of the key derivation that a server announces and uses is the one configured (OWPKeyDerivationCount, pbkdf2_count in owampd.conf), 2048 by default.", "quantifier": "all configurations", "why_tests_cant": "all values and all orders of configuration calls", "anchors": ["owamp/owamp/owamp/context.c:OWPContextCreate", "owamp/owamp/owamp/owamp.h:OWPKeyDerivationCount", "owamp/owamp/owampd/owampd.c:main", "owamp/owamp/doc/nwampd_conf_desc.man"]}
{"id": "C101", "title": "Numbers in owampd.conf mean what they say", "statement": "The value of a numeric option (dieby, controltimeout, pbkdf2_count, maxcontrolsessions, testtimeout) in owampd.conf is the number written there; anything else, and numbers that do not fit, are refused.", "quantifier": "all strings", "why_tests_cant": "all strings", "anchors": ["owamp/owamp/owampd/owampd.c:LoadConfig"]}
{"id": "C102", "title": "Never more connections than maxcontrolsessions", "statement": "At no time do more than maxcontrolsessions processes serve control connections; with 0 no connection is refused.", "quantifier": "all interleavings of connections, ends of processes, signals and failures", "why_tests_cant": "depends on every interleaving of the main process with signals", "anchors": ["owamp/owamp/owampd/owampd.c:NewConnection", "owamp/owamp/owampd/owampd.c:ReapChildren", "owamp/owamp/owampd/owampd.c:FreeChldState"]}
{"id": "C103", "title": "A connection is refused only if the limit is reached", "statement": "If a connection is refused because of maxcontrolsessions, that many processes serve connections at that moment; the place of a process that ended is free.", "quantifier": "all interleavings of connections, ends of processes, signals and failures", "why_tests_cant": "depends on the instant at which a process ends", "anchors": ["owamp/owamp/owampd/owampd.c:NewConnection", "owamp/owamp/owampd/owampd.c:ReapChildren", "owamp/owamp/owampd/owampd.c:FreeChldState", "owamp/owamp/owampd/owampd.c:AllocChldState"]}
{"id": "C104", "title": "The daemon survives the end of any process", "statement": "Whatever processes end, and whatever allocation fails, the main process of the daemon does not crash.", "quantifier": "all interleavings and failures", "why_tests_cant": "a failure of memory at one point shows much later", "anchors": ["owamp/owamp/owampd/owampd.c:ReapChildren", "owamp/owamp/owampd/owampd.c:AllocChldState"]}
{"id": "C105", "title": "The daemon ends when told to", "statement": "After SIGTERM the daemon serves at most one more connection; within dieby seconds it has ended, and no process that serves a connection is left.", "quantifier": "all instants at which signals arrive", "why_tests_cant": "races between tests and system calls", "anchors": ["owamp/owamp/owampd/owampd.c:main", "owamp/owamp/owampd/owampd.c:signal_catch"]}
{"id": "C106", "title": "Requests of processes to the main process are answered", "statement": "A process that asks the main process for resources gets an answer, however many connections arrive.", "quantifier": "all sequences of connections and requests", "why_tests_cant": "depends on unbounded sequences of events", "anchors": ["owamp/owamp/owampd/owampd.c:CleanPipes", "owamp/owamp/owampd/owampd.c:CheckFD", "owamp/owamp/owampd/owampd.c:main"]}
{"id": "C107", "title": "The daemon gives up the privileges of root", "statement": "Started by root without the rootfolly option, the daemon serves connections only with user ids, group ids and supplementary groups that are not those of root, and it has no way to become root again.", "quantifier": "all options, user and group databases, initial credentials and failures of system calls", "why_tests_cant": "all combinations of options, credentials and failures", "anchors": ["owamp/owamp/owampd/owampd.c:main"]}
{"id": "C108", "title": "The user and group options mean what they say", "statement": "The daemon runs as the user and group that the options user and group (-U, -G) denote, by name or as -uid and -gid; an option that denotes nothing is refused.", "quantifier": "all strings, databases and values of errno", "why_tests_cant": "all strings; depends on errno left by other calls", "anchors": ["owamp/owamp/owampd/owampd.c:main", "owamp/owamp/doc/nwampd_conf_desc.man"]}
{"id": "C109", "title": "A client that says nothing is disconnected", "statement": "With a controltimeout, whenever the daemon needs something from a client it waits at most that long; then it closes the connection.", "quantifier": "all sequences of requests, signals and expiries of the timer", "why_tests_cant": "all interleavings of signals with the steps of the process", "anchors": ["owamp/owamp/owampd/owampd.c:NewConnection", "owamp/owamp/owamp/protocol.c:OWPReadRequestType"]}
{"id": "C110", "title": "The control timeout does not end running sessions", "statement": "While sessions run no timer runs, so that sessions may last longer than the controltimeout.", "quantifier": "all sequences of requests, signals and expiries of the timer", "why_tests_cant": "all interleavings", "anchors": ["owamp/owamp/owampd/owampd.c:NewConnection", "owamp/owamp/owamp/api.c:OWPStopSessionsWait"]}
{"id": "C111", "title": "A connection survives the end of the process of a session", "statement": "When the process of one test session ends, the control connection is not closed and nothing is sent that the client did not ask for; the daemon goes on waiting for requests or for the other sessions.", "quantifier": "all states of the connection in which the process can end", "why_tests_cant": "the moment of a signal cannot be chosen in a test", "anchors": ["owamp/owamp/owampd/owampd.c:NewConnection", "owamp/owamp/owampd/owampd.c:signal_catch", "owamp/owamp/owamp/protocol.c:OWPReadRequestType", "owamp/owamp/owamp/sapi.c:OWPUnexpectedRequestType"]}
{"id": "C112", "title": "A connection ends when the daemon is told to stop", "statement": "After SIGTERM the process of a connection ends: at once if it waits for a request, after exchanging Stop-Sessions messages if sessions run.", "quantifier": "all states of the connection at which the signal can arrive", "why_tests_cant": "the moment of a signal cannot be chosen in a test", "anchors": ["owamp/owamp/owampd/owampd.c:NewConnection", "owamp/owamp/owampd/owampd.c:signal_catch"]}
{"id": "C113", "title": "Samples cover the session", "statement": "If summaries of n packets each are asked for, every packet of the session is in one summary: the summaries are those of consecutive pieces of n packets, the last may be smaller.", "quantifier": "all n and all numbers of packets", "why_tests_cant": "sessions near 2^32 packets", "anchors": ["owamp/owamp/owping/owping.c:do_stats", "owamp/owamp/owamp/stats.c:OWPStatsParse"]}
{"id": "C114", "title": "Percentiles asked for are reported", "statement": "A comma separated list of percentiles is accepted exactly if all are numbers from 0 to 100, and for each the least delay is printed that this percentage of the packets sent does not exceed.", "quantifier": "all lists, all numbers, all distributions of delays", "why_tests_cant": "all numbers, rounding of floats", "anchors": ["owamp/owamp/owping/owping.c:parse_percentile", "owamp/owamp/owamp/stats.c:OWPStatsPercentile", "owamp/owamp/owamp/stats.c:OWPStatsPrintSummary"]}
{"id": "C115", "title": "The report on reordering is complete and true", "statement": "For every n with n-reordered packets there is a line with their number; a line that says that there are none for some n is true.", "quantifier": "all files, all numbers of counters", "why_tests_cant": "all arrangements of packets", "anchors": ["owamp/owamp/owamp/stats.c:OWPStatsPrintSummary", "owamp/owamp/owamp/stats.c:OWPStatsPrintMachine"]}
{"id": "C116", "title": "First and last time are printed right", "statement": "The times of the first and the last packet are printed to the millisecond.", "quantifier": "all times", "why_tests_cant": "all fractions of a second", "anchors": ["owamp/owamp/owamp/stats.c:OWPStatsPrintSummary"]}
{"id": "C117", "title": "Units", "statement": "Delays are printed in the unit that was asked for, with its abbreviation; unknown units are refused.", "quantifier": "all letters", "why_tests_cant": "the claim compares the code with the manual", "anchors": ["owamp/owamp/owamp/stats.c:OWPStatsScaleFactor", "owamp/owamp/owping/owping.c:main"]}
{"id": "C118", "title": "Delays are differences of time stamps", "statement": "The delay of a packet is the time it was received less the time it was sent, to the resolution of the time stamps; the minimum and the maximum in the report are those of the packets received.", "quantifier": "all pairs of time stamps, all lists of packets", "why_tests_cant": "rounding of doubles", "anchors": ["owamp/owamp/owamp/capi.c:OWPDelay", "owamp/owamp/owamp/stats.c:OWPStatsPrintSummary", "owamp/owamp/owamp/arithm64.c:OWPNum64ToDouble"]}
{"id": "C119", "title": "Names of files fit their buffers", "statement": "No name of a session file, of its link in the catalog or of the temporary file of a clean-up is longer than the buffer it is written to; names that fit are not refused.", "quantifier": "all data directories, class hierarchies and settings of TMPDIR", "why_tests_cant": "all lengths, near PATH_MAX", "anchors": ["owamp/owamp/owampd/policy.c:node_dir", "owamp/owamp/owampd/policy.c:OWPDOpenFile", "owamp/owamp/owampd/policy.c:InitializeDiskUsage", "owamp/owamp/owamp/api.c:_OWPCleanUpSessions"]}
{"id": "C120", "title": "Disk usage survives a restart", "statement": "After a start of the daemon the disk usage of every class is the space taken by the session files of the class and the classes below it.", "quantifier": "all limits files, all contents of the data directory", "why_tests_cant": "all directory trees", "anchors": ["owamp/owamp/owampd/policy.c:verify_datadir", "owamp/owamp/owampd/policy.c:InitializeDiskUsage", "owamp/owamp/owampd/policy.c:IntegerResourceUsage"]}
{"id": "C121", "title": "Stored sessions can be fetched", "statement": "A session that was stored is found by its SID, with the class that it was stored for, until it is removed; storing another one does not change this.", "quantifier": "all data directories, classes, SIDs, working directories", "why_tests_cant": "all names, the working directory of a daemon", "anchors": ["owamp/owamp/owampd/policy.c:OWPDOpenFile", "owamp/owamp/owampd/owampd.c:main"]}
{"id": "C122", "title": "The catalog is right at every crash point", "statement": "However the daemon is stopped and started again, every entry of the catalog leads to a session file and every session file of a known class has an entry, unless a call is just creating or removing the session.", "quantifier": "all histories of sessions, removals, crashes and restarts with other limits files", "why_tests_cant": "all crash points", "anchors": ["owamp/owamp/owampd/policy.c:OWPDOpenFile", "owamp/owamp/owampd/policy.c:OWPDCloseFile", "owamp/owamp/owampd/policy.c:verify_datadir", "owamp/owamp/owampd/policy.c:clean_catalog"]}
{"id": "C123", "title": "Authentication asked for is not lost", "statement": "owping asks the server for exactly the modes given with -A; without O among them the connection is never open. A user that gives a name and a pass phrase is not connected without authentication.", "quantifier": "all names, sources of the pass phrase, options and servers", "why_tests_cant": "what the server offers, which files can be read", "anchors": ["owamp/owamp/owping/owping.c:owp_set_auth", "owamp/owamp/owamp/capi.c:OWPControlOpen"]}
{"id": "C124", "title": "The exit status of owping", "statement": "owping ends with status 0 exactly if the test that was asked for succeeded and its results were printed.", "quantifier": "all options, all behaviour of server, network and signals", "why_tests_cant": "all failures at all times", "anchors": ["owamp/owamp/owping/owping.c:main", "owamp/owamp/owping/owping.c:do_stats"]}
{"id": "C125", "title": "Saved files of owping", "statement": "The files given with -T and -F hold the data of the sessions after a successful test; after a test that fails they are as before or removed; owping touches no other named file.", "quantifier": "all options, all behaviour of server, network and signals, all earlier contents", "why_tests_cant": "all failures at all times", "anchors": ["owamp/owamp/owping/owping.c:main", "owamp/owamp/owping/owping.c:owp_fetch_sid"]}
{"id": "C126", "title": "Start of a test", "statement": "The test starts at the time asked for, but not before there was time for the requests: a round trip for each message and a second. The loss timeout is the one asked for, or two seconds more than the round trip.", "quantifier": "all round trip times, delays and clocks", "why_tests_cant": "all numbers, wrap of 64 bits", "anchors": ["owamp/owamp/owping/owping.c:main", "owamp/owamp/owamp/time.c:OWPDoubleToNum64"]}
{"id": "C127", "title": "Output files of owping -p", "statement": "With -p every sample of every direction is written to a file of its own, whose name is printed.", "quantifier": "all schedules, sample sizes, existing files", "why_tests_cant": "all schedules and contents of the directory", "anchors": ["owamp/owamp/owping/owping.c:do_stats"]}
{"id": "C128", "title": "owfetch fetches what is named", "statement": "owfetch asks the server for the sessions that are named on the command line, and no others, and stores each in its file; other files and results of failed requests are not touched.", "quantifier": "all command lines and servers", "why_tests_cant": "all names and failures", "anchors": ["owamp/owamp/owping/owping.c:main", "owamp/owamp/owping/owping.c:owp_fetch_sid"]}
{"id": "C129", "title": "Numbers on the command line of owping", "statement": "A number given to -c, -s, -N or -n is used as it is, or refused.", "quantifier": "all strings", "why_tests_cant": "all strings", "anchors": ["owamp/owamp/owping/owping.c:main"]}
{"id": "C130", "title": "Which address of the server is used", "statement": "The client connects to the first address of the server that it can connect to, in the order of the resolver, IPv6 before IPv4; it is connected exactly if there is one of the families that the options -4 and -6 allow.", "quantifier": "all lists of addresses, all outcomes of every system call", "why_tests_cant": "all combinations of failures", "anchors": ["owamp/owamp/owamp/capi.c:_OWPClientConnect", "owamp/owamp/owamp/capi.c:TryAddr"]}
{"id": "C131", "title": "Descriptors of the client", "statement": "A connection holds one descriptor, which OWPControlClose closes; a connection that cannot be opened leaves the descriptors as they were; no descriptor is closed that the library does not own.", "quantifier": "all lists of addresses, all outcomes of every system call, all descriptors that are open", "why_tests_cant": "all combinations of failures", "anchors": ["owamp/owamp/owamp/capi.c:_OWPClientConnect", "owamp/owamp/owamp/capi.c:OWPControlOpen", "owamp/owamp/owamp/context.c:OWPControlClose"]}
{"id": "C132", "title": "The socket of the server", "statement": "The server listens at the first address of its name that can be used, IPv6 before IPv4; otherwise it fails and leaves the descriptors as they were.", "quantifier": "all lists of addresses, all outcomes of every system call", "why_tests_cant": "all combinations of failures", "anchors": ["owamp/owamp/owamp/sapi.c:OWPServerSockCreate", "owamp/owamp/owamp/sapi.c:OpenSocket"]}
{"id": "C133", "title": "Pass phrases are overwritten", "statement": "A pass phrase whose memory the application hands over to the library is overwritten before the memory is freed.", "quantifier": "all peers, modes, answers of the hooks and failures", "why_tests_cant": "what the peer sends, all failures", "anchors": ["owamp/owamp/owamp/capi.c:OWPControlOpen", "owamp/owamp/owamp/sapi.c:OWPControlAccept"]}
{"id": "C134", "title": "One server per run directory", "statement": "While a server of a run directory is at work no other one starts, and the file with the process id names the one at work.", "quantifier": "all histories of starts, failures and deaths of processes", "why_tests_cant": "all interleavings and kill points", "anchors": ["owamp/owamp/owampd/owampd.c:main", "owamp/owamp/owampd/owampd.c:OWAMPD_PID_FILE"]}
{"id": "C135", "title": "One powstream per directory", "statement": "There are never two powstreams that store files in one directory, the lock file names the one at work, and a new one can start when it has ended in whatever way.", "quantifier": "all histories of starts, failures and deaths of processes", "why_tests_cant": "all interleavings and kill points", "anchors": ["owamp/owamp/powstream/powstream.c:main", "owamp/owamp/powstream/powstreamP.h:POWLOCK"]}
{"id": "C136", "title": "Paths fit in their buffers at the start", "statement": "Every path that powstream or owampd composes from a directory given by the user fits in its buffer, or the directory is refused.", "quantifier": "all directories, all times", "why_tests_cant": "all lengths", "anchors": ["owamp/owamp/powstream/powstream.c:main", "owamp/owamp/powstream/powstream.c:write_session", "owamp/owamp/owampd/owampd.c:main"]}
{"id": "C137", "title": "A directory means the same throughout", "statement": "The run directory and the data directory that are given to owampd are the ones used, before and after it detaches.", "quantifier": "all current directories and all names", "why_tests_cant": "all names", "anchors": ["owamp/owamp/owampd/owampd.c:main", "owamp/owamp/owampd/policy.c:InitializeDiskUsage", "owamp/owamp/owampd/policy.c:OWPDOpenFile"]}
{"id": "C138", "title": "Options of powstream are used", "statement": "The numbers of packets, of summaries, the delay between attempts and the delay at the end that are given to powstream are used or refused.", "quantifier": "all values", "why_tests_cant": "all values", "anchors": ["owamp/owamp/powstream/powstream.c:main"]}
{"id": "C139", "title": "Files of powstream are complete", "statement": "A file of powstream that has its final name is complete, at whatever point powstream is stopped.", "quantifier": "all contents, all points at which the process is stopped, all sizes of the buffers", "why_tests_cant": "all crash points", "anchors": ["owamp/owamp/powstream/powstream.c:write_session", "owamp/owamp/powstream/powstream.c:main"]}
{"id": "C140", "title": "Client and server agree on the sessions", "statement": "After a request for a session, client and server both have one more session with the same name if the request returned True, and neither has one if it returned False without an error; so after any history of requests both have the same sessions.", "quantifier": "all addresses, flags, answers, policies, failures and histories of requests", "why_tests_cant": "all histories", "anchors": ["owamp/owamp/owamp/capi.c:OWPSessionRequest", "owamp/owamp/owamp/capi.c:_OWPClientRequestTestReadResponse"]}
{"id": "C141", "title": "Addresses and ports of a session", "statement": "A session is between addresses out of those given, of one family that is allowed, IPv6 first; without such a pair the request fails before anything is sent; each side sends to the port that the other side has chosen.", "quantifier": "all lists of addresses, options, answers", "why_tests_cant": "all lists", "anchors": ["owamp/owamp/owamp/capi.c:OWPSessionRequest"]}
{"id": "C142", "title": "Local consent", "statement": "No sender or receiver runs on the side of the client unless its own policy has allowed this role with these addresses, and a receiver is not opened or announced before that.", "quantifier": "all policies, answers, addresses and failures", "why_tests_cant": "all policies", "anchors": ["owamp/owamp/owamp/capi.c:OWPSessionRequest", "owamp/owamp/owamp/context.c:_OWPCallCheckTestPolicy"]}
{"id": "C143", "title": "Starting the sessions", "statement": "Starting succeeds exactly if the server agrees and every local endpoint is there; then each is started exactly once; no local sender is started before the server has agreed; after a failure the connection cannot be used.", "quantifier": "all lists of sessions, answers and failures", "why_tests_cant": "all lists of sessions", "anchors": ["owamp/owamp/owamp/capi.c:OWPStartSessions", "owamp/owamp/owamp/endpoint.c:_OWPEndpointStart"]}
{"id": "C144", "title": "Names of sessions", "statement": "Two sessions can have the same name only if the last four octets of the address of the receiver, the time and the random octets agree.", "quantifier": "all addresses, times and random octets", "why_tests_cant": "all values", "anchors": ["owamp/owamp/owamp/api.c:_OWPCreateSID"]}
{"id": "C145", "title": "Each packet has its own record", "statement": "While a session runs, the receiver knows for every packet from the oldest it still waits for up to the newest whether it has arrived and when it was due; records are reused without mixing packets, for any order of arrivals, losses and gaps; all memory for them is freed exactly once and is bounded by the number of packets in flight.", "quantifier": "all numbers of packets, schedules, sizes of blocks, and histories of arrivals and removals", "why_tests_cant": "all histories", "anchors": ["owamp/owamp/owamp/endpoint.c:alloc_node", "owamp/owamp/owamp/endpoint.c:get_node", "owamp/owamp/owamp/endpoint.c:free_node", "owamp/owamp/owamp/endpoint.c:LostFree"]}
{"id": "C146", "title": "Starting a session leaves the signals of the caller alone", "statement": "When the process of a session is started, every signal of the calling process is afterwards blocked and handled as before, none that arrives meanwhile is lost or handled otherwise, and the new process reacts to the signals that start and stop it from its first moment; a failure leaves no process and changes nothing.", "quantifier": "all handlers, masks, moments at which signals arrive, and failing calls", "why_tests_cant": "all schedules of signals", "anchors": ["owamp/owamp/owamp/endpoint.c:_OWPEndpointInitHook"]}
{"id": "C147", "title": "What an endpoint acquires is given back", "statement": "Everything that is acquired for one end of a session (memory, socket, files, descriptors) is given back exactly once, wherever the preparation or the start of its process fails, and at the end otherwise; a stream of the application is never closed.", "quantifier": "all roles, options and points of failure", "why_tests_cant": "all points of failure", "anchors": ["owamp/owamp/owamp/endpoint.c:_OWPEndpointInit", "owamp/owamp/owamp/endpoint.c:EndpointFree", "owamp/owamp/owamp/endpoint.c:EndpointClear"]}
{"id": "C148", "title": "Memory for packets in flight", "statement": "A receiver prepares memory for the packets of twice the loss timeout, at least 100, whatever schedule and loss timeout are asked for; a sender for skips of a tenth of the packets.", "quantifier": "all schedules, loss timeouts, numbers of packets", "why_tests_cant": "all values", "anchors": ["owamp/owamp/owamp/endpoint.c:_OWPEndpointInit"]}
{"id": "C149", "title": "The delay at the end of a session", "statement": "The configured end delay is used to within one nanosecond, for every value that the configuration accepts.", "quantifier": "all doubles", "why_tests_cant": "all values", "anchors": ["owamp/owamp/owamp/endpoint.c:_OWPEndpointInit", "owamp/owamp/owampd/owampd.c:LoadConfig"]}
{"id": "C150", "title": "Options of the server: what counts", "statement": "When the server starts, every setting has the value of the last option on the command line that sets it, else that of the last such line of the configuration file, else the documented default.", "quantifier": "all command lines and configuration files", "why_tests_cant": "all combinations", "anchors": ["owamp/owamp/owampd/owampd.c:LoadConfig", "owamp/owamp/owampd/owampd.c:main"]}
{"id": "C151", "title": "Options of the server: nothing is ignored", "statement": "The server starts exactly if the configuration file can be read and every line and every option has a meaning; otherwise it ends with an error status.", "quantifier": "all command lines and configuration files", "why_tests_cant": "all strings", "anchors": ["owamp/owamp/owampd/owampd.c:LoadConfig", "owamp/owamp/owampd/owampd.c:main"]}
{"id": "C152", "title": "The range of test ports of the server", "statement": "The test ports are taken from the last range given in the file or on the command line; 0 lets the system choose.", "quantifier": "all command lines and configuration files", "why_tests_cant": "all combinations", "anchors": ["owamp/owamp/owampd/owampd.c:parse_ports"]}
{"id": "C153", "title": "Messages about the configuration file", "statement": "A message about a faulty configuration file gives the number of the faulty line.", "quantifier": "all files and paths", "why_tests_cant": "all files", "anchors": ["owamp/owamp/owampd/owampd.c:LoadConfig"]}
{"id": "C154", "title": "Installation of the policy", "statement": "The server goes to work only with both policy files read without error (or absent), and with the policy and all its hooks in place; names of files fit their memory, and each file is closed exactly once.", "quantifier": "all directories, answers of the file system and failures", "why_tests_cant": "all points of failure", "anchors": ["owamp/owamp/owampd/policy.c:OWPDPolicyInstall"]}
{"id": "C155", "title": "Modes the server offers", "statement": "The modes the server offers are exactly those whose letters are in the option authmode, all modes without it; other letters stop the server, and there is always a mode.", "quantifier": "all strings", "why_tests_cant": "all strings", "anchors": ["owamp/owamp/owampd/owampd.c:main"]}
{"id": "C156", "title": "The machine readable summary adds up", "statement": "In the machine readable summary of a session the counts of the section BUCKETS, and those of the section TTLBUCKETS, add up to the packets sent less the packets lost; each value that occurs is listed exactly once with the number of packets that have it; the size of the sample is that of the range summarized.", "quantifier": "all record files of receivers, ranges, bucket widths and orders of the hash table", "why_tests_cant": "all histories", "anchors": ["owamp/owamp/owamp/stats.c:OWPStatsPrintMachine", "owamp/owamp/owamp/stats.c:PrintTtlStatsMachine"]}
{"id": "C157", "title": "Delays of percentiles and jitter", "statement": "A percentile that is reported is the delay of a packet that was received, up to the width of a bucket; the jitter is the difference of the 95th percentile and the median, never negative, and reported whenever the former is.", "quantifier": "all delays, widths, numbers of packets", "why_tests_cant": "all doubles", "anchors": ["owamp/owamp/owamp/stats.c:BucketIncrementDelay", "owamp/owamp/owamp/stats.c:BucketBufferSortPercentile", "owamp/owamp/owamp/stats.c:CalculateJitter"]}
{"id": "C158", "title": "Hops", "statement": "The number of hops in the report is 255 less the time to live with which the packets arrived; if the time to live is not known the report says so.", "quantifier": "all sessions, address families and answers of the system", "why_tests_cant": "all control messages", "anchors": ["owamp/owamp/owamp/endpoint.c:recvfromttl", "owamp/owamp/owamp/stats.c:PrintTtlStats"]}
{"id": "C159", "title": "Size of test packets", "statement": "A receiver records only datagrams of exactly the size agreed upon.", "quantifier": "all datagrams", "why_tests_cant": "all sizes and contents", "anchors": ["owamp/owamp/owamp/endpoint.c:recvfromttl", "owamp/owamp/owamp/endpoint.c:run_receiver"]}
{"id": "C160", "title": "Code point and times of the machine readable summary", "statement": "The summary gives the DSCP exactly if the session has one, namely the one that was asked for and that the packets carry; the Unix times are those of the first and the last packet to 2 microseconds.", "quantifier": "all types of packets and times", "why_tests_cant": "all numbers", "anchors": ["owamp/owamp/owamp/stats.c:OWPStatsPrintMachine"]}
{"id": "C161", "title": "What the library acquires is given back", "statement": "Everything that is acquired for a context, its connections and their sessions is given back exactly once, whatever the application does and whatever fails in between; nothing is left when the context is freed; the record of a session is given back after what only it refers to.", "quantifier": "all histories of operations on a context and all points of failure", "why_tests_cant": "all histories and points of failure", "anchors": ["owamp/owamp/owamp/context.c:OWPContextFree", "owamp/owamp/owamp/context.c:OWPControlClose", "owamp/owamp/owamp/context.c:_OWPControlAlloc", "owamp/owamp/owamp/api.c:_OWPTestSessionAlloc", "owamp/owamp/owamp/api.c:_OWPTestSessionFree", "owamp/owamp/owamp/capi.c:OWPSessionRequest", "owamp/owamp/owamp/capi.c:OWPControlOpen", "owamp/owamp/owamp/capi.c:OWPFetchSession", "owamp/owamp/owamp/sapi.c:OWPProcessTestRequest", "owamp/owamp/owamp/sapi.c:OWPControlAccept"]}
{"id": "C162", "title": "The policy hears of the end of each session", "statement": "The policy of an application is told of the end of each session that it granted, exactly once, after the process and the file of the session are gone: with the outcome of the stop, with failure if the connection is closed without one, and with success only for sessions that took place.", "quantifier": "all histories of operations on a context and all points of failure", "why_tests_cant": "all histories and points of failure", "anchors": ["owamp/owamp/owamp/api.c:_OWPTestSessionFree", "owamp/owamp/owamp/api.c:OWPStopSessions", "owamp/owamp/owamp/sapi.c:OWPProcessTestRequest"]}
{"id": "C163", "title": "Raw output", "statement": "The raw output of owping and twping is a table with one line for each record of the file, in their order; sequence numbers, times, flags and TTLs can be read from the words of the lines, at the place that is documented for them.", "quantifier": "all files of records and all values of their fields", "why_tests_cant": "all values", "anchors": ["owamp/owamp/owping/owping.c:printraw", "owamp/owamp/owping/owping.c:printrawTW", "owamp/owamp/owping/owping.c:do_stats"]}
{"id": "C164", "title": "Choice of the output", "statement": "What owping shows is determined by which of the options -R, -Q, -M and -v are given, in this precedence, and not by their order; -4 with -6 is refused.", "quantifier": "all command lines", "why_tests_cant": "all orders and combinations", "anchors": ["owamp/owamp/owping/owping.c:main", "owamp/owamp/owping/owping.c:do_stats"]}
{"id": "C165", "title": "Time offset for debugging", "statement": "The clock that measurements use is that of the system shifted by the value of OWAMP_DEBUG_TIMEOFFSET, to a microsecond; a value that is not a number is refused; without the variable nothing is shifted.", "quantifier": "all values of the variable and all times", "why_tests_cant": "all values", "anchors": ["owamp/owamp/owamp/time.c:_OWPInitNTP", "owamp/owamp/owamp/time.c:_OWPGetTimespec"]}
{"id": "C166", "title": "Privilege for binding to an interface", "statement": "Binding a socket to an interface has the privilege that it needs while it takes place, and leaves the process with the privileges that it had before.", "quantifier": "all sets of privileges and all results of the system calls", "why_tests_cant": "all results of system calls", "anchors": ["owamp/owamp/owamp/api.c:OWPSetEffectiveCapability", "owamp/owamp/owamp/api.c:OWPSocketInterfaceBind"]}
{"id": "C167", "title": "Individual records and the summary", "statement": "The option -vN limits how many individual records are printed; the summary is that of the whole session, with and without it.", "quantifier": "all files, all numbers, all combinations of options", "why_tests_cant": "all files and numbers", "anchors": ["owamp/owamp/owping/owping.c:do_stats", "owamp/owamp/owping/owping.c:main", "owamp/owamp/owamp/stats.c:OWPStatsParse"]}
{"id": "C168", "title": "The memory of statistics", "statement": "Freeing an object of statistics gives back everything that it was given, once each and the object itself last: after a creation that failed at any point, and after any growth while files were parsed.", "quantifier": "all sessions, all points of failure and all growth", "why_tests_cant": "all points of failure", "anchors": ["owamp/owamp/owamp/stats.c:OWPStatsCreate", "owamp/owamp/owamp/stats.c:OWPStatsFree", "owamp/owamp/owamp/stats.c:OWPStatsParse"]}
{"id": "C169", "title": "owping leaves nothing behind", "statement": "When the summaries of a session are written, no object, open file or temporary file is left behind whatever fails; the files that are named are those that exist, and after success there is one for each sample.", "quantifier": "all numbers of samples and all failures", "why_tests_cant": "all failures", "anchors": ["owamp/owamp/owping/owping.c:do_stats"]}
{"id": "C170", "title": "The histogram of delays", "statement": "A bucket of the histogram exists exactly if a delay was recorded in it since the histogram was last emptied, once, and counts the delays of each kind; this holds for any sequence of recordings and emptyings and any shortage of memory, no record of the memory is used twice, memory is used again after the histogram was emptied, and nothing fails without a shortage.", "quantifier": "all sequences of delays, emptyings and failures of allocation", "why_tests_cant": "all histories", "anchors": ["owamp/owamp/owamp/stats.c:BucketIncrementDelay", "owamp/owamp/owamp/stats.c:BucketBufferClean", "owamp/owamp/owamp/stats.c:OWPStatsCreate"]}
{"id": "C171", "title": "The order of the buckets", "statement": "For any delays the buckets are sorted in ascending order before percentiles are taken.", "quantifier": "all sets of delays that have buckets", "why_tests_cant": "all sets of delays", "anchors": ["owamp/owamp/owamp/stats.c:BucketBufferSortCmp", "owamp/owamp/owamp/stats.c:OWPStatsParse"]}
{"id": "C172", "title": "Percentiles of one kind of delay", "statement": "A percentile of one kind of delay (round trip, forward, backward) is a bucket in which a delay of that kind was recorded, with fewer delays of that kind than asked for below it and at least as many up to it.", "quantifier": "all histories of delays of the three kinds, all percentiles", "why_tests_cant": "all histories and percentiles", "anchors": ["owamp/owamp/owamp/stats.c:BucketBufferSortPercentile", "owamp/owamp/owamp/stats.c:BucketIncrementDelay"]}
{"id": "C173", "title": "Session files come and go with their links", "statement": "When the server makes the file of a session, either the file and its entry in the catalog both exist afterwards or neither does, no other file is touched, and nothing stays allocated after a failure; when the session is over both are removed if it failed or became too large, and otherwise both stay.", "quantifier": "all directories, names, failures and outcomes", "why_tests_cant": "all failures and outcomes", "anchors": ["owamp/owamp/owampd/policy.c:OWPDOpenFile", "owamp/owamp/owampd/policy.c:OWPDCloseFile"]}
{"id": "C174", "title": "A fetch applies the rules of the class that stored the session", "statement": "A stored session can be fetched; afterwards it is removed with its entry in the catalog exactly if all of it was fetched successfully and the class that stored it wants that, and no other file is touched.", "quantifier": "all directories, classes, ranges and outcomes", "why_tests_cant": "all directories and classes", "anchors": ["owamp/owamp/owampd/policy.c:OWPDOpenFile", "owamp/owamp/owampd/policy.c:OWPDCloseFile"]}
{"id": "C175", "title": "A fetch stores the session that was asked for", "statement": "If a fetch succeeds, the file the client has stored is the one of the session with the identifier it asked for.", "quantifier": "all servers, sessions, ranges and identifiers", "why_tests_cant": "all answers of all servers", "anchors": ["owamp/owamp/owamp/capi.c:OWPFetchSession"]}
{"id": "C176", "title": "A client that is turned away is told so", "statement": "When the server does not accept a client whose set-up response has arrived, it sends an answer saying that the client was rejected or that there was a failure, and the client reports that it was denied; a client that reports success was told that it is accepted.", "quantifier": "all set-up responses, users, tokens, policies and failures of key derivation", "why_tests_cant": "all responses and policies", "anchors": ["owamp/owamp/owamp/sapi.c:OWPControlAccept", "owamp/owamp/owamp/protocol.c:_OWPWriteServerStart", "owamp/owamp/owamp/protocol.c:_OWPReadServerStart"]}
