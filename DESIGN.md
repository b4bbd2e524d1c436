# Formal model of perfsonar/owamp in Rocq 8.16.1

All paths below are relative to `/repo/owamp/owamp/` (library `owamp/`, server `owampd/`).

## Method

* The model is a set of total, computable Gallina functions, one per C function (or per loop
  body), in `rocq/theories/*_Model.v`.  Each definition cites the file and the lines it models and
  says where it simplifies.
* Machine integers are `Z` (or `N`) with the wrap written out (`mod 2^32`, `mod 2^64`).  Byte
  buffers are `list Z` of octets (0..255).  C undefined behaviour, assertion failures, NULL
  dereferences and non-terminating loops are distinct outcomes (`None`/error constructors/fuel
  exhaustion), never silently replaced by a value.
* External things are *section variables*, i.e. universally quantified in the final theorems:
  the block cipher (AES), the HMAC function, the random source, the clock, the network, the
  results of system calls, the floating point interpolation where only partial correctness is
  claimed.  They are never axioms.
* Specifications are separate small definitions that do not use the model's helpers.  The
  property theorems are in `Props_*.v`, which hold theorem statements, one-line proofs
  (`exact lemma`), `Print Assumptions`, and a concrete example next to each theorem which shows that
  its hypotheses are satisfiable by a non-trivial case.
* A claim which the code does not satisfy is proved false on the model, with a concrete witness
  (`..._refuted`).  Where possible the part which does hold is proved as `..._partial`.

## Plan per property

| id | what is modelled | how it is proved |
|----|------------------|------------------|
| C01 | digit loop of `OWPNum64Mult` | equality with `x*y / 2^32 mod 2^64` by nonlinear arithmetic on digits |
| C02 | four conversion functions incl. normalisation loops and 32-bit truncation | division bounds |
| C03 | encode/decode of 8 octets; epoch shift | big-endian round trip lemma; division bounds |
| C04 | error normalisation loop | loop invariant `err*2^scale <= e64 < (err+1)*2^scale` |
| C05 | 2-octet codec | bit arithmetic |
| C06 | schedule context as a state record, block cipher abstract (AES: C82) | determinism and reset by state equality |
| C07 | `GenerateNextDelta` | induction on number of draws |
| C08 | `OWPExpContextNext` over an abstract uniform source | case analysis + table facts; equality with an independent statement of Algorithm S |
| C09 | `OWPUnifRand64` with byte counter | counter-value invariant by induction on draws |
| C10 | same | refuted: witness slot whose literal delay equals the "error" value |
| C11, C12 | preamble encode / decode on octet lists | field-by-field round trip; inversion of decoder |
| C13, C14, C15, C16 | codecs on octet lists; state words | round trip / inversion |
| C17 | CBC over an abstract permutation, I/O in block groups | induction over blocks and groupings |
| C18, C19 | control-connection state machine with HMAC accumulators | invariant over all command histories |
| C20, C21, C22 | mode negotiation, token check | case analysis; C21 is refuted (`|` instead of `&`) with partial theorem |
| C23 | decision part of `OWPProcessTestRequest` | case analysis |
| C24, C25 | session file as octet list with seek/write | round trip and frame lemmas |
| C26 | record iteration with arbitrary stateful callback | induction on records |
| C27 | write sequence of session completion with crash points | refuted for the skip-record window; positive for all other points |
| C28 | `OWPTestDiskspace` with 32-bit wraps | refuted + bound when no wrap |
| C29 | skip codecs in file, message, header | list round trip |
| C30 | `_OWPReadStopSessions` parsing loop | refuted (unaccounted session, unordered skips) + what does hold |
| C31, C32 | `_OWPCleanDataRecs`: search (interpolation abstract / IEEE double via `SpecFloat`), sweep | induction; refuted termination with a concrete file |
| C33, C34, C35 | `run_sender` loop over an arbitrary environment, `skip()` | loop invariant |
| C36, C37, C38, C39 | `run_receiver`, `flush_lost`, `get_node` over arbitrary event lists | invariant over event histories; C38, C39 refuted + partial |
| C40 | port selection loop | induction over cyclic range; boundary case refuted |
| C41 | reflector packet construction | codec lemma |
| C42, C43 | fetch selection and buffer/block framing, client parser | list lemmas, phase invariant |
| C44, C45, C46, C47 | packet buffer, counters, bucket sort, j-reordering | invariants over record list; C47 refuted |
| C48, C49, C51 | limit tree, demand recursion, parse inheritance | invariant over histories |
| C50, C52 | identity lookup | induction on mask length; C52 refuted + partial |
| C53 | parent/child accounting with crash | refuted + partial for orderly termination |
| C54, C55 | codecs, string parser | round trip, inversion |
| C56, C57, C58 | `OWPTimespecToTimestamp` with its cached error estimate, `_OWPGetTimespec` | C56 refuted by a wire-level witness; C57 by an invariant over clock histories; C58 by arithmetic |
| C59 | `OWPScheduleContextReset`/`Create`, one draw | refuted with a spec without slots; partial for at least one slot |
| C60, C61 | refusal paths of `OWPProcessTestRequest(TW)`, `OWPUnexpectedRequestType`, `_OWPReadTestRequest` | refuted with concrete connections; partial: a request that is answered has been read exactly to its end, and a request that could be read is answered by a negative code its client reads (`Boundary_Proofs.v`) |
| C62 | packet construction of `run_sender`, parsing of `run_receiver`, CBC and HMAC abstract | round trip through encryption; induction over executions of the sender |
| C63 | `IntegerResourceDemand` with 64-bit wrap and comparison of doubles | refuted twice; partial: off by at most 2^-51 of a limit for sums below 2^64, exact for limits below 2^51 |
| C64, C65 | `parselimitline` character by character, out-of-bounds reads as an outcome | C64, C65 refuted + partial by induction over the rendered parameters |
| C66, C67 | `OWPStopSessions`, `OWPStopSessionsWait`, `_OWPReadStopSessions` on session files | refuted (code checked after completion); partial: success is reported only for an authentic message; exchange of both sides by composition |
| C68 | `_OWPCleanUpSessions` after a broken connection | refuted; partial: marked incomplete, records of C31, and removal where the largest number kept is 0 (`Clean_Broken.v`: the scan for the highest number received) |
| C69 | `OWPStatsParse` called repeatedly on one object | invariant of the packet buffer between calls |
| C70, C71 | `run_tw_test`, two-way `flush_lost`, composed with `run_reflector` | invariant of the queue of packets over all executions; composition with C41 |
| C72 | the end of `run_tw_test` | flush lemma under hypotheses on the end; three refutations |
| C73 | size check of `run_tw_test` against the replies of `run_reflector` | refuted for every session with padding; partial without padding |
| C74 | `OWPTestPayloadSize`, the allocation in `_OWPEndpointInit`, the extents of all accesses of the four processes | arithmetic for all paddings; refuted near 2^32, exact condition for sending processes |
| C75 | `OWPTestPacketRate`, `OWPTestPacketSize`, `OWPTestPacketBandwidth` in double arithmetic | relative error 2^-50 from the rounding lemma; refuted for zero delays and overflows |
| C76 | the server as a transition system: the broker's tree, session files, connection processes with their copies of the tree, unread answers, sessions and open files; `OWPDCheckTestPolicy`, `OWPDTestComplete`, `OWPDCloseFile`, `OWPDQuery` with interruptions | invariant over all histories: usage = sum of what sessions and files hold; refuted for interrupted answers, failing fstat, crashes and concurrent fetches |
| C77 | `OWPDCloseFile` for fetched files: owner and fetching class | the release is exactly the size for the same class; refuted for other classes |
| C78 | the same transition system | case analysis of every event under the invariant that SIDs are unique |
| C79 | the connection's own tree in `OWPDCheckTestPolicy` | invariant over all histories, failures included: accepted sessions <= usage <= limit; refuted that ended sessions make room |
| C80 | `OWPDCheckTestPolicy` against the state of the broker | equivalence in all states reached without failures; refuted after an interrupted answer |
| C81 | `OWPFetchSession` with arbitrary input | the input read is decomposed block by block: every part equals the decrypted octets and is followed by its code; case analysis for failures |
| C82 | `rijndael-alg-fst.c` for 128-bit keys with its ten tables; FIPS 197 as a separate specification on octets | tables equal the products of the S-box by exhaustive evaluation over the 256 octets; rounds by symbolic computation on 16 octets; key schedule by induction; the decryption schedule by linearity of the multiplication |
| C83 | the key derivation of `_OWPEndpointInitHook` | from C82 |
| C84 | `IterateSummarizeTWSession` and the parts of `OWPStatsParse`, `PacketGet`, `PacketBeginFlush` it uses; records of whole histories from the two-way client model | invariant over the records read: both buffers hold the nodes from the oldest unflushed number on, and the figures equal counts over the records; the failures by executions of client and reflector |
| C85 | the same model | bound from the invariant; refuted for every number by the growth of the second buffer |
| C86 | powstream from its main loop on as a state machine with two connections; clock, signals and results of library calls are a list of answers; the events are logged | invariant between passes (the next session starts where the other one ends) with a weakest-precondition calculus over the program, for all answers |
| C87 | the same model | the same invariant (a session is stored only while its file is open, which is closed afterwards) |
| C88 | the same model; NULL pointers, failed assertions and unset strings are outcomes | the same invariant; refuted with -t and with -p |
| C89 | the same model without -t; times under which files are stored are part of the events | invariant relating the schedule context, the session on each connection and the log, as long as no setup fails; refuted with failing setups and lost connections |
| C90 | the same model | the same invariant; refuted for a clock that is set back after a failed setup |
| C91 | OWPStopSessionsWait up to reading a message, over a world of happenings between and during its system calls; the rest is in Stop_Model | invariant of the polling loop by induction on the happenings; the timeout in milliseconds computed exactly; refuted for the last millisecond, for times 24.8 days ahead, and for a flag together with a time |
| C92 | the same model | sleeping implies that a session runs and none has failed if no process ends between the calls; refuted (lost wake-up) |
| C93 | the same model | the status of every process at the moment of the decision |
| C94 | _OWPEndpointStatus over processes that are waited for once, OWPSessionStatus, OWPSessionsActive | coherence of acceptance values and processes, preserved by every call; refuted for a variable that is not 0 before |
| C95 | the same model, with the condition under which sessions can be started | refuted for a reflector that failed |
| C96 | the process of an endpoint until its session begins: signals as pending flags | induction on the sequence of signals and scheduling; refuted for a stop before the process has run |
| C97 | `parse_typeP` of owping with strtoul, the use of the field typeP by an endpoint | case analysis on names, bit arithmetic for the field; a table of the manual as specification |
| C98 | `parse_slots` of owping; strtod is arbitrary (section variable) | induction on the parts between commas; refuted for negative numbers |
| C99 | the table of `context.c` with the records as a heap; the hash table of I2util is a finite map whose store may fail | invariant over all operations: keys and records unique, records live; refuted for long keys, failed replacement, deletion |
| C100 | `OWPContextCreate`, `OWPContextConfig...`, daemon start | all sequences of operations; refuted: the value is read before it can be set |
| C101 | numeric options in `LoadConfig` with strtoul | induction on numerals; refuted for numbers from 2^32 on, negative ones, text after a number |
| C102 | main loop, `NewConnection`, `ReapChildren`, `FreeChldState` of `owampd.c` as a state machine whose steps interleave with signals, ends of processes and failures of memory | invariant: a process that serves is in the table or about to be entered; the counter is the size of the table |
| C103 | as C102 | invariants without lack of memory: processes and table agree, ended processes are announced by the flag; refuted by a lost SIGCHLD and by a failed realloc (invariant over all continuations) |
| C104 | as C102 | invariant of C103; refuted if AllocChldState fails |
| C105 | as C102, with the end of `main` | potential of forks that are left; invariant at the end; refuted by signals before poll and sigsuspend |
| C106 | as C102, with `CleanPipes`, `CheckFD` | induction on the table, the count of poll suffices; refuted by starvation for every number of connections |
| C107 | credentials of a process and the semantics of `seteuid`, `setuid`, `setegid`, `setgid`; the calls of `main` in order, each of which may fail | case analysis of the calls, invariant over all later calls; refuted for groups and set-user-id programs |
| C108 | user and group options with `getpwnam`, `strtoul`, `errno` | numerals of C101; refuted by errno and by text behind a number |
| C109, C110 | the loop over the requests of a connection as a state machine whose steps interleave with signals, the timer and the client | invariant over all reachable states: where the timer runs; refuted where it does not, and for an expiry just before the wait |
| C111, C112 | the same machine | runs from every reachable state of a kind; counting argument for requests after the signal; refuted by lost signals and by SIGCHLD during a read |
| C113 | the loop over the samples with 32 bit arithmetic | induction over the samples; refuted for all sizes whose multiples reach 2^32 |
| C114 | the list of percentiles (strtod is an oracle), floats as fractions | equivalence with the parts of the list; error bounds through float and double; refuted by NaN and by 99.9 |
| C115 | the lines of the report over the counters of the statistics | from C45; refuted for the machine readable report |
| C116 | the digits of the milliseconds, through two floats | error bound; refuted in the last half of a millisecond of a second |
| C117 | units | cases; refuted for seconds |
| C118 | the difference of two doubles, minimum and maximum | error bounds; refuted by witnesses |
| C119 | the construction of names with their checks | arithmetic of lengths, induction over the class hierarchy; refuted for TMPDIR |
| C120 | the walk over the data directory at start, with initdisk and usage of the classes | induction over the directory tree: the places of classes are unique, what is open and what is settled; equivalence for success; refuted by a class named ".." |
| C121 | resolution of names by the system, links | components of names; refuted for all relative data directories |
| C122 | the system calls that create, link, unlink as steps, restart in between | invariant over all histories; refuted if processes survive |
| C123 | `owp_set_auth` with sources of pass phrases as choices, then the mode selection of C20 | induction over letters, bits; refuted: fallback, downgrade, unset variable |
| C124 | `main` of owping from the connection on, everything outside as an arbitrary record | case analysis over all paths; refuted: failed fetch |
| C125 | the same with a file system | frame over all paths; refuted: refused session, failed fetch |
| C126 | arithmetic of the start time and the loss timeout | arithmetic mod 2^64, rounding of doubles |
| C127 | names, links and order of the files of `-p` | injectivity of names, induction over samples; refuted: existing names, both directions of fixed schedules |
| C128 | the loop of owfetch with a file system | induction over the command line; refuted: bad SIDs, refused requests |
| C129 | `strtoul` and the conversions after it | value of numerals by induction; refuted: cut, negative, empty, clamped numbers |
| C130 | the loops over the addresses, outcomes of system calls as fields of each address | induction over the list |
| C131 | the same with the set of open descriptors and the one stored in the address record | induction; refuted: unknown local address |
| C132 | `OWPServerSockCreate` likewise | induction; refuted: address in use |
| C133 | where the memory of the pass phrase is overwritten, along the set-up of C20-C22 | case analysis; refuted: wrong token, no allowed mode |
| C134 | processes, the record lock and the file of the process id as a state machine over arbitrary events | invariant over histories; refuted: daemons, the lock is not inherited by fork |
| C135 | the same with powstream | the same invariant |
| C136 | lengths of all composed paths | arithmetic; refuted: run directory of owampd |
| C137 | resolution of names before and after `chdir("/")` | places of C121; refuted: relative names |
| C138 | the checks of `main` of powstream | arithmetic; refuted: `-E` |
| C139 | names and contents after every prefix of the system calls | case analysis over prefixes; refuted: summaries are linked before they are flushed |
| C140 | `OWPSessionRequest` with the server, the policy and all failures as arbitrary functions | case analysis, induction over histories; refuted: the local policy is asked after the server has accepted |
| C141 | the two loops for addresses; ports of request and answer | equality with the first candidate of a sorted list |
| C142 | events of a request | invariant over the events: consent precedes |
| C143 | the loops of `OWPStartSessions` | induction over the sessions |
| C144 | octets of the name | injectivity |
| C145 | the records with their pointers, the free list, the hash table and the blocks of memory, on a heap | refinement to a list of bits; invariant: the three lists are disjoint and cover all records; refuted: a failing `calloc` is followed by use of a NULL pointer |
| C146 | signals of the calling process (handlers, mask, pending) and the nineteen calls, each of which can fail; signals arrive before any call | invariants over the list of calls; refuted: pending SIGTERM is discarded, failing fork leaves the handlers |
| C147 | the steps of init and hook as a list, events of acquiring and giving back | any failing prefix of the list; refuted: the descriptor of `reopen_datafile` |
| C148 | doubles as rounded fractions | error bounds of seven roundings; refuted: conversion to 32 bits undefined |
| C149 | doubles as rounded fractions | monotone rounding; refuted: `inf` and huge values |
| C150, C151 | the file as the list of keys and values with numbers of lines, the command line as the list of options; the three passes | induction on both lists against the table of the manual pages; refuted: default of dieby, keys compared as prefixes, exit status 0 |
| C152 | parse_ports with its static record | fold over the list of ranges; refuted: 0 after a range |
| C153 | the row that is passed to I2ReadConfVar | induction; refuted for every file: the length of the path is added |
| C154 | opening, parsing, closing, installing as a list of actions | cases; refuted: fclose called twice after an error |
| C155 | the loop over the letters | induction, bits; refuted: empty string |
| C156 | the fields printed as a record, from the state of the statistics and an order of the hash table | from the invariant of C44 and C46: histograms of the first copies; refuted: 256 values of the TTL |
| C157 | bucket and value as rounded operations on fractions | error analysis in Q, monotonicity of rounding; refuted: median above the maximum, delays of days have no bucket |
| C158 | the loop over control messages, the text on hops | cases and C46; refuted: TTL unknown is reported as 0 hops |
| C159 | what recvmsg delivers of a datagram | cases; refuted: longer datagrams are cut and accepted |
| C160 | mask and shift of typeP, difference of doubles, printf %f | bits; error bound; refuted: after 2036 |
| C161 | objects as (kind, owner); the functions that set up as sequences of steps that may fail, with the error labels; histories of operations | a watchman replays the events; invariant: what exists is what the records refer to; refuted: a connection record that cannot be completed crashes, names of interfaces are lost, a fetched session without address is lost |
| C162 | the same events with the outcome told | counting of grants and tellings from the invariant of C161; refuted: success told although the acceptance was never written |
| C163 | texts of the records, words separated by blanks | splitting at blanks and newlines gives the words back, decimal digits give the numbers back |
| C164 | fold over the options, then the rules of precedence | case analysis on which options occur |
| C165 | doubles as fractions, rounding of subtraction and multiplication, tvaladd and tvalsub | error bounds of rounding; refuted: errno of an earlier call, text behind the number |
| C166 | the effective set as a function, the system calls as oracles | case analysis; refuted: a process that had the privilege loses it, one that cannot give it up keeps it |
| C167 | the limit among the options, the statistics of Stats_Model with it | rewriting; refuted: -v1 -M reports one packet of four |
| C168 | pieces of the object acquired step by step, with numbered blocks for growth | the filters of OWPStatsFree partition the pieces |
| C169 | events of do_stats with oracles for fopen, parsing and link | an observer replays the events, induction on the samples; refuted: object lost if the temporary file cannot be opened, file and name left if a later sample cannot be summarized |
| C170 | bucket records in blocks, free list, table whose keys lie in the records, failures of allocation as oracles | invariant (free and used records distinct and inside the blocks, keys distinct), induction on the operations |
| C171 | comparison by a difference of ints, undefined if it overflows | injectivity of the keys; refuted: delays of -30 h and 30 h |
| C172 | the column of one kind of the shared, sorted records | sums over the entries equal numbers of delays; refuted: percentile 0 |
| C173 | files and links by name, failures as oracles, what the process still holds | case analysis with lemmas about lookup and removal; refuted: the stored session of an identifier in use is removed, a record is lost if a directory cannot be made |
| C174 | the target of the link, the name of the class in it, the limits file as a function | the name between the last separators; refuted: a class that is no longer in the limits file leaves a pointer without value |
| C175 | what the client stores when it has asked for an identifier | from C43 for a server that keeps its files under their identifiers; refuted: the identifier in the answer is not compared with the one asked for |
| C176 | the answers of the server during the set-up, the client reading them (`Setup_Model`) | cases of the decision, each ends with one message; refuted: a response that names no mode of the protocol is not answered |

Not expressible here: timing guarantees of the operating system (that a packet is actually sent
when the process wakes up), cryptographic strength of AES/HMAC/PBKDF2, and data races with signal
delivery inside library calls; the model treats these as arbitrary oracles.

## Trusted base

* Coq 8.16.1 kernel (and `coqchk` if re-run).  No plugins, no native or VM-only trust beyond
  `vm_compute` in the kernel.
* Assumptions: `Print Assumptions` stands after every property theorem (or at the end of its file);
  for each of them it prints "Closed under the global context".  No axiom of the standard library or
  of any other library is used by a property theorem.  (`vcheck` lists seven `Coq.ssr.ssrunder`
  constants: they come with loading ssreflect's library files through the standard library and are not
  used.)
* The reading of the C source: the model is hand-written; the comments cite the modelled lines.
* Not in the repository and therefore abstract: I2util (HMAC-SHA1, PBKDF2, hash tables, address
  handling, random source, file copy, number parsing), libc and the kernel.

What is assumed about the abstract parts, always as a hypothesis of the theorem that needs it:

* `block_cipher E D`: 16 octets are mapped to 16 octets and `D` inverts `E`; `blocks16 D`;
  decryption yields octets from octets: all of this is proved of the AES implementation in the
  repository (`C82_assumptions_met`), so that these hypotheses can be discharged.
  `digest20 H`: the HMAC has 20 octets.  Nothing about secrecy
  or collision freedom; what depends on unforgeability is stated relative to the code being right.
* The random source, clock readings, signals, datagrams, results of system calls and of policy
  functions are arbitrary (universally quantified lists or functions), with the value ranges written
  in the theorem (for instance: nanoseconds below 10^9).
* `I2HashStore` replaces, `I2StrToNum`, `strtoul` and numeric `getaddrinfo` are parameters where a
  parser needs them; `I2CopyFile` copies what the descriptor shows (stdio buffers that have not
  been flushed are not copied: parameter `flushed`).

### Modelled

| file | functions | model |
|------|-----------|-------|
| `owamp/arithm64.c`, `time.c` | all conversions, `OWPNum64Mult`, time stamp and error estimate codecs, `_OWPGetTimespec` | `Arith_Model`, `Time_Model` |
| `owamp/rijndael-alg-fst.c`, `rijndael-api-fst.c` | tables, key schedules, encryption and decryption for 128-bit keys (the loops, not the `FULL_UNROLL` variant), CBC | `Aes_Tables`, `Aes_Model`, `Control_Model` |
| `owamp/stats.c` | summaries of two-way sessions with a new object: counts, histograms, TTLs, flags, both packet buffers | `StatsTW_Model` |
| `owamp/endpoint.c` | keys of a test session | `Keys_Model` |
| `owamp/schedule.c`, counter mode | contexts, slots, `OWPExpContextNext`, `OWPUnifRand64` | `Sched_Model` |
| `owamp/protocol.c`, `io.c` | all messages of the control protocol, CBC and HMAC streams, state words | `Wire_Model`, `Control_Model`, `Stop_Model`, `Fetch_Model` |
| `owamp/capi.c` | `OWPControlOpenCommon`, `OWPSessionRequest`, `OWPStartSessions`, `OWPFetchSession`, `OWPParsePortRange` | `Setup_Model`, `Fetch_Model`, `Port_Model` |
| `owamp/sapi.c` | `OWPControlAcceptCommon`, test requests, start, fetch, unexpected requests | `Setup_Model`, `Server_Model`, `Fetch_Model` |
| `owamp/api.c` | session files (headers, records, skips), diskspace, stop of sessions, clean-up | `File_Model`, `Stop_Model`, `Clean_Model` |
| `owamp/endpoint.c` | port search, `run_sender`, `run_receiver`, `run_reflector`, `run_tw_test`, `flush_lost`, `skip` | `Port_Model`, `Packet_Model`, `Sender_Model`, `Receiver_Model`, `Reflector_Model`, `Twoway_Model` |
| `owamp/api.c`, `endpoint.c` | packet sizes and bandwidth, the buffer of an endpoint and the extents of the accesses to it | `Size_Model` |
| `owamp/stats.c` | packet buffer, `IterateSummarizeSession`, `OWPStatsParse`, percentiles, TTLs, reordering | `Stats_Model` |
| `owampd/policy.c` | limits file parser, identities, resource tree, parent/child messages | `Limits_Model`, `Policy_Model` |
| `owampd/policy.c` | the policy functions over the life of sessions and files, several connections sharing the broker | `Lifecycle_Model` |
| `owampd/owampd.c` | children, their classes and resources | `Policy_Model` |
| `powstream/powstream.c` | `FetchSession`, `write_session`, `ResetSession`, `CloseSessions`, `sig_check`, `SetupSession`, the main loop | `Pow_Model` |
| `owamp/api.c`, `owamp/endpoint.c` | `OWPSessionStatus`, `OWPSessionsActive`, `OWPStopSessionsWait` (waiting), `_OWPEndpointStatus`, `_OWPEndpointStart`, `_OWPEndpointStop` (signals), start of the process in `_OWPEndpointInitHook` | `Wait_Model` |
| `owping/owping.c`, `owamp/endpoint.c` 978-1054 | `parse_typeP` and the traffic class, `parse_slots` (a value of 2^32 s or more, undefined in C, is not cut) | `Options_Model` |
| `owamp/context.c`, `owampd/owampd.c` | `ConfigSet...`, `ConfigGet...`, `ConfigDelete`, `free_hash_entries`, the count in `OWPContextCreate`; numbers in `LoadConfig` | `Config_Model` |
| `owampd/owampd.c` | the loop of `main`, `NewConnection` up to the fork, `AllocChldState`, `FreeChldState`, `ReapChildren`, `CleanPipes`, `CheckFD`, `signal_catch` | `Daemon_Model` |
| `owampd/owampd.c` | the user, group and privileges part of `main` | `Priv_Model` |
| `owampd/owampd.c` | the loop of `NewConnection` over the requests, with the signal handler | `Conn_Model` |
| `owping/owping.c` | the samples of `do_stats`, `parse_percentile` | `Report_Model` |
| `owamp/stats.c`, `owamp/capi.c` | `OWPStatsScaleFactor`, `OWPDelay`, parts of `OWPStatsPrintSummary` and `OWPStatsPrintMachine` | `Report_Model`, `Single` |
| `owampd/policy.c`, `owamp/api.c` | `node_dir`, `InitializeDiskUsage`, `verify_datadir`, names and links of `OWPDOpenFile`, order of the system calls of `OWPDCloseFile`; the temporary file of `_OWPCleanUpSessions` | `Datadir_Model` |
| `owping/owping.c` | `owp_set_auth`, `main` from the connection on, `owp_fetch_sid`, files of `-p`, numbers of `-c`, `-s`, `-N` | `Ping_Model` |
| `owamp/capi.c`, `owamp/sapi.c`, `owamp/context.c` | `_OWPClientConnect`, `TryAddr`, `OWPServerSockCreate`, `OpenSocket`, frees of address records and pass phrases | `Connect_Model` |
| `owampd/owampd.c`, `powstream/powstream.c` | lock files, process ids, paths and some options at the start; order of the calls that store files of powstream | `Start_Model` |
| `owamp/capi.c`, `owamp/api.c`, `owamp/context.c` | `OWPSessionRequest`, `OWPStartSessions`, `_OWPCreateSID`, call of the policy | `Request_Model` |
| `owamp/endpoint.c` | `LostFree`, `alloc_node`, `free_node`, `get_node`, the pop in `flush_lost`, the first block | `Nodes_Model` (the hash table as an association list) |
| `owamp/endpoint.c` | `_OWPEndpointInitHook`: signals and fork | `Fork_Model` |
| `owamp/endpoint.c` | resources and numbers of `_OWPEndpointInit`, `EndpointClear`, `EndpointFree`, `reopen_datafile`, `anon_file` | `Endpoint_Model` |
| `owampd/owampd.c`, `owampd/policy.c`, `owamp/error.c` | `LoadConfig`, `parse_ports`, options in `main`, `OWPDPolicyInstall`, `OWPReportLevelByName` | `Daemonopt_Model` |
| `owamp/stats.c`, `owamp/endpoint.c` | `OWPStatsPrintMachine`, `PrintTtlStats`, `PrintTtlStatsMachine`, `BucketIncrementDelay`, `BucketBufferSortPercentile` (delay), `CalculateJitter`, `recvfromttl` | `Machine_Model` |
| `owamp/context.c`, `owamp/capi.c`, `owamp/sapi.c`, `owamp/protocol.c`, `owamp/api.c` | objects of `OWPContextCreate`, `OWPContextFree`, `_OWPControlAlloc`, `OWPControlClose`, `OWPControlOpenCommon`, `TryAddr`, `OWPControlAccept`, `OWPSessionRequest`, `OWPProcessTestRequest`, `OWPProcessTestRequestTW`, `_OWPReadTestRequest`, `_OWPTestSessionAlloc`, `_OWPTestSessionFree`, `OWPFetchSession`, `OWPStopSessions` | `Objects_Model` |
| `owping/owping.c`, `owamp/time.c`, `owamp/api.c` | `printraw`, `printrawTW`, options for the output in `main` and `do_stats`, the time offset of `_OWPInitNTP`, `OWPSetEffectiveCapability`, `OWPSocketInterfaceBind` | `Misc_Model` |
| `owping/owping.c`, `owamp/stats.c` | the option -vN, objects and files of `do_stats`; memory in `OWPStatsCreate`, `OWPStatsFree` and growth in `OWPStatsParse` | `Dostats_Model` |
| `owamp/stats.c` | `BucketIncrementDelay`, `BucketBufferClean`, `BucketBufferSortFill`, `BucketBufferSortCmp`, `BucketBufferSortPercentile` for all kinds of delay, the blocks of buckets | `Bucket_Model` |
| `owampd/policy.c` | `OWPDOpenFile` and `OWPDCloseFile` with their failures: files, links, records | `Openfile_Model` |
| IEEE doubles used by the code | rounding, comparison, arithmetic on 53-bit mantissas | `Double` (own definition, no axioms) |

### Not modelled

* `addr.c`/`getaddrinfo` resolution, `context.c` beyond its configuration table, `I2util` (its hash table is a finite map).
* `_OWPEndpointInit` apart from the port search and the size of the buffer; timers (`setitimer`) are part of the arbitrary
  environment; `fork` and signal delivery are events.
* `powstream` before its main loop except what is in `Start_Model`, and the contents of its files.
* The programs `owping` and `owfetch` except what is in `Options_Model`, `Report_Model` and `Ping_Model` (twping only where
  it shares this code), `owstats`, `owup`, and what `owampd`
  does before its loop, except numbers in its configuration, its privileges, its lock and its paths; the text of reports except the parts in `Report_Model`.
* Concurrency between processes on the same session file is a choice of snapshots (`Fetch_Model`).

### Validation of the model against the code

The schedule model was extracted and run with the model of the AES implementation against the four test vectors of
`owamp/test/owtvec.c`: all expected sums are reproduced.  (Done once outside this repository; it is
a test of the model, not part of the proofs.)  The theorems are tested against wrong models, see
`seeded/LOG.jsonl`.
