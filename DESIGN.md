# Formal model of steffann/pylisp in Rocq (Coq 8.16.1)

## 1. Approach

pylisp is a Python 2 LISP (RFC 6830) implementation: packet codecs (`pylisp/packet`, `pylisp/utils`), and a
daemon (`pylisp/application/lispd`) with an address tree, a map server, a DDT node and an ETR.  The model is a
*shallow, executable* one: every Python function becomes a Gallina function with the same branches in the same
order; exceptions are values (`res A := Ok a | Err e`, `exn` names the Python exception class); mutation is
returning the new object; a `while` loop is recursion on explicit fuel whose exhaustion is a separate exception
(`EFuel`) proved unreachable.  Every model definition has a comment `(* file:lines *)`.

### 1.1 Files (rocq/theories)

| file | content |
|---|---|
| `Base.v`, `BaseLemmas.v` | result monad, exceptions, bytes, bits, big-endian integers, the part of `bitstring` that is used |
| `Spec.v`, `SpecLemmas.v` | independent specification vocabulary: big-endian value of bytes, `field off width`, one's-complement sums, leaves, sortedness... (no reference to the codecs) |
| `Afi.v` / `AfiProofs.v`, `PropAfi.v` | `ipaddress` subset, `utils/afi.py`, `utils/lcaf/*`; C01-C06 |
| `SpecEid.v`, `PropEid.v` | what an EID names (declarative), C90 |
| `Checksum.v` / `ChecksumProofs.v` | `utils/checksum.py`; C07 |
| `Records.v` / `RecordsProofs.v`, `SpecRec.v` | locator, map-reply/register/referral records; what a receiver sees of them |
| `Control.v` / `ControlProofs.v`, `PropControl.v`, `PropLayout.v` | six control messages without a packet inside; C24-C29, C32-C40 |
| `SpecAccept.v`, `PropAccept.v` | exactly which addresses, records and messages can be sent; C91 |
| `Packet.v` / `PacketProofs.v`, `PacketStack.v`, `SpecPkt.v`, `PropPacket*.v`, `PropUdp.v` | IPv4, IPv6, extension headers, UDP, LISP data, ECM, nested to any depth, dispatch; C08-C23, C30, C31, C67-C69, C89 |
| `Auth.v`, `SpecAuth.v`, `PropAuth.v` | HMAC authentication data of Map-Register/Notify/Info; C41-C44 |
| `Sha.v`, `PropSha.v` | SHA-1, SHA-256 and HMAC from their standards: the real digests, to use the theorems about authentication with; C112 |
| `Conform.v` | the model computed on what the repository records: unit tests, examples in docstrings, captured messages |
| `IpText.v`, `SpecText.v`, `PropText.v` | addresses and networks as text (py2-ipaddress's reading and printing); C113 |
| `Startup.v`, `SpecStartup.v`, `PropStartup.v` | values of settings, from the configuration files to the sockets lispd serves; C114, C115 |
| `PropObjects.v` | what the parsers return are well-formed objects; exactly which Map-Requests can be sent on; C05, C32 |
| `PropReplay.v` | delayed, duplicated and replayed Map-Registers at a Map-Server; C116 |
| `Masks.v` | network masks in dotted notation, in the two forms the library has had (Python 3.3, releases 1.0.x); C113 |
| `SpecCanon.v`, `PropCanon.v` | the one text of an address (RFC 5952 section 4, dotted decimal without leading zeros) is the one printed; C113 |
| `SpecHonest.v`, `PropHonest.v` | who can put something in a Map-Server: ETRs, Map-Server and a network that does as it likes but cannot make MACs; C117 |
| `PropConfirm.v` | an ETR whose registration is confirmed is registered; C118 |
| `PropContainer.v` | children of containers by prefix and by object; C119 |
| `ThreadLoop.v`, `PropThreads.v` | the loop of the registration and cleanup threads (etr_node.py:411-463, map_server_node.py:68-107) with exceptions, waits, stop() and dropped nodes; C120 |
| `Paths.v`, `PropPaths.v` | where configuration files are looked for (settings.py:66-87, posixpath.join/isabs/expanduser; realpath, $HOME and the directory of the executable are arguments); C121 |
| `Witness.v` | concrete cases meeting the hypotheses of the theorems whose own files show none (`Cxx_witness`) |
| `PropAmpl.v` | sizes of answers against the datagrams that caused them; C122 |
| `PropIso.v` | two runs of the daemon side by side; C123 |
| `PropRsv.v` | reserved bits of everything that is sent; C124 |
| `PropKinds.v` | the decoders of the message classes and the type field; C125 |
| `LcafText.v`, `SpecLcafText.v`, `PropLcafText.v`, `PropLcafShape.v` | `unicode(address)` for the LCAF classes, and `ip_address`/`ip_network` of it; C126 |
| `Race.v`, `SpecRace.v`, `PropRace.v` | the registration thread in `register`/`notify_content_ok` against the main thread in `set_notify_if_matches`, one shared access at a time; C127 |
| `RaceInfo.v`, `SpecRaceInfo.v`, `PropRaceInfo.v` | the registration thread in `get_nat_info` against the main thread in `set_reply_if_matches`, one shared access at a time; C128 |
| `Signals.v`, `SpecSignals.v`, `PropSignals.v` | the registration threads of a node telling each other about RTRs (`_rtrs`, `need_new_registration`), one shared access at a time; C129 |
| `Collect.v`, `SpecCollect.v`, `PropCollect.v` | `get_etr_locators` in a registration thread while the main thread runs `update_addresses`: every read of an automatic address sees what it is at that moment; C130 |
| `RebindRace.v`, `SpecRebindRace.v`, `PropRebindRace.v` | `rebind` of a socket in the main thread against `sendto` and `getsockname` in registration threads, one access or system call at a time; C131 |
| `SpecCut.v`, `PropCut.v`, `PropCutInfo.v` | how often a pass of a registration thread sends, what stop() does to it and what it leaves in the lists of outstanding requests, on the models of C127 and C128; C132 |
| `SpecMoves.v`, `PropMoves.v` | a change of the addresses of interfaces until it is in the store of the Map-Server, on the models of C110 and C130; C133 |
| `Pass.v`, `SpecPass.v`, `PropPass.v` | the passes of a registration thread with the variable `nat_info` and the RTRs the node records (etr_node.py:412-459, 546-552); C134 |
| `SpecBehind.v`, `PropBehind.v` | NAT detection against an honest Map-Server behind any address and port translation; C135 |
| `SpecDepth.v`, `PropDepth.v` | how deeply the decoders of addresses and packets call themselves, by the size of what they read; C136 |
| `PropFits.v` | how long the messages lispd sends can be; C137 |
| `SpecTwice.v`, `PropTwice.v` | the same datagram arriving a second time; C138 |
| `SpecReorder.v`, `PropReorder.v` | datagrams that overtake each other; C139 |
| `SpecOthers.v`, `PropOthers.v` | datagrams of other senders lost or added; C140 |
| `PropRestart.v` | a Map-Server with and without a restart; C141 |
| `SpecPasses.v`, `PropPasses.v` | histories with other cleanup passes; C142 |
| `SpecGrowth.v`, `PropGrowth.v` | how many registrations are held; C143 |
| `SpecOrder.v`, `PropOrder.v` | two daemons whose configurations differ in the order of nodes; C144 |
| `PropQuiet.v` | what lispd's answers set off elsewhere; C145 |
| `SpecGroup.v`, `PropGroup.v` | one Map-Register per record; C146 |
| `Registry.v`, `PropRegistry.v` | type registries; C45 |
| `Tree.v`, `SpecTree.v`, `TreeProofs.v`, `PropTree*.v` | address tree; C46-C50, C70 |
| `Dict.v`, `MapServer.v`, `SpecMs.v`, `PropMs*.v` | Map-Server; C51-C54 |
| `Net.v`, `SpecNet.v`, `PropNet.v` | send_message, auto sockets and addresses, id generators, settings; C62-C66, C71, C72 |
| `Ddt.v`, `SpecDdt.v`, `PropDdt*.v` | DDT node and root loader; C55, C56 |
| `Etr.v`, `SpecEtr.v`, `PropEtr*.v` | ETR node: locators, Map-Replies, notify checks, registration thread; C57-C61 |
| `Daemon.v`, `SpecDaemon.v`, `PropDaemon*.v` | scripts/lispd event handling, received_message.py, message_handler.py, data plane, NAT-traversal registrations, thread lifecycle; C73-C76, C87 |
| `SpecRoute.v`, `PropRoute.v` | which outstanding request a Map-Notify or Info-Reply is recorded with; C79, C80, C83 |
| `SpecLife.v`, `PropLife.v` | threads and RTRs of an ETR's registrations, on histories; C84 |
| `SpecDelim.v`, `PropDelim.v` | where messages end; C93 |
| `Main.v`, `SpecMain.v`, `PropMain.v` | main() of scripts/lispd: start-up, sockets of the nodes, main loop and signals; C94, C95 |
| `Sched.v`, `SpecSched.v`, `PropSched.v` | threads step by step: search of the lists of outstanding requests, registrations under their lock, clock of the cleanup thread; C96–C98 |
| `Geo.v`, `SpecGeo.v`, `PropGeo.v` | doubles as rational numbers with rounding; decimal degrees of geo addresses; C99 |
| `AutoReg.v`, `SpecAReg.v`, `PropAReg.v` | all automatic addresses of the process; C100 |
| `PropSched2.v` | C98 for interleaved threads |
| `PropAReg2.v` | C100_followed_mixed: programs that also use the constructors |
| `Sockets.v`, `SpecSockets.v`, `PropSockets.v` | the UDP sockets of the process, what importing map_server_node leaves behind, SIGHUP; C104 |
| `RootFile.v`, `SpecRoot.v`, `PropRoot.v` | the text of the DDT root file: lines, comments, the regular expression; C105, C56 for every file |
| `Running.v`, `PropRunning.v` | the registration threads of all ETR nodes of a daemon that starts; C106 |
| `RootConf.v`, `PropRootConf.v` | the loaded DDT root file as the INSTANCES setting; C107 |
| `LocSet.v`, `PropLocSet.v` | the set of locators of an ETR node, as a Python set of objects with stored hashes; C108 |
| `DdtNodes.v`, `PropDdtNodes.v` | the set of DDT nodes of a referral or an authoritative container; C109 |
| `PropStay.v` | an ETR's registration thread and a Map-Server with its cleanup thread, over time; C110 |
| `PropServe.v` | the main loop, the message handlers and the registrations together; C111 |
| `Tools.v`, `PropTools.v` | map_register, ddt_query and map_resolve against a pylisp daemon; C102, C103, C81_unconfirmed |
| `InfoReq.v`, `PropInfo.v` | the Info-Request of an ETR; NAT detection end to end; C101 |
| `SpecSend.v`, `PropSend.v` | exactly which packets can be sent and their length; C92 |
| `PropLoop.v`, `PropLoop2.v`, `PropLoop3.v` | encapsulated registrations and queries; a registration from the ETR to the Map-Server and back; C81, C82, C88 |
| `Conf.v`, `SpecConf.v`, `PropConf.v` | configuration files and accepted configurations; C85, C86 |
| `Exchange.v`, `SpecExch.v`, `PropExch.v` | retransmission loops of NAT detection and registration; C77, C78 |

`Prop*.v` hold the property theorems (`Cnn_*`) with `Print Assumptions` beneath and an `Example` or a refutation witness
that meets their hypotheses; `Spec*.v` hold what a reader has to read to understand the statements.

### 1.2 Modelling decisions (trusted)

* Python's recursion limit (1000 frames by default) is not modelled: elsewhere the decoders have as much stack as they need, and C136
  says how much that is. Beyond the limit Python raises `RuntimeError`, which `received_message.py:49` and `message_handler.py:72` catch.
* `bitstring`: a stream is the list of its unread bits.  `read('uint:n')` etc. raise `ReadError` when fewer than n
  bits are left and consume nothing; building `uint:n=v` raises `CreationError` (a `ValueError`) unless
  `0 <= v < 2**n`; `.bytes` of a bit string whose length is not a multiple of 8 raises.  Zero-length reads give the
  empty value.
* `ipaddress`: an address is (version, integer), a network (version, integer, length).  The constructors'
  invariants (in range, host bits zero) appear as the boolean hypothesis `wf_addr`.  Reading and printing texts is in `IpText.v`: the
  methods of py2-ipaddress (not in /repo), as in Python 3.3, of which it is a backport, with what differs between releases as arguments.
* Python ints are `Z`; the code's range checks are modelled.  Booleans/bytes/record classes are Coq types, so the
  `isinstance` checks which only reject values of a wrong Python type are not represented (a wrongly typed value
  is not expressible); `isinstance` checks between address kinds *are* (the `addr` type has all kinds).
* Reserved bits kept by the objects (`_reserved1`) are bit lists of the length the constructor/parser gives them.
* `sanitize` normalises (sorts locators, clears actions, wraps EIDs...), so it is `obj -> res obj`, and
  `to_bytes` encodes the sanitized object.
* HMAC is a parameter of the authentication theorems: a function `key -> bytes -> bytes` of output length 20/32.  `Sha.v` gives the real
  one, which is such a function (C112_digests).
* Dictionaries are association lists or functions, Python sets are lists (theorems quantify over their order),
  time is `Z` microseconds, threads are interleavings of lock-protected atomic operations, the operating system
  (sockets, interfaces, clock) is an oracle quantified over.
* The locks, and threads that run between any two statements, are modelled where it matters (`Sched.v`); elsewhere a
  lock-protected operation is one step.
* Not modelled: logging, the CLI, IPython shell, plugin loading, `repr`.

## 2. Properties: model and proof

| id | model / proof |
|---|---|
| C01,C02,C05 | induction over the nested address type; encoder/decoder of `Afi.v`; decoder inversion lemma gives C05 |
| C03 | arithmetic characterisation of `ip_network(a).supernet(n)` |
| C04 | fuel adequacy by the length of the input; locality by induction on fuel |
| C06 | `get_addresses` against an inductive `leaf` relation |
| C07 | loop invariant modulo 65535 and against RFC 1071 sum |
| C08,C09,C14,C12 | IPv4 codec; checksum lemma about replacing one word |
| C10,C11,C67 | UDP checksum with both pseudo headers; C67 refuted (a failed computation leaves checksum 0) |
| C13 | refuted by all packets with options (total length ignores them) |
| C15-C17 | IPv6 / extension header / UDP codec round trips, positional layout |
| C18,C19,C68 | `Protocol.sanitize`; C19 refuted for extension headers, C68 says what they emit |
| C20,C69 | nested `pkt` type; parser inversion by induction on fuel; no depth bound |
| C21,C89 | recursive chain walk against an inductive relation |
| C22,C23 | LISP data header codec |
| C24-C29, C33, C34 | control codecs; round trip, positional layout, overflow raises |
| C30 | refuted (two flags never written); the rest proved |
| C31 | dispatch |
| C32 | parse inversion; refuted for Map-Requests with LCAF EIDs; proved otherwise; exactly which parsed Map-Requests can be sent on |
| C35-C40 | record sanitize/sort; C36, C38, C40 refuted with witnesses and positive halves |
| C41-C44 | HMAC as parameter; C43/C44 refuted with witnesses and positive halves |
| C45 | registry as map, induction over histories |
| C46-C50, C70 | address tree; C47/C49/C50/C70 refuted with witnesses and positive halves |
| C51-C54 | map server as state machine, refinement of a keyed store with expiry; C53 refuted (key id 0) |
| C55 | DDT handler; refuted; what it does prescribed exactly |
| C56 | loader as fold over delegations |
| C57-C61 | ETR locators, replies, notify checks, registration loop as a state machine; C57, C59-C61 refuted |
| C62-C66, C71, C72 | socket, address, counter, settings state machines; C66, C71 refuted |
| C73-C76, C87 | one transition function for datagrams, queued packets, cleanup passes and thread steps; answers related to an inductive `answers`; C74: the content of every Map-Server after every history |
| C77, C78 | attempt loops against histories of what was sent and heard |
| C79, C80, C83 | routing of answers to outstanding requests; findings refuted |
| C84 | lifecycle as a fold over operations, against predicates on the history |
| C93 | locality of every reader (combinators), length fields of IP and UDP |
| C94 | `start` against `unusable`; `set_sockets` over trees by induction; refuted half by a node added later |
| C95 | `serve` over a list of `world` events (arrivals, signals, select results, threads); invariant relating the trace of handled events to the arrivals |
| C96 | `search`: the `for` loop of the main thread as fetch/test steps over a shared list, other threads append and remove; invariant: the waiting request is ahead of the iterator unless something already visited was removed; counterexample |
| C97 | `interleave`: threads with lists of operations, one step per dictionary operation, a lock; invariant: what the thread inside would still do, undisturbed, gives the sequential result |
| C98 | timed histories with the passes of `MSCleanupThread.run`; from C51 |
| C99 | doubles are rationals, `rnd` is rounding to nearest even (with a proved error bound); error analysis of setter and getter; counterexamples computed |
| C100 | `a_run` over histories; invariant: every cached object is in the set; counterexample with two constructed objects |
| C101 | C41, C91, C29, C62, C80 composed over the bytes on the wire |
| C102 | C88, C55, C28 composed over the bytes on the wire; refuted for map_resolve and for delegations |
| C103 | C41, C91, C51, C74's lemmas composed |
| C104 | invariant over all histories of address lookups, sockets and SIGHUPs, composed with C63, C64, C100 |
| C105 | the matcher with backtracking is sound and complete for the four-field grammar, and fields are unique because neighbouring character classes are disjoint; then induction over the lines, composed with C56 |
| C106 | giving out the sockets is a fold over the nodes of all trees, and each node's share is a history of C84; then C84 for the composed history |
| C107 | C66's exact description of accepted settings applied to the configuration C56 describes; an address lies in a listed prefix or in none (decidable) |
| C108 | invariant over histories: stored hashes are the hashes of the objects, the set has each locator of the specification once; then C57 |
| C109 | each operation adds and takes away what the specification says; induction over histories |
| C110 | invariant of the thread (an iteration that does not register follows an attempt at most a minute before), then C42 (verification), C51 and C98 |
| C111 | C95 gives the sequence of events; every step's output by C73, C76 and C87, by induction; the registrations by C74 |
| C112 | length of the digests from their definition; C42 and C51 for them; HMAC unfolded into its two hash calls |
| C113 | texts split at their separators and parts matched with a grammar; the run of zeros that printing leaves out, by an invariant of the scan; lines of a root file from C105; masks by parity of what is left after the trailing zeros |
| C114 | composition of C85 (loading), C66 (checks), C113 (texts) and C94 (main) over a model of Python values of settings |
| C115 | false of the code (XTR_ID and SITE_ID are not checked): exact condition for a Map-Register to be encodable from C91 and C41, refutation by a configuration that is served |
| C116 | false of the code (the nonce of a Map-Register is never looked at): every message accepted once is accepted again at any time, from anywhere if it names its xTR, and its record comes back; by C51 and C52 on histories. What holds: in order of arrival the newest one is registered |
| C117 | trace property of the whole daemon: unforgeability as a hypothesis on the datagrams of the trace (a valid MAC was computed by someone with the key over the same bytes); from C74 (what is registered was accepted), C42 (the MAC covers the bytes), round trips (the same bytes are the same message; a Map-Notify never has the bytes of a Map-Register), C57 (what the ETR announces). False without the hypothesis that messages have a key id (C53): refuted |
| C118 | ETR, network and Map-Server together: register() returns the check of a Map-Notify that reached it (invariant of the attempts), its MAC was made by the Map-Server answering (C54), which answers authentic Map-Registers (C51), which are announcements (as in C117), and nonces are not reused: this one; C74 says it is registered |
| C119 | from the specification of overlapping prefixes and pairwise disjointness of the children of a tidy container |
| C120 | State machine of a node's thread (before the check, in a pass, waiting, ended) over all histories of turns, exceptions, elapsed waits, stop() and the node being dropped; invariants by induction over the history, subsequence arguments for progress; the ETR node's own threads through C84. |
| C121 | posixpath functions on texts; the three names computed for any relative name, composed with the settings in force of C114; the answer for absolute names refuted. |
| C122 | for every packet a lower bound on the octets it was read from (by induction over the parser), exact sizes of what the writers produce; together with the contents of the answers (C54, C55, C58) they give the bounds for every event of the daemon. Forwarded packets (C76) are excluded: re-serialising can lengthen them. |
| C123 | relational: two daemons with the same settings go through histories of which one lacks events that do not concern a Map-Server; a simulation over every step (record loop, message, datagram, thread) keeps that Map-Server's state equal. Outputs: equal settings and ETRs give equal outputs, by the same simulation. |
| C124 | `clean`: every reserved field of a packet object and of all records and locators in it is zero. Computing authentication data, sorting and sanitising keep reserved bits (a relation carried through `calculate`, `verify`, `insert` and the record loop); every place that makes a message starts with zeros. |
| C125 | `class_from_bytes t` is the `from_bytes` of the class registered for type t; compared with the generic decoder for every byte string, results and exceptions, by cases on the first four bits. |
| C126 | `utext` gives the text of an address or the TypeError; `address_text`/`network_text` read it with the grammar of C113 and equal `as_address`/`ip_network` used everywhere else; injectivity on plain addresses by induction on their depth, cutting the texts at `]`. Open: the floats of positions and the lists of NAT addresses are section parameters; `C126_written_as` says which text it is, against a separate grammar with the literal texts, canonical addresses and canonical decimals; `C126_nat_text_identifies` tells addresses behind NAT apart (a text inside brackets ends where it ends, by induction on its tags); the refutations `C126_list_raises` and `C126_hemispheres` show why the full statement is false of the code. |
| C127 | The checks are a program whose every look at `self.notify` is a step (`content_prog`, shown equal to the atomic `notify_content_ok` when nothing is recorded meanwhile); the main thread and the registration thread move in any order. By an invariant over all histories: the program reads at most two Map-Notifies (the request is off the list before the checks, so only a Map-Notify already being handled can still be recorded), both for the request, and the conditions hold of the one or of the other. Undisturbed runs are runs of the atomic model of C78. `C127_refuted` exhibits the history in which two Map-Notifies that are each refused are accepted together. |
| C128 | As C127: the stored Info-Replies are objects whose private address is assigned after they are stored; `sent_from`, the event and the list are shared. By invariants over all histories: what is returned is a reply that was heard, looked at with its own private address on the wire or with one the request was sent from; the latter for certain if every sending succeeds and none is half recorded at the comparison, which takes two answers to happen. `C128_refuted` is the history in which the Map-Server answers twice that there is no NAT and a NAT is found. |
| C129 | Any number of registration threads, each in any phase of a pass (reset the flag, read `_rtrs`, register, read the old RTRs, store, compare, set the flags one by one), interleaved in any way. Invariant: whenever a flag is not set, what the thread announced (or read) of each registration is what `_rtrs` has, or the thread of that registration is about to compare or to set that flag. From it: between the passes each registration is flagged or has announced exactly the RTRs in use; a flagged one registers in its next pass; and once every NAT detection finds nothing new, one pass each ends it. `C129_refuted`: an exception in `register` loses the flag. |
| C130 | The reads are numbered; an environment gives the value of every automatic address at every read, arbitrarily, which covers every interleaving. By induction over the locators: where each announced locator comes from (an address its interface had at or after the moment it was seen to have one, or an RTR after a socket and the locator were seen with the same number); nothing that is up throughout is left out; when nothing changes it is `get_etr_locators` of C57. `C130_refuted`: an interface that loses its address between the look and the copy is announced as 0.0.0.0. |
| C131 | The socket objects of the system (fresh, bound to an address, bound to whatever port the system chose, closed), `_sock` and `_sock_address` are shared; the main thread is somewhere in `rebind`, any number of threads somewhere in `sendto`/`getsockname`. Invariant: every object but the current one is closed, and the current one is in the state the position of the main thread says. From it: where datagrams leave from and what is reported, for all interleavings; equality, and no exception, if the main thread is not in `rebind` meanwhile. `C131_refuted`: three interleavings (another address reported; sent from another port, after which the socket stays closed; AttributeError). |
| C132 | On the interleaving models of C127 and C128: a rank of the position (attempts left) falls with every sending, and another one that counts only what is possible once the stop event is set; an invariant says when the request is still in the list. The places of a history at which the thread sends are counted, not the steps of the model. A pass is the two histories one after the other. `C132_refuted`: both ways of leaving a request behind, and a stop during NAT detection. |
| C133 | The addresses are a function of time that is constant from T on; the collection of an attempt reads them at arbitrary times after the attempt began (model of C130). C110_often gives an attempt in time, C51 (refinement of the store) says that what is stored is from it or a later one, and the wire theorems (C91, C92) that the stored locators are a permutation of the collected ones. |
| C134 | The loop of etr_node.py:412-459 as a function of arbitrary results of `get_nat_info` and `register` and arbitrary times; invariant over all histories linking `nat_info`, the times and flags to the log of the calls made; C134_as_C60 shows that every log is one of the model of C60. |
| C135 | The path to the Map-Server is any function from addresses to public address and port; an honest Map-Server answers what was sent with what it saw. On top of the exact verdict of C77. |
| C136 | The decoders already recurse on fuel, one unit for each nested call of themselves: any fuel that suffices gives the same result, and 8 bytes need at most one unit. `C136_refuted`: 8028 bytes of hop-by-hop headers, 8001 bytes of nested lists of addresses. |
| C137 | Sizes of what the writers produce (as for C122), the count of locators bounded because it was written in eight bits; `insert_authentication_data` followed through. Refuted for packets taken from the queue: they get eight bytes longer whatever their length. |
| C138 | Registrations: both runs read through C74 (what is registered is what arrived last and was not cleaned up). Map-Notifies and Info messages: C79 and C80 twice, and changing the first element a second time finds the same element. Answers: C123, and induction on the records for the time of arrival. |
| C139 | Induction on the overtakings; one overtaking leaves C74's description of what is in force true (four places the registering event can be at). Answers: C123, event by event. |
| C140 | Induction on how the histories differ: what registers for the sender is in both, at the same place among what concerns it; C74 on both. |
| C141 | A restart is a fresh state and the rest of the history. C74 for both: the registering event is after the restart, or it is before it and excluded by the hypothesis. |
| C142 | Induction on how the histories differ; C74: what outlives the last pass outlives every earlier one. Answers: C123. |
| C143 | The entries of the table are different and each is in force (C74's invariant), so each was asked for by a record of a recent Map-Register; a record asks for one entry only; counting. |
| C144 | C46 (lookups in reordered trees correspond), carried through every handler of the daemon; induction on the history. |
| C145 | By cases which classes of messages are sent; C31: on the wire they keep their type; the handlers of these types send nothing. |
| C146 | C74 says which registration is in force after a history; a record of the message is good exactly if it is good alone, and the last good one of the message is the last good one of the messages. Proved for messages without a record that makes lispd give up on the message (C74); refuted without this proviso. |
| C92 | `to_bytes` of nested packets against an inductive `sendable p n` |
| C81, C82, C88 | messages made by one side, bytes handed to the handler of the other; C82 refuted for IPv6 |
| C85, C86 | fold over files against `last_defines`; accepted settings against the tree lookups |
| C90 | `determine_instance_id_and_afi` against a declarative `eid_named` |
| C91 | `to_bytes` succeeds iff an inductive well-formedness predicate holds |

A property marked *refuted* is false of the code; MANIFEST.json lists it as `partial` with the `_refuted`
theorem (witness) and the theorems of what does hold.  properties.jsonl keeps the full statement.

### 2.1 Findings (statements of users' expectations that the code violates, each with a proved witness)

The notes in MANIFEST.json describe each.  In short: IPv4 total length ignores options (C13); extension headers do not
set next_header (C19); ECM RTR flags are never written (C30); Map-Requests with LCAF EIDs parse but do not
serialise, and LCAF locators are always refused (C32, C38); the sort key mixes families (C36); 33..255 EIDs are refused
(C40); authentication state is left zeroed when serialisation raises (C43), and received messages are re-serialised before the
MAC is checked (C44); containers accept duplicates, replacement and removal do not work (C47, C49, C50, C70); key id 0
disables authentication (C53, C59); DDT answers other than NOT-AUTHORITATIVE raise (C55); locators are matched by number
across families (C57); a locator mismatch in a Map-Notify is only logged (C59); change signals get lost and locator
changes never reach the threads (C60, C61); settings without one family are refused (C66); failed binds are not retried
(C71); one bad record blocks the rest of a Map-Register or Map-Notify (C74, C79); forwarding re-serialises inner packets
(C76); NAT detection raises without a usable socket (C77); unsent registrations count as ok, requests are left behind
(C78); Info-Replies are not authenticated (C80); notifies relayed by an RTR are not accepted (C83); RTRs of removed registrations stay announced (C84);
registrations through an RTR over IPv6 have hop limit 0 and are not sent at all across families or when data packets are not processed (C82); instance ids inside
other LCAFs are lost (C90); control messages cut short are refused, but an Encapsulated Control Message is accepted as soon as
its first four octets are there (C93); nodes added to a running daemon never get sockets (C94); an answer is lost when
another thread withdraws its request at the wrong moment (C96); decimal degrees of geo addresses can come back with sixty
seconds, and negative ones are other positions (C99); of two automatic addresses constructed for an interface without an address
only one is ever updated (C100); the daemon never answers the Map-Requests of map_resolve, answers ddt_query only
with the negative answer, and both tools then wait for ever (C102); importing the Map-Server module opens a socket on vlan2 that nobody reads, and keeps
the daemon's own address for vlan2 from being updated (C104); a DDT root file that delegates only one family in some instance is loaded and then
refused as configuration (C107); a locator whose address was assigned while a node had it cannot be removed any more (C108); a
DDT node added as text is not found or taken away as text (C109); zero bytes at the end of a key do not count (C112); a datagram of some
eight kilobytes can nest deeper than Python's stack allows (C136); a packet of more than 65499 bytes from the queue does not fit into a datagram any more (C137).

## 3. Trusted base

* Coq's kernel (coqc 8.16.1, including its `vm_compute` conversion).
* `Print Assumptions` under every property theorem says "Closed under the global context": no axiom is used.  vcheck
  lists `Coq.ssr.ssrunder.Under_rel.*`; those are declared in a standard library module that gets loaded, and no theorem
  depends on them.
* The reading of the Python code: the model was written by hand from /repo and never run against it.  Each definition cites
  the lines it models.  `Conform.v` checks it against every concrete result the repository records: the unit tests, the examples in
  docstrings, and the captured Map-Registers of `scripts/test`, whose authentication data verifies with the keys given there.  The decisions in 1.2 are part of this reading.
* The specifications `Spec*.v` and the statements in `Prop*.v`.

### 3.1 Modelled

`packet/ip/*` and `packet/ip/ipv6/*`, `packet/lisp/data.py`, all of `packet/lisp/control/*`, `utils/afi.py`, `utils/lcaf/*`,
`utils/checksum.py`, the type registries, `utils/auto_socket.py`, `utils/auto_addresses.py`,
`application/lispd/{message_handler,received_message,send_message,settings,etr_registration}.py`,
`application/lispd/address_tree/*`, `application/lispd/utils/*`, `main()` of `scripts/lispd` (start-up, main loop, signals).

### 3.2 Not modelled

Logging and `repr`; the command line, the IPython shell and the execution of settings files;
which form of dotted network masks and whether leading zeros in IPv4 octets are accepted (arguments of `IpText.v`; the two forms of masks there have been are in `Masks.v`); the operating system (sockets, interfaces, clock, entropy), which is an argument of the
model and quantified over; the scheduler (threads are arbitrary interleavings of steps: of
single statements in `Sched.v`, elsewhere of one message handled, one cleanup pass, one iteration or attempt of a registration thread); the cryptographic strength of HMAC (the theorems hold for every
function with digests of the right length); wrongly typed Python values.
