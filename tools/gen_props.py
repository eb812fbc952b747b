#!/usr/bin/env python3
"""Generates /verif/properties.jsonl (one JSON object per line)."""
import json, sys
P = []
def p(id, title, statement, quantifier, why, anchors):
    P.append(dict(id=id, title=title, statement=statement, quantifier=quantifier,
                  why_tests_cant=why, anchors=anchors))

AFI = "pylisp/utils/afi.py"
LC = "pylisp/utils/lcaf/"
IP = "pylisp/packet/ip/"
CT = "pylisp/packet/lisp/control/"
LD = "pylisp/application/lispd/"
TR = LD + "address_tree/"

# ---------------------------------------------------------------- addresses
p("C01", "AFI addresses survive encode/decode",
  "For every address value the library accepts (no address, IPv4, IPv6, or any LCAF address nested to any depth whose leaves are plain addresses), if get_bitstream_for_afi_address produces bits then read_afi_address_from_bitstream on those bits followed by arbitrary further bits returns an equal address and leaves exactly the further bits unread.",
  "every address tree, every following bit string",
  "LCAF addresses nest without bound and the following bits are arbitrary; tests cover seven literal addresses",
  [AFI+":read_afi_address_from_bitstream", AFI+":get_bitstream_for_afi_address", LC+"base.py:LCAFAddress.from_bytes", LC+"base.py:LCAFAddress.to_bytes"])
p("C02", "AFI prefixes survive encode/decode",
  "For every IPv4 or IPv6 network, plain or inside an LCAF instance/AS/geo address, encoding it and decoding it again with its own prefix length returns an equal prefix and consumes exactly the encoded bits.",
  "every network (address, length), every wrapper, every following bit string",
  "2^32 and 2^128 address spaces times all prefix lengths",
  [AFI, LC+"instance_address.py", LC+"autonomous_system_address.py", LC+"geo_address.py"])
p("C03", "Prefix decoding accepts exactly the aligned prefixes",
  "Decoding an IPv4/IPv6 address with a prefix length n succeeds exactly when n is between 0 and the address width and all address bits after the first n are zero; the result is then the network with that address and length, otherwise ValueError. No address (AFI 0) goes with prefix length 0 only.",
  "every address value and every prefix length",
  "the boundary is different for each of the 2^128 addresses",
  [AFI+":read_afi_address_from_bitstream"])
p("C04", "Address decoding is total and local",
  "On every input bit string and every optional prefix length address decoding terminates with an address or an exception; what it returns depends only on the bits it consumes: appending further bits never changes the address and leaves those bits unread.",
  "every bit string, every prefix length, every extension",
  "includes hostile deeply nested or self-inconsistent LCAF lengths",
  [AFI+":read_afi_address_from_bitstream", LC+"base.py:LCAFAddress.from_bytes", LC+"afi_list_address.py", LC+"nat_traversal_address.py"])
p("C05", "Every decoded address can be re-encoded and decodes to itself",
  "Whatever address is decoded from any bit string, encoding it succeeds, is never longer than what was consumed, and decodes to the same address. It is a well-formed address object; with a prefix length it is a prefix of exactly that length (plain, in an instance, AS or geo address, or a list of such), no address with length 0, a null address or a NAT address.",
  "every bit string accepted by the decoder",
  "accepted inputs include non-canonical ones (trailing LCAF data, set reserved bits)",
  [AFI, LC])
p("C06", "LCAF address extraction returns all leaf addresses in order",
  "get_addresses on an LCAF address returns exactly the non-LCAF addresses at the leaves, left to right, each exactly once, recursively through nested LCAFs; a NAT-traversal address stands for its list of RTR locators.",
  "every LCAF tree",
  "unbounded nesting",
  [LC+"afi_list_address.py:get_addresses", LC+"instance_address.py:get_addresses", LC+"nat_traversal_address.py:get_addresses"])

# ---------------------------------------------------------------- checksums
p("C07", "The checksum is the Internet checksum",
  "ones_complement(message) is the 16-bit one's complement of the one's-complement sum of the message's big-endian 16-bit words (odd messages padded with a zero byte): the sum of all words plus the checksum is congruent to 0 modulo 65535, and it is the value RFC 1071 prescribes.",
  "every byte string of every length",
  "carry propagation depends on the entire content",
  ["pylisp/utils/checksum.py:ones_complement"])
p("C08", "Every emitted IPv4 header carries a correct checksum",
  "Whenever IPv4Packet.to_bytes returns bytes, the one's-complement sum over the emitted header (all IHL*4 bytes) verifies, i.e. recomputing the checksum over it gives 0.",
  "every IPv4 packet that can be serialised, with any options and payload",
  "all header contents",
  [IP+"ipv4.py:IPv4Packet.to_bytes", "pylisp/utils/checksum.py"])
p("C09", "A corrupted IPv4 header is rejected",
  "If IPv4Packet.from_bytes accepts a packet, then changing any single 16-bit word of its header, other than the header-length nibble, to a value that is not congruent to it modulo 65535 (in particular flipping any single bit) makes from_bytes raise.",
  "every accepted packet, every header word, every replacement value",
  "the product of all packets and all corruptions",
  [IP+"ipv4.py:IPv4Packet.from_bytes"])
p("C10", "UDP checksums verify",
  "For every UDP message and address pair, storing calculate_checksum(source, destination) in the message makes verify_checksum(source, destination) true; the computed value is never 0; a stored 0 always verifies; a computation that succeeds does not change the message (for failing ones see C67).",
  "every UDP message and every pair of addresses of one IP version",
  "the all-zero case needs particular payloads",
  [IP+"udp.py:UDPMessage.calculate_checksum", IP+"udp.py:UDPMessage.verify_checksum"])
p("C11", "UDP checksum detects a changed word",
  "If a UDP message with a non-zero checksum verifies, then a message differing from it in exactly one 16-bit word of its serialised ports or payload, changed to a value not congruent modulo 65535, does not verify with the same checksum.",
  "every verified message and every single-word change",
  "infinite input space",
  [IP+"udp.py"])

# ---------------------------------------------------------------- IP
p("C12", "IPv4 packets without options survive a round trip",
  "An IPv4Packet with empty options that to_bytes accepts is returned unchanged by from_bytes (payload not decoded).",
  "all field values and payloads",
  "combinations of all fields",
  [IP+"ipv4.py"])
p("C13", "IPv4 packets with options survive a round trip",
  "An IPv4Packet with non-empty options that to_bytes accepts can be parsed again by from_bytes and yields the same fields, options (zero padded to 4 bytes) and payload.",
  "all packets with options",
  "depends on option and payload lengths",
  [IP+"ipv4.py:IPv4Packet.to_bytes"])
p("C14", "Accepted IPv4 packets are internally consistent",
  "If IPv4Packet.from_bytes accepts bytes then version is 4, IHL >= 5, the total length field equals the number of bytes given and covers the header, the reserved flag is 0, the header checksum is right, the parsed fields equal the wire fields, and DF is not combined with a fragment offset.",
  "every byte string",
  "all malformed inputs",
  [IP+"ipv4.py:IPv4Packet.from_bytes", IP+"ipv4.py:IPv4Packet.sanitize"])
p("C15", "IPv6 packets survive a round trip and follow RFC 2460 layout",
  "An IPv6Packet that to_bytes accepts is returned unchanged by from_bytes (payload not decoded), and every field sits at its RFC 2460 bit position.",
  "all field values and payloads", "combinations of all fields", [IP+"ipv6/base.py"])
p("C16", "IPv6 extension headers survive a round trip up to zero padding",
  "For hop-by-hop, destination-options, routing and fragment headers: parsing the emitted bytes returns the same header, with options/data zero-padded to the 8-octet boundary, and the same payload.",
  "all option lengths and contents",
  "padding depends on length modulo 8", [IP+"ipv6/"])
p("C17", "UDP messages survive a round trip; LISP ports select the payload decoder",
  "A UDP message to_bytes accepts is parsed back with the same ports, checksum and payload; when a port is 4341 the payload is decoded as LISP data, else when a port is 4342 as LISP control, else left as bytes; length fields shorter than 8 or not matching the input are rejected.",
  "all UDP messages, all byte strings", "all lengths", [IP+"udp.py"])
p("C18", "Emitted IP next-header fields match the payload object",
  "When the payload of an IPv4Packet/IPv6Packet is a protocol object, the emitted protocol/next-header byte is that object's protocol number regardless of the attribute set by the caller.",
  "all packets and payload objects", "all payload kinds", [IP+"protocol.py:Protocol.sanitize", IP+"ipv4.py", IP+"ipv6/base.py"])
p("C19", "Extension headers also advertise their payload's protocol",
  "When the payload of an IPv6 extension header is a protocol object the emitted next-header byte is that object's protocol number.",
  "all extension headers and payload objects", "all payload kinds", [IP+"ipv6/hop_by_hop_options_header.py:sanitize"])
p("C20", "Whole packet stacks survive a round trip",
  "For any nesting of IPv4, IPv6, extension headers, UDP, LISP data packets, encapsulated control messages and control messages, anything the parser returns that can be serialised again re-parses to exactly the same object tree. Excepted are IPv4 headers with options (C13) and Map-Requests asking for LCAF EIDs (C32), whose re-serialisation is not the same message.",
  "every byte string accepted by any of the parsers, any nesting depth", "unbounded nesting", [IP, CT+"encapsulated_control_message.py", "pylisp/packet/lisp/data.py"])
p("C21", "Fragment and final-payload inspection",
  "get_final_payload of an IPv6 packet returns the first payload in the chain that is not an extension header (or is a no-next-header) with the next-header value preceding it; is_fragmented is true exactly when a fragment header occurs before that point; for IPv4 exactly when MF is set or the offset is non-zero; ECM.get_udp returns the UDP layer exactly for unfragmented UDP content.",
  "every packet tree", "unbounded header chains", [IP+"ipv6/base.py:get_final_payload", IP+"ipv6/base.py:is_fragmented", CT+"encapsulated_control_message.py:get_udp"])

# ---------------------------------------------------------------- data plane
p("C22", "LISP data headers survive a round trip",
  "A DataPacket that to_bytes accepts and whose payload is bytes not starting with an IP version nibble 4 or 6 is returned by from_bytes with equal attributes (echo-nonce flag cleared when there is no nonce).",
  "all combinations of nonce / map versions / LSBs / instance id", "2^64 header values", ["pylisp/packet/lisp/data.py"])
p("C23", "LISP data header layout and exclusivity",
  "In every emitted data header the N,L,E,V,I bits say which fields are present, N and V are never both set, E is never set without N, nonce/versions/instance-id/LSBs sit at their RFC 6830 positions (LSB list least significant first) and absent fields are zero.",
  "all data packets", "all header values", ["pylisp/packet/lisp/data.py:DataPacket.to_bytes", "pylisp/packet/lisp/data.py:DataPacket.sanitize"])

# ---------------------------------------------------------------- control plane codecs
for (i, n, f, extra) in [
  ("C24", "Map-Request", "map_request.py", "plain (non-LCAF) EID prefixes; single addresses come back as host prefixes"),
  ("C25", "Map-Reply", "map_reply.py", "locators come back sorted, the action is cleared when locators exist, 3-byte nonces come back left-padded with zeroes"),
  ("C26", "Map-Register", "map_register.py", "nonce of 8 bytes"),
  ("C27", "Map-Notify", "map_notify.py", ""),
  ("C28", "Map-Referral", "map_referral.py", "for record prefixes that are networks or networks directly inside an instance LCAF; plain ones come back wrapped in an instance-0 LCAF"),
  ("C29", "Info-Request/Info-Reply", "info_message.py", "")]:
    p(i, n+" messages survive a round trip",
      "Every %s message that to_bytes accepts is parsed back by from_bytes into a message with the same attribute values%s, whatever bytes follow it." % (n, (" (" + extra + ")") if extra else ""),
      "all messages: any number of records/locators the count fields allow, any addresses",
      "unbounded record lists and address contents", [CT+f])
p("C30", "Encapsulated control messages preserve all flags",
  "An EncapsulatedControlMessage that to_bytes accepts is parsed back with the same flags (security, ddt_originated, for_rtr, relayed_by_rtr) and payload.",
  "all messages", "all flag/payload combinations", [CT+"encapsulated_control_message.py"])
p("C31", "Control messages are dispatched on their type nibble",
  "ControlMessage.from_bytes returns a message of the class registered for the first four bits (1 Map-Request, 2 Map-Reply, 3 Map-Register, 4 Map-Notify, 6 Map-Referral, 7 Info, 8 ECM) or raises; with any other type it always raises ValueError; every serialised message starts with its own type.",
  "every byte string", "all inputs", [CT+"base.py", CT+"type_registry.py"])
p("C32", "Everything parsed can be serialised again to a stable form",
  "Any control message obtained from from_bytes can be serialised by to_bytes, and parsing that gives an equal message.",
  "every byte string accepted by the parser", "inputs include non-canonical encodings", [CT])
p("C33", "Control message headers follow the LISP wire layout",
  "Type, flags, counts, nonce, key-id, TTL, mask length, action, map-version sit at the bit positions of RFC 6830/DDT/NAT-traversal drafts in every emitted message, and counts equal the number of encoded items.",
  "all messages", "a symmetric encoder/decoder mistake passes round-trip tests", [CT])
p("C34", "Too many items are refused, never truncated",
  "When a record/locator/authentication/LCAF count or length does not fit its field, serialising raises instead of emitting a wrapped count.",
  "all list lengths", "large lists", [CT, LC+"base.py"])

# ---------------------------------------------------------------- records
p("C35", "Locator sets are emitted sorted and complete",
  "In every emitted Map-Reply/Register/Referral record the locators appear in ascending numeric address order, are exactly the record's locators (none lost, duplicated or altered), and equal-keyed ones keep their order; with pairwise different addresses the emitted bytes do not depend on the order in which the locators were listed.",
  "all locator lists", "all permutations", [CT+"map_reply_record.py:sanitize", CT+"locator_record.py:sort_key"])
p("C36", "IPv4 locators precede IPv6 locators",
  "In every emitted record all IPv4 locators come before all IPv6 locators (as the record documentation demands).",
  "all locator lists", "depends on address values", [CT+"map_reply_record.py:sanitize", CT+"locator_record.py:sort_key"])
p("C37", "Forbidden locators are never emitted or accepted",
  "No emitted or accepted locator is 255.255.255.255, in 224.0.0.0/24, in ff02::/16 or ff12::/16, or not an address; all others are accepted.",
  "all addresses", "2^128 addresses", [CT+"locator_record.py:sanitize"])
p("C38", "LCAF locators are usable",
  "A locator record whose address is an LCAF address containing valid IPv4/IPv6 addresses is accepted.",
  "all LCAF addresses", "all nestings", [CT+"locator_record.py:sanitize"])
p("C39", "Referral records obey the DDT action table",
  "Every emitted or accepted Map-Referral record satisfies the action/incomplete/referral-set/TTL table of the DDT draft, and every record satisfying it (with valid other fields) is accepted.",
  "all records", "all combinations", [CT+"map_referral_record.py:sanitize"])
p("C40", "Map-Requests with up to 255 EID records are accepted",
  "A Map-Request carrying between 1 and 255 valid EID records is accepted (as its error message documents) and other counts are rejected.",
  "all record counts", "boundary", [CT+"map_request.py:sanitize"])

# ---------------------------------------------------------------- authentication
p("C41", "Inserted authentication data verifies",
  "After insert_authentication_data(key) on any serialisable Map-Register, Map-Notify or Info message with a known key id, verify_authentication_data(key) is true, also after sending: from_bytes(to_bytes(m)) verifies with the same key.",
  "all messages and keys", "all contents", [CT+"map_register.py", CT+"map_notify.py", CT+"info_message.py"])
p("C42", "Verification means the MAC matches the message",
  "verify_authentication_data(key) is true exactly when the authentication data equals HMAC (SHA-1 for key id 1, SHA-256 for 2) under key over the serialised message with the authentication field zeroed; hence two verified messages with the same authentication data either serialise identically outside that field or exhibit a MAC collision.",
  "all messages and keys", "all contents", [CT+"map_register.py:verify_authentication_data"])
p("C43", "Computing authentication data leaves the message unchanged",
  "calculate_authentication_data and verify_authentication_data leave the message's attributes as they were (apart from the normalisation every serialisation performs), whether they succeed or raise.",
  "all messages, including unserialisable ones", "exception paths", [CT+"map_register.py:calculate_authentication_data", IP+"udp.py:calculate_checksum"])
p("C44", "Verification uses the bytes that were received",
  "A received message whose authentication data is the correct HMAC of the received bytes (authentication field zeroed) verifies.",
  "all received messages", "senders order locators or set reserved/action bits differently", [CT+"map_register.py:verify_authentication_data"])

# ---------------------------------------------------------------- registries
p("C45", "Type registries never rebind a number",
  "Over any sequence of register_type_class calls: a number once bound stays bound to the first class, re-registering the same class is a no-op, a different class or an invalid number or a foreign class raises and changes nothing.",
  "all call sequences", "histories", [CT+"type_registry.py", LC+"type_registry.py", IP+"protocol_registry.py"])

# ---------------------------------------------------------------- address tree
p("C46", "resolve_path is longest-prefix match",
  "In a tree whose siblings do not overlap and lie inside their parents, resolve_path(address) returns exactly the nodes whose prefix covers the address, most specific first, ending in the node asked; resolve returns the most specific one; the result does not depend on sibling order. The daemon's lookup by instance and family gives nothing when they are not configured and otherwise what their tree gives.",
  "all trees, all addresses, all set iteration orders", "unbounded trees", [TR+"container_node.py:resolve_path", TR+"container_node.py:find_one"])
p("C47", "A container's children never overlap",
  "Over any sequence of add/update/discard/clear calls that start from an empty container, the children lie inside the container's prefix and no two children overlap.",
  "all call sequences", "histories", [TR+"container_node.py:add"])
p("C48", "A node is only authoritative for its own prefix",
  "find_all, find_one, add and resolve raise NotAuthoritativeError exactly when the given prefix is not completely inside the node's prefix (or of the other IP version).",
  "all prefixes", "2^128", [TR+"container_node.py:find_all", TR+"container_node.py:add"])
p("C49", "Adding a node for an existing prefix replaces the old node",
  "After add(child) with the prefix of an existing child, the container holds the new child and not the old one, and lookups return the new child.",
  "all containers", "histories", [TR+"container_node.py:add"])
p("C50", "remove raises KeyError exactly for absent children",
  "remove(child) removes a present child without raising and raises KeyError when it is absent.",
  "all containers and children", "histories", [TR+"container_node.py:remove"])

# ---------------------------------------------------------------- map server
p("C51", "Map-Server registration store refines a keyed store with expiry",
  "Over any interleaving of Map-Register handling and cleanup passes, the store holds for (prefix, source) exactly the record of the last accepted registration for it, provided no later cleanup ran after its deadline (arrival + 180 s); nothing else, and no empty per-prefix entries remain after cleanup.",
  "all histories and interleavings of the handler and the cleanup thread", "schedules", [TR+"map_server_node.py:MapServerNode.handle_map_register_record", TR+"map_server_node.py:MSCleanupThread.run"])
p("C52", "Only in-scope prefixes are registered",
  "Every stored registration is for a prefix equal to, or (only if allow_more_specifics) inside, the Map-Server node's prefix.",
  "all histories", "all prefixes", [TR+"map_server_node.py:handle_map_register_record"])
p("C53", "Only senders knowing the key can register",
  "Every stored registration came from a Map-Register whose authentication data is a MAC under the node's key.",
  "all messages", "adversarial inputs", [TR+"map_server_node.py:handle_map_register_record", CT+"map_register.py:verify_authentication_data"])
p("C54", "Map-Notify reports exactly what was registered",
  "handle_map_register sends a Map-Notify only if requested and at least one record was accepted; it carries the nonce, key id, xTR-ID and site-ID of the register and exactly the accepted records in order, is authenticated with the Map-Server's key and goes to the sender.",
  "all Map-Registers and trees", "all mixes of accepted/rejected records", [LD+"message_handler.py:handle_map_register"])

# ---------------------------------------------------------------- DDT
p("C55", "DDT requests get the answer the tree prescribes",
  "handle_ddt_map_request answers NODE-REFERRAL for a delegated prefix, MS-ACK/MS-NOT-REGISTERED for a Map-Server prefix, DELEGATION-HOLE inside authoritative space without delegation and NOT-AUTHORITATIVE otherwise.",
  "all trees and requests", "all trees", [TR+"ddt_referral_node.py:handle_ddt_map_request"])
p("C56", "Loading the DDT root yields exactly the listed delegations",
  "After add_delegation for each entry of a list without overlapping distinct prefixes, each listed (instance, AFI, prefix) resolves to a referral node holding exactly the addresses listed for it, independent of order.",
  "all delegation lists", "orders and sizes", [LD+"utils/ddt_root_loader.py:add_delegation"])

# ---------------------------------------------------------------- ETR
p("C57", "Announced locators are the configured ones, local ones replaced by RTRs behind NAT",
  "get_etr_locators announces every bound non-local configured locator with its priorities and weights; local locators are announced as they are when there are no RTRs and otherwise all local ones are replaced by the RTRs; unbound locators (address 0) are never announced.",
  "all locator sets, RTR sets and sockets", "all set orders", [TR+"etr_node.py:ETRNode.get_etr_locators"])
p("C58", "Map-Requests to an ETR get a matching Map-Reply",
  "handle_map_request replies once to an ITR-RLOC with the request's nonce and probe bit, the ETR's prefix, authoritative, TTL 1440, the announced locators all marked reachable with the probed bit only on the probed address of a probe, or a natively-forward negative reply without locators.",
  "all requests and locator sets", "all inputs", [TR+"etr_node.py:ETRNode.handle_map_request"])
p("C59", "A Map-Notify is accepted only if it confirms what was registered",
  "notify_content_ok is true only if the notify authenticates under the registration key, has the register's nonce and key id, compatible xTR/site ids, and the same records with the same locators.",
  "all notifies", "adversarial inputs", [TR+"etr_node.py:MapRegister.notify_content_ok"])
p("C60", "Registrations are refreshed in time",
  "Over any run of the registration loop: after a failed registration the next iteration re-detects NAT and asks for a Map-Notify; after a successful one a new registration is sent on the first iteration more than 60 s later or when a change was signalled, not earlier; NAT detection happens on the first iteration more than 15 minutes after the last.",
  "all iteration timings and outcomes", "schedules", [TR+"etr_node.py:MSRThread.run"])
p("C61", "A locator address change triggers re-registration",
  "When a configured locator's address changes, every registration thread of the ETR is told to send a new registration.",
  "all change histories", "asynchronous", [TR+"etr_node.py:on_locator_change", CT+"locator_record.py:_send_notifications"])

# ---------------------------------------------------------------- net plumbing
p("C62", "send_message delivers through at most one socket of the right family",
  "send_message stops at the first socket of the destination's family that sends the complete message, tries destinations and sockets in order, never uses a socket of the wrong family, and reports (None, None) only if every attempt fell short; a destination whose text is no address ends the search with an exception, an address in instance 0 counts as that address.",
  "all destination lists, socket lists and send outcomes", "all failure patterns", [LD+"send_message.py:send_message"])
p("C63", "Auto sockets are bound exactly to the current usable address",
  "Over any sequence of address changes and bind outcomes, after each rebind the socket is open iff the recorded bound address is non-zero, then it equals the current address and that address is not loopback, link-local, multicast or unspecified; the old socket is closed. While there is no socket, sending and receiving do nothing and raise nothing; while there is one they give what the operating system gives, a socket error on receiving being no data.",
  "all histories", "failure injection", ["pylisp/utils/auto_socket.py:AutoUDPSocket.rebind"])
p("C64", "Auto addresses follow the interface and notify exactly on change",
  "update_address selects the first suitable address of the interface (0 if none) and notifies each listener exactly once if and only if the address changed.",
  "all interface states", "histories", ["pylisp/utils/auto_addresses.py:AutoAddress.update_address"])
p("C65", "Message numbers are unique until wrap-around",
  "Message numbers handed out by successive ReceivedMessage constructions are 1,2,...,maxint,1,...: always within 1..maxint and any maxint consecutive ones are pairwise different.",
  "all numbers of messages", "wrap-around after 2^63 messages", [LD+"received_message.py:ReceivedMessage"])
p("C66", "A missing address family gets an empty container",
  "fix_config accepts an INSTANCES setting where an instance lacks an address family and supplies an empty container for it.",
  "all configurations", "all combinations", [LD+"settings.py:Settings.fix_config"])

# ---------------------------------------------------------------- found while modelling
p("C67", "A failed UDP checksum computation leaves the message unchanged",
  "If UDPMessage.calculate_checksum or verify_checksum raises, the message's checksum attribute is what it was before the call.",
  "every UDP message, address pair and cause of failure", "the failure has to happen between two assignments",
  [IP+"udp.py:UDPMessage.calculate_checksum"])
p("C68", "Extension headers announce the next header they were given",
  "The next-header byte an IPv6 extension header emits is exactly the next_header attribute of the object, whatever its payload is.",
  "all extension headers, values and payloads", "all values and payload objects",
  [IP+"ipv6/hop_by_hop_options_header.py", IP+"ipv6/destination_options_header.py", IP+"ipv6/routing_header.py", IP+"ipv6/fragment_header.py"])
p("C69", "Parsing terminates on every input",
  "Every packet parser either returns an object or raises an ordinary exception on every byte string: the nesting of parsers is bounded by the length of the input.",
  "every byte string, every entry point", "infinitely many inputs, unbounded nesting", [IP, CT, "pylisp/packet/lisp/data.py"])

p("C70", "Copying a container gives an equal container",
  "copy() of a container gives a new container of the same class with the same prefix, the same children and, for an AuthContainerNode, the same DDT nodes.",
  "all containers", "all trees and all configurations of DDT nodes",
  ["pylisp/application/lispd/address_tree/container_node.py:ContainerNode.copy", "pylisp/application/lispd/address_tree/authoritative_container_node.py:AuthContainerNode.__init__"])

p("C71", "A socket whose bind failed is bound when binding becomes possible",
  "After every poll of the interface, an AutoUDPSocket listening to an AutoAddress is open and bound to the interface's current address whenever that address is bindable and the operating system accepts the bind.",
  "all histories of interface states and bind outcomes", "failure injection over time",
  ["pylisp/utils/auto_socket.py:AutoUDPSocket.on_address_change", "pylisp/utils/auto_addresses.py:AutoAddress.update_address"])
p("C72", "The xTR-ID identifies the machine",
  "get_xtr_id is made from the first unicast non-zero MAC address of the machine, fits in the 128-bit field, is not 0 and differs for different MAC addresses; it is 0 only when there is no usable MAC address.",
  "all lists of MAC addresses", "all addresses", [LD+"utils/id_generators.py:get_xtr_id"])

# ---------------------------------------------------------------- the daemon as a whole
p("C73", "A datagram gets at most one answer, and an answer always belongs to it",
  "Whatever bytes arrive at the control or data port: the daemon sends at most one message for the datagram; if it sends one, it is a Map-Reply with the nonce and probe bit of the Map-Request, addressed to the Map-Request's ITR-RLOCs, a Map-Notify with the nonce of a Map-Register that wants one, addressed to its source at port 4342, or a Map-Referral with the nonce of the Map-Request inside a DDT-originated ECM, addressed to the source of the datagram; and only Map-Registers change Map-Server state, only Map-Notifies and Info-Replies change outstanding requests, and a datagram that does not parse changes nothing. After any history an ETR node is as its own threads left it.",
  "every datagram, configuration and state", "all byte strings and states",
  ["scripts/lispd:handle_control_message","scripts/lispd:handle_data_message", LD+"message_handler.py:handle_message", LD+"received_message.py:ReceivedMessage"])
p("C74", "What is registered is what authentic Map-Registers put there, end to end",
  "After any history of datagrams at either port, queued packets, cleanup passes and registration threads, the registration a Map-Server node holds for a prefix and source is the one of the last acceptable record for them in a Map-Register the daemon received, unless a cleanup pass came after its expiry; and every acceptable record of a message counts, whatever the other records of that message are.",
  "all histories of all events, all configurations", "unbounded histories, arbitrary bytes",
  ["scripts/lispd", LD+"message_handler.py:handle_map_register", LD+"address_tree/map_server_node.py"])

p("C75", "A control message in a data packet is treated like one at the control port",
  "A LISP control message that arrives in a data packet with instance id 0xffffff, in UDP for port 4342 (from a port other than 4341) inside an IPv4 packet without options or an IPv6 packet, has exactly the effects and answers that the same bytes have when they arrive at the control port from the same sender, whatever the bytes are. Other data packets leave the state as it is, and those of instance 0xffffff are neither answered nor sent on.",
  "all byte strings, both families, all states", "all byte strings and states", ["scripts/lispd:handle_data_message"])
p("C76", "Decapsulated packets are forwarded unchanged",
  "The inner IP packet of a LISP data packet (any instance id but 0xffffff) is sent on, byte for byte as it came, to its own destination address; packets for the control instance are never sent on.",
  "all data packets and inner packets", "all packets", ["scripts/lispd:handle_data_message", "pylisp/packet/lisp/data.py", IP])
p("C87", "Encapsulation adds eight zero bytes and nothing else",
  "A packet taken from the queue is sent to the PETR at port 4341 as eight zero bytes followed by the packet, exactly when a PETR is configured and the packet is a readable IPv4 or IPv6 packet; and a plain IP packet that goes through one daemon's queue and another daemon's data port leaves it byte for byte for its own destination.",
  "all packets and all states of both daemons", "all packets", ["scripts/lispd:nfqueue_callback"])
p("C89", "The LISP accessors of a UDP message give what their names say",
  "get_lisp_message returns the payload exactly when the ports and arguments call for LISP data and it is a data packet, or for LISP control and it is a control message, and raises ValueError otherwise and for mixed ports; get_lisp_data_packet returns only data packets and get_lisp_control_message only control messages.",
  "all UDP messages", "all ports and payloads", [IP+"udp.py:UDPMessage.get_lisp_message,get_lisp_data_packet,get_lisp_control_message"])


p("C77", "NAT detection decides from the last valid answer, within three attempts",
  "Whatever is heard, when, and from whom: an ETR sends its Info-Request at most three times, again only if no Info-Reply from its Map-Server with its nonce was heard; Info-Replies from others or with another nonce have no influence; the verdict is NAT exactly if the last answer shows another address or port than the one the request was sent from (or RTRs are forced), with that address as the private address, and 'no NAT' otherwise; with NAT detection switched off nothing is sent.",
  "all sequences of replies, send failures and stop signals", "unbounded interleavings of the network and the thread",
  [TR+"etr_node.py:MSRThread.get_nat_info", LD+"message_handler.py:handle_info_message"])
p("C78", "A registration counts as ok exactly if its last Map-Notify is acceptable",
  "A Map-Register that wants a Map-Notify is sent at most three times, again only if no Map-Notify from the Map-Server with its nonce was heard, and is ok exactly if the last such Map-Notify passes the checks; one that wants none is sent once. A registration that was never sent is not ok, and no outstanding request is left behind.",
  "all sequences of notifies, send failures and stop signals", "unbounded interleavings of the network and the thread",
  [TR+"etr_node.py:MSRThread.register", TR+"etr_node.py:MapRegister.notify_content_ok"])
p("C90", "An EID is looked up as what it names",
  "The daemon looks an EID up under the instance id, the address family and the one address or prefix it contains, and not at all exactly if it contains none or several, or one that is not an IP address or prefix; the instance id in it is never lost.",
  "all LCAF and plain EIDs", "unbounded nesting of LCAFs", [LD+"message_handler.py:determine_instance_id_and_afi", LC+"__init__.py"])

p("C91", "Exactly the well-formed addresses, records and messages can be sent",
  "to_bytes succeeds exactly for the messages whose fields have the permitted values: counts of 1..32 ITR-RLOCs and EIDs in a Map-Request, at most 255 records and 255 locators, nonces of 8 bytes (3 or 8 in a Map-Reply), key ids 0..2, authentication data of at most 65535 bytes, TTLs, versions, xTR-IDs and Site-IDs in range, permitted locators, rows of the DDT table, and addresses whose numbers and nested LCAF lengths fit their fields; everything else is refused with an exception, never truncated.",
  "all addresses, records and messages", "all field values and nestings", [CT, LC, AFI])

p("C79", "A Map-Notify reaches the Map-Register it answers, and nothing else",
  "A Map-Notify the daemon receives is recorded, at every ETR one of its records is for, with the first outstanding Map-Register of that ETR that went to the address the notify comes from with the same nonce; no other registration, no Map-Server and no ETR state changes, and nothing is sent. Records it cannot look up do not keep it from the ETRs of the other records.",
  "all configurations, outstanding registrations and Map-Notifies", "unbounded trees, lists and message contents",
  [LD+"message_handler.py:handle_map_notify", TR+"etr_node.py:ETRNode.handle_map_notify_record"])
p("C80", "An Info-Reply reaches the Info-Request it answers, and nothing else",
  "An Info-Reply is recorded, at the ETR its EID is for, with the first outstanding Info-Request that went to its source with the same nonce, and gives the address that request was sent from as private address; anything else, and every Info-Request received, changes nothing and is not answered. Only replies with valid authentication data are believed.",
  "all configurations, outstanding requests and Info messages", "unbounded trees, lists and message contents",
  [LD+"message_handler.py:handle_info_message", TR+"etr_node.py:ETRNode.handle_info_message_reply"])
p("C83", "A Map-Notify from another source confirms nothing; one relayed by an RTR is believed",
  "A Map-Notify whose datagram comes from another address than the Map-Server of a registration leaves that registration unconfirmed, whatever it contains; but the Map-Notify of a registration through an RTR, which arrives inside a data packet from that RTR with the Map-Server as inner source, confirms it.",
  "all states and Map-Notifies at the control and data ports", "unbounded states and packet contents",
  [LD+"message_handler.py:handle_map_notify", "scripts/lispd:handle_data_message"])

p("C84", "One running thread per configured registration",
  "After any history of adding and removing registrations, giving and taking sockets and reporting RTRs, exactly the configured registrations of an ETR have a registration thread, each its own, which runs exactly if the node had control-plane sockets at some time since the registration was added; every other thread ever created has been told to stop, and RTRs of removed registrations are no longer announced.",
  "all histories of configuration changes", "unbounded histories",
  [TR+"etr_node.py:ETRNode.add_etr_registration", TR+"etr_node.py:ETRNode.remove_etr_registration", TR+"etr_node.py:ETRNode.set_sockets", TR+"etr_node.py:ETRNode.get_rtrs"])
p("C92", "Exactly the packets whose fields fit can be sent, with the length the protocols prescribe",
  "to_bytes of a packet succeeds exactly if every header in it has the permitted values (field widths, addresses of the family of the header, at most 40 octets of IPv4 options, 2046 of IPv6 options, payload within the 16-bit length fields, the nonce/version/instance-id rules of the LISP data header, no security in an ECM), and the result has exactly the octets of headers, options rounded up to 4 or 8, and payload.",
  "all stacks of headers of any depth", "unbounded nesting and field values",
  ["pylisp/packet/ip", "pylisp/packet/lisp/data.py", CT])

p("C81", "A registration with the right key is stored and confirmed",
  "The Map-Register an ETR makes for a prefix can always be authenticated and sent; a daemon whose Map-Server node is responsible for the prefix, has the same key and accepts the prefix stores the record for 180 seconds under the identity of the sender and answers with exactly one Map-Notify to the sender; the bytes of that Map-Notify, parsed by the ETR, are accepted as confirmation of the registration and recorded with it. A Map-Register that does not ask for a Map-Notify is stored in the same way and nothing is sent back.",
  "all prefixes, locator sets, keys, key ids, nonces, ids, RTRs, configurations, states and clocks; every function with the digest lengths of HMAC", "the whole exchange for unbounded data, with any hash",
  [TR+"etr_node.py:MapRegister", TR+"map_server_node.py:MapServerNode.handle_map_register_record", LD+"message_handler.py:handle_map_register", TR+"etr_node.py:MapRegister.notify_content_ok"])
p("C82", "A Map-Register reaches the Map-Server, behind NAT through the RTR",
  "Without NAT the Map-Register of an ETR is sent over the control-plane sockets to port 4342 of the Map-Server. Behind NAT it is sent over a data-plane socket to the RTRs, as an encapsulated control message around an IP packet from the private address of the ETR to the Map-Server that routers can forward (TTL or hop limit above 0), around UDP port 4342 with a valid checksum, around the Map-Register with its authentication intact, whichever families the addresses have.",
  "all Map-Registers, addresses of both families, RTRs", "all addresses and messages",
  [TR+"etr_node.py:MapRegister.send", IP+"udp.py:UDPMessage.calculate_checksum"])
p("C85", "Settings come from the last configuration file that defines them",
  "After loading, each upper-case setting has the value the last readable configuration file that defines it gives, and its default if none does; names with lower-case letters are never taken over; files that cannot be read are skipped, and any other failure of a file is a configuration error.",
  "all lists of configuration files and their contents", "unbounded files and names", [LD+"settings.py:Settings.apply_config_files"])
p("C86", "In an accepted configuration every address of a configured instance has exactly one responsible node",
  "Once a configuration is accepted, looking up any IPv4 or IPv6 address in a configured instance gives a node: the one with the most specific prefix that contains the address; in other instances there is none; and checking the accepted configuration again accepts it unchanged.",
  "all accepted configurations with tidy trees, all addresses", "unbounded trees and all addresses", [LD+"settings.py:Settings.fix_config", LD+"utils/prefix.py:resolve"])
p("C88", "The queries of map_resolve and ddt_query are well-formed",
  "For every address asked for, the query can be sent; whoever receives it reads an encapsulated control message, with the DDT-originated bit exactly in those of ddt_query, around an IP packet from the unspecified address to the address asked for with TTL 64, around UDP to port 4342 with a checksum that verifies, around a Map-Request for the host prefix with the nonce and the ITR-RLOC given; and a pylisp daemon takes that Map-Request out of it.",
  "all addresses, nonces, ports and source addresses", "all addresses and ports", ["scripts/map_resolve", "scripts/ddt_query", CT+"encapsulated_control_message.py:EncapsulatedControlMessage", LD+"received_message.py:ReceivedMessage"])

p("C93", "Messages are read up to their own end",
  "Every byte string a record's or control message's from_bytes accepts starts with a message that is accepted, with the same result, whatever follows it, and that is refused as soon as its last octet is missing; of a message made by to_bytes no proper prefix is accepted. IPv4, IPv6 and UDP accept a string only if it has the length it says: neither cut short nor with octets added is it accepted. An encapsulated control message around an IP packet inherits this; cut short it is accepted only directly after its own four octets.",
  "all byte strings, all ways to cut or extend them, all message types", "all strings and all cuts",
  [CT+"base.py:ControlMessage.from_bytes", CT+"map_register.py:MapRegisterMessage.from_bytes", CT+"map_reply_record.py:MapReplyRecord.from_bytes", CT+"encapsulated_control_message.py:EncapsulatedControlMessage.from_bytes", IP+"ipv4.py:IPv4Packet.from_bytes", IP+"ipv6/base.py:IPv6Packet.from_bytes", IP+"udp.py:UDPMessage.from_bytes"])
p("C94", "lispd starts with every node able to send, or not at all",
  "lispd refuses to start (exit code 2; 1 for configuration errors) exactly if there is no address to listen on, a proxy ETR is configured for processing data without an NFQUEUE for each family, or an NFQUEUE is configured without the module for it. Otherwise it has a control socket (4342) on every configured address, a data socket (4341) on each exactly if it processes data, and gives the sockets to every node of every configured tree; a node in the trees of a running daemon can always send.",
  "all configurations and trees of any depth, nodes added later", "unbounded trees and configurations",
  ["scripts/lispd", TR+"container_node.py:ContainerNode.set_sockets", TR+"container_node.py:ContainerNode.add", TR+"base.py:AbstractNode.set_sockets"])
p("C95", "The main loop handles everything once, in order, and stops only when told to",
  "Whatever arrives, in whatever order, and whatever fails (parsing, handling, recvfrom, select, updating addresses): every datagram that arrives is handled exactly once, for each socket in order of arrival, or still waits; the state and everything sent are those of handling the events one after the other; the loop stops exactly when it has read a SIGINT or SIGTERM, after serving the rest of what select reported, and then takes nothing more; addresses are updated once per SIGHUP read.",
  "all interleavings of arrivals, signals, rounds and threads, all failures", "unbounded interleavings and failures", ["scripts/lispd"])

p("C96", "An answer reaches the request that waits for it while other threads register",
  "While the main thread looks for the request that a Map-Notify or Info-Reply answers, other registration threads may add and withdraw their own requests at any moment. An answer is never given to a request that does not wait for it and nothing else is touched; the search ends; and a request that waits all the time gets its answer.",
  "all requests, all answers, all interleavings of the search with requests being added and withdrawn", "depends on the schedule of the threads", [LD+"address_tree/etr_node.py", "ETRNode.handle_map_notify_record", "ETRNode.handle_info_message_reply", "MSRThread.register", "MSRThread.get_nat_info"])
p("C97", "Registering and cleaning up at the same time is as good as one after the other",
  "However the steps of registering prefixes at a Map-Server and of the cleanup thread's passes interleave: none of them raises KeyError, at most one of them is inside at a time, whenever nobody is inside the registrations are what the operations make of them one after the other (each thread's in its own order), and no thread is ever locked out for good.",
  "all registrations to start with, all sequences of operations per thread, all schedules, any number of threads", "depends on the schedule of the threads", [LD+"address_tree/map_server_node.py", "MSCleanupThread.run", "MapServerNode.handle_map_register_record"])
p("C98", "A registration is there for 180 seconds and gone half a minute later",
  "An accepted registration that is not replaced is there until 180 seconds after it was accepted. If a pass of the cleanup thread takes at most D and the thread wakes up at most E late, it is gone 30 seconds + 2D + E after that.",
  "all histories of registrations and passes, all delays, all times", "unbounded histories and timings", [LD+"address_tree/map_server_node.py", "MSCleanupThread.run", "MapServerRegistration"])

p("C99", "Geo addresses keep their position in decimal degrees",
  "Reading latitude or longitude of an LCAFGeoAddress gives its position in degrees, up to the precision of a float; assigning a number makes degrees, minutes (0..59) and seconds (0..59) of the position nearest to it, negative numbers meaning south or west; assigning what was read changes nothing, and an address whose position was assigned can be serialised.",
  "all addresses and all floating point numbers", "the numbers are rounded at every step, for all doubles",
  ["pylisp/utils/lcaf/geo_address.py", "LCAFGeoAddress._get_latitude", "LCAFGeoAddress._set_latitude", "LCAFGeoAddress._get_longitude", "LCAFGeoAddress._set_longitude"])
p("C100", "All automatic addresses follow their interfaces",
  "get_ipv4_address and get_ipv6_address give one object per interface and family. After update_addresses() every automatic address in use has the current address of its interface, and the listeners of exactly those that changed have been told once. Automatic addresses that are equal have equal hashes.",
  "all histories of creating, listening, dropping and updating addresses, all states of the interfaces", "depends on which addresses existed without an address at the same time",
  ["pylisp/utils/auto_addresses.py", "update_addresses", "AutoAddress", "get_ipv4_address", "get_ipv6_address"])

p("C101", "An ETR asks its Map-Server about NAT and understands the answer",
  "The Info-Request of an ETR for its prefix can always be authenticated and sent; it goes only to the Map-Server, port 4342; whoever receives it reads the nonce, the prefix, a TTL of 1440 minutes and authentication data that is valid for the key of the registration, and a pylisp daemon neither changes anything nor answers. Any Info-Reply with the nonce and the prefix of the request that arrives from the Map-Server is recorded with the request, and the ETR finds itself behind NAT exactly if the Map-Server saw another address or port than the one used (or RTRs are forced), with the RTRs of the reply.",
  "all prefixes, keys, nonces, configurations, daemon states and contents of the reply", "all messages and states",
  [LD+"address_tree/etr_node.py", "InfoRequest", "MSRThread.get_nat_info", "InfoMessage"])

p("C102", "The query tools get an answer from a pylisp daemon",
  "When ddt_query asks a pylisp daemon that is configured for the address, or map_resolve one that has an ETR for it, the daemon sends exactly one answer, to the address and port the query came from, which the tool reads as a Map-Referral (Map-Reply) with the nonce of the query.",
  "all addresses, nonces, trees and states", "all addresses, configurations and states", ["scripts/ddt_query", "scripts/map_resolve", LD+"message_handler.py:handle_ddt_map_request,handle_enc_map_request"])
p("C103", "map_register registers the prefix",
  "The registration map_register makes can be sent for every prefix; a pylisp Map-Server that is responsible for the prefix and has the same key stores it for 180 seconds under the sender's address with the locator 127.0.0.1 and proxy Map-Replies, and sends nothing back.",
  "all prefixes, keys, nonces, trees and states", "all prefixes, keys and states", ["scripts/map_register", LD+"address_tree/map_server_node.py:MapServerNode.handle_map_register_record"])
p("C104", "The sockets follow the interfaces",
  "At any time every open UDP socket of the daemon is bound to the current value of its address. After SIGHUP a socket made for the address of an interface (get_ipv4_address, get_ipv6_address) is bound to the interface's current address, or closed if it has none. The process has no other open UDP sockets than those main() made and reads.",
  "all histories of imports, address lookups, socket creations and SIGHUPs, all interface states, bind outcomes and string hashes",
  "all histories of interface changes and signals", ["pylisp/utils/auto_socket.py:AutoUDPSocket", "pylisp/utils/auto_addresses.py:update_addresses", LD+"address_tree/map_server_node.py:x", "scripts/lispd:main"])
p("C105", "The text of the DDT root file",
  "Each line of the DDT root file is ignored if it is white space or a comment, and otherwise has four fields (instance, address family number, prefix, address) separated by white space, perhaps with a comment behind them; any other line, or an address that is none, makes loading fail with ValueError. A text is accepted exactly if every line is one of these, every line names address family 0, 1 or 2 and a prefix of that family, and different prefixes delegated in one instance and family do not overlap. A loaded file delegates every listed prefix to exactly the addresses on its lines, and nothing else.",
  "all texts, and all readings of addresses and prefixes by ip_address and ip_network", "all texts", [LD+"utils/ddt_root_loader.py:load_ddt_root", LD+"utils/ddt_root_loader.py:add_delegation"])
p("C106", "A running daemon registers what is configured",
  "Once the daemon has reached its main loop, every registration of an ETR node in the trees (whatever was added and removed before start-up and whatever is added and removed later) has exactly one running registration thread, and no other registration thread runs. Nothing is registered by a daemon that ends before its main loop, nor for nodes that are not in the trees.",
  "all configurations, all histories of adding and removing registrations before and after the start, all trees", "all histories", ["scripts/lispd:main", TR+"etr_node.py:ETRNode", TR+"container_node.py:ContainerNode"])
p("C107", "The DDT root file is a configuration",
  "Setting INSTANCES to what load_ddt_root returns gives settings that are accepted, and then every address of a listed instance and family is delegated to exactly the addresses listed for the prefix it lies in, or belongs to the root that this node is authoritative for. False of the code: this is accepted exactly if every listed instance has delegations for both address families (and its number is an int).",
  "all DDT root files, all other settings, all instances and addresses", "all files", [LD+"utils/ddt_root_loader.py:load_ddt_root", LD+"settings.py:Settings"])
p("C108", "The locators of an ETR node",
  "However locators are added to and removed from an ETR node while the addresses of interfaces change, the node has exactly the locators that were added and not removed since, each once (equal locators are one), and announces exactly those that have an address now, with that address. A locator whose attributes are assigned while it is in the node is outside of this: if its address was assigned, removing it has no effect, for ever.",
  "all histories of additions, removals and interface changes, all locators, all hash functions that tell the names and addresses used apart", "all histories", [TR+"etr_node.py:ETRNode", "pylisp/packet/lisp/control/locator_record.py:LocatorRecord", "pylisp/utils/auto_addresses.py:AutoAddress"])
p("C109", "The DDT nodes of a referral",
  "After any history of add, update, clear, discard and remove a DDT referral node contains each address that was added and not taken away since, once, and no other; add and update accept addresses and texts and raise ValueError for a text that is no address (keeping what was added before); remove raises KeyError exactly if the address is not there; a copy has the same addresses. Texts are converted only when they are added: looking for one never finds it, discarding one does nothing, and removing one always raises KeyError.",
  "all histories of operations, all readings of texts by ip_address", "all histories", [TR+"ddt_referral_node.py:DDTReferralNode", TR+"authoritative_container_node.py:AuthContainerNode"])
p("C110", "An ETR that works stays registered",
  "The registration thread of an ETR attempts a registration at least every 60 s plus the longest time G it is held up, whatever the registrations come to and whatever is signalled, as long as NAT detection does not raise. If of the Map-Registers of every attempt one reaches the Map-Server (same key, prefix in scope) within d, and 60 s + G + d is at most 180 s, then from the first attempt on the prefix is registered all the time, whatever else is registered and whatever the cleanup thread does.",
  "all executions of the thread, all delays within the bounds, all other traffic, all schedules of the cleanup thread", "all schedules and histories of two processes", [TR+"etr_node.py:MSRThread", TR+"map_server_node.py:MapServerNode"])
p("C111", "What a running daemon sends and knows comes from what arrived",
  "Whatever arrives on its sockets and queues, fails, interrupts or is signalled, and in whatever order select() reports it, a running lispd has handled what it took from its sockets, each datagram once and in the order of arrival per socket. For each it sent nothing or the one thing it calls for: the answer to the control message it brings, the inner packet of a data packet to that packet's destination, an outgoing IP packet to the proxy ETR. It sends nothing that nothing called for. The registrations of its Map-Servers are exactly those the handled events leave in force: none that no received Map-Register made, and none lost while no cleanup pass is later than its deadline.",
  "all histories of arrivals, errors, signals, thread actions and select() results, all configurations, all bytes", "all schedules and histories of the whole daemon", ["scripts/lispd:handle_control_message", "scripts/lispd:handle_data_message", LD+"message_handler.py:handle_message", TR+"map_server_node.py:MapServerNode"])
p("C112", "Authentication data is the HMAC of RFC 2104, and what that means for keys",
  "With key ids 1 and 2 the authentication data of a message is accepted exactly if it is the HMAC-SHA-1 or HMAC-SHA-256 over the message as sent with its authentication data zeroed. Two keys are interchangeable (verify, compute and register the same for every message and history) if they have the same RFC 2104 block: zero bytes at the end of a key of up to 64 bytes do not count, and a longer key is as good as its digest. Otherwise, authentication data that verifies for two messages, with whatever keys, means the messages are the same and the keys interchangeable, or exhibits two inputs with the same SHA digest.",
  "all messages, all keys of any length, all histories of registrations", "all keys and messages", [CT+"map_register.py:MapRegisterMessage.calculate_authentication_data", CT+"map_notify.py:MapNotifyMessage.calculate_authentication_data", CT+"info_message.py:InfoMessage.calculate_authentication_data"])
p("C113", "Addresses and networks as text",
  "A text given to the daemon or read from a file is taken for an address exactly if it is an IPv4 address in dotted decimal notation or an IPv6 address in the notation of RFC 4291 (groups, one '::', an IPv4 address at the end), and it then stands for that address and no other; it is taken for a network exactly if it is an address, or an address and a prefix length (in IPv4 also a network mask, or an inverted one) with no host bits set. What the daemon prints for an address or network (for the operating system, for logs) is read back as the same, so different ones are printed differently; it is the one canonical text of the address (dotted decimal without leading zeros; RFC 5952, section 4), whatever text it was read from; the names it gives to xTRs in the Map-Server are different for different xTRs and never the text of an address. A DDT root file written from entries loads as exactly these entries.",
  "all texts, all addresses and networks of both families, all lists of entries", "unboundedly many texts; 2^128 addresses", [LD+"utils/ddt_root_loader.py:load_ddt_root", TR+"map_server_node.py:MapServerNode.handle_map_register_record", LD+"send_message.py:send_message", LD+"address_tree/base.py:AbstractNode"])
p("C114", "lispd serves what its configuration files say",
  "Each setting has the value of the last configuration file that defines it, or its default; by default lispd listens on the addresses its host name resolves to, without their scope. A configuration is accepted exactly if LISTEN_ON lists address objects or texts of addresses, INSTANCES maps integers to containers for the whole address space of both families, PETR is an address or None, NATT a boolean and the queue numbers integers or None; a refused configuration or a configuration file that raises gives exit status 1. An accepted one gives exit status 2 if there is nothing to listen on, an entry of an instance is no node, or queues are missing or cannot be read; otherwise lispd serves port 4342 of exactly the addresses listed, in their order, and with PROCESS_DATA port 4341 of the same addresses and the queues, and every node of every tree has these sockets.",
  "all resolver results, all sequences of configuration files, all values of settings", "unboundedly many combinations of files and values", [LD+"settings.py:Settings", LD+"settings.py:fix_config", LD+"settings.py:default_listen_on", "scripts/lispd:main", "scripts/lispd:create_sockets"])
p("C115", "An accepted configuration can register",
  "Whenever lispd serves with a configuration, the Map-Registers it builds with the configured xTR-ID and site-ID can be sent.",
  "all configurations, keys, prefixes, locators and nonces", "unboundedly many configurations; the defaults work", [LD+"settings.py:fix_config", LD+"address_tree/etr_node.py:MapRegister"])
p("C116", "A replayed Map-Register does not undo a newer registration",
  "Once a source's registration of a prefix has been replaced by that of a later Map-Register, the earlier Map-Register arriving again (delayed, duplicated or replayed by someone without the key) does not bring the old record back.",
  "all histories of Map-Registers and cleanup passes at a Map-Server, all keys and sources", "adversarial schedules: any old message can arrive at any time", [TR+"map_server_node.py:handle_map_register_record", CT+"map_register.py:nonce"])
p("C117", "What a Map-Server has registered was announced by someone who has its key",
  "Whatever a network does that delivers, drops, delays, reorders, repeats and makes up datagrams but cannot make MACs without the key: every registration in a Map-Server node of a running lispd (prefix, record, proxy flag, xTR) is the announcement of an ETR that has the node's key. If one ETR has the key, everything registered is for its prefix with its configured locators, priorities and weights (or an RTR in the place of a local one).",
  "all sequences of datagrams, cleanup passes and schedules, all configurations, keys and announcements, every MAC function", "adversarial networks", [TR+"map_server_node.py:handle_map_register_record", CT+"map_register.py:verify_authentication_data", TR+"etr_node.py:MapRegister"])
p("C118", "An ETR whose registration is confirmed is registered",
  "When the registration with a key of an ETR that asked for a Map-Notify succeeds (register() returns True), a Map-Server node with that key registered exactly this announcement (prefix, locators, proxy flag, xTR), whatever the network did with the datagrams in between short of making MACs without the key; it stays registered until a later message of the same source replaces it or it expires.",
  "all histories of datagrams at the Map-Server, all sequences of attempts and answers at the ETR, all configurations and MAC functions", "adversarial networks, all interleavings", [TR+"etr_node.py:register", TR+"etr_node.py:notify_content_ok", LD+"message_handler.py:handle_map_register"])
p("C119", "A container finds and discards its children by prefix and by object",
  "In a container whose children do not overlap: find_all gives exactly the children that share an address with the prefix asked for; find_exact gives the child with exactly this prefix, `prefix in container` tells whether there is one, and discard(prefix) removes it and no other; `node in container` and discard(node) are about that very object, clear removes all, and a node that was added (inside the container's prefix, apart from the children) is found both ways.",
  "all containers, prefixes of both families and nodes", "unboundedly many trees and prefixes", [TR+"container_node.py:find_exact", TR+"container_node.py:__contains__", TR+"container_node.py:discard", TR+"container_node.py:add", TR+"container_node.py:clear"])
p("C120", "The threads of a node run until they are told to stop",
  "A registration thread of an ETR node and the cleanup thread of a Map-Server node end only after stop() was called (by remove_etr_registration, or because the node was dropped): no exception in a pass ends them, and after each pass and the time of the wait there is another one. Once told to stop, a thread begins no further pass and ends as soon as the one it may be in is over, at once if it waits. When the node is dropped, every thread it ever had has been told to stop, and a pass under way does nothing more with the node.",
  "all histories of passes, exceptions, waits, stop() and dropping the node", "threads, timing, exceptions at any point", [TR+"etr_node.py:MSRThread.run", TR+"map_server_node.py:MSCleanupThread.run", TR+"etr_node.py:__del__"])
p("C121", "Which configuration file counts",
  "lispd looks for settings.py in /etc/lispd, in ../etc/lispd relative to the directory of its executable and in ~/.pylisp/lispd; a setting has the value of the user's file if that defines it, otherwise of the installation's, otherwise of the system's, otherwise its default. get_config_paths(name) gives the same three places for any relative name, and just the file itself for an absolute one.",
  "all names, home directories, installation directories and file contents", "unbounded texts and file systems", [LD+"settings.py:get_config_paths", LD+"settings.py:get_potential_config_files"])
p("C122", "Answers are not an amplifier",
  "Whatever datagram arrives at the control or data port and whatever the state of lispd, the Map-Notify or Map-Referral sent in answer is no longer than that datagram; a Map-Reply has at most 40 octets plus 24 for every locator configured at, and every RTR known to, the ETR node it answers for, however long the Map-Request was.",
  "all configurations, states, datagrams, arrival addresses and clocks", "unbounded messages, nesting and configurations", [LD+"message_handler.py:handle_map_register", LD+"address_tree/ddt_referral_node.py:handle_ddt_map_request", LD+"message_handler.py:handle_map_request", LD+"address_tree/etr_node.py:handle_map_request"])
p("C123", "Map-Servers do not disturb each other, and answers do not depend on past datagrams",
  "What a Map-Server node has registered after any history is the same as if every datagram without a record for that node, and every cleanup pass of other nodes, had not happened, and as if the other nodes had begun with other registrations. What lispd sends in answer to an event depends on the configuration, the event and what the registration threads of the ETR nodes did, and on nothing received before.",
  "all configurations without shared nodes, pairs of states with the same settings, histories and sub-histories", "pairs of unbounded histories", [LD+"message_handler.py:handle_map_register", LD+"message_handler.py:handle_map_request", LD+"message_handler.py:handle_message", LD+"address_tree/map_server_node.py:handle_map_register_record"])
p("C124", "Reserved bits are sent as zero",
  "In every Map-Reply, Map-Referral, Map-Register, Info-Request and encapsulated message that lispd makes, and in the messages of map_resolve, ddt_query and map_register, all reserved bits of the header, of the records and of the locators are zero, whatever was received or configured; in a Map-Notify those of the header are zero and those of every record are the ones of the Map-Register record it confirms. A receiver reads the reserved bits that were sent.",
  "all configurations, states, events, keys, nonces, locator sets", "unbounded inputs, states and record lists", [LD+"message_handler.py:handle_map_register", LD+"address_tree/etr_node.py:handle_map_request", LD+"address_tree/etr_node.py:MapRegister", LD+"address_tree/ddt_referral_node.py:handle_ddt_map_request"])
p("C125", "Every message class decodes exactly the messages of its own type",
  "from_bytes of a control message class gives on every byte string that announces the type of the class (in its first four bits) exactly what ControlMessage.from_bytes gives, exceptions included, and raises ValueError on every other non-empty byte string and bitstring's ReadError on the empty one. ControlMessage.from_bytes only returns messages of the announced type, raises ValueError for unregistered types, and no byte string is a message of two classes. to_bytes of a message, whatever its fields, announces the type of its class.",
  "all byte strings, all message objects", "unbounded inputs", [CT+"base.py:from_bytes", CT+"map_register.py:from_bytes", CT+"map_reply.py:from_bytes", CT+"encapsulated_control_message.py:from_bytes"])
p("C126", "Every address has a text that identifies it",
  "unicode() of an address never raises, different addresses (that differ in more than wrappers for instance 0 and the mask lengths of instances) have different texts, the text is the address in its canonical notation, with [instance], [ASnumber] or [longitude,latitude] in front, or the parts of a NAT address, and it is read by ip_address exactly if the address is an IP address, possibly in instance 0, and gives that address back; likewise for ip_network.",
  "all address objects of all classes, nested to any depth", "unbounded nesting", [AFI, LC+"instance_address.py:LCAFInstanceAddress", LC+"afi_list_address.py:LCAFAFIListAddress", LC+"geo_address.py:LCAFGeoAddress", LC+"autonomous_system_address.py:LCAFAutonomousSystemAddress"])
p("C127", "The Map-Notify that confirms a registration is one Map-Notify",
  "Whatever the main thread and the registration thread do in whatever order: if a Map-Register that asks for a Map-Notify is taken as confirmed, then one Map-Notify from its Map-Server, heard while the registration was running, meets every condition (authentic, nonce, key id, xTR-ID, site-ID, number of records, every registered record repeated in it).",
  "all interleavings, step by step, of the thread that registers with the thread that handles messages, any number of Map-Notifies, any time-outs, any stop request", "a race of a few bytecodes between two threads", [TR+"etr_node.py:notify_content_ok", TR+"etr_node.py:set_notify_if_matches", TR+"etr_node.py:register", TR+"etr_node.py:handle_map_notify_record"])
p("C128", "NAT detection looks at one complete Info-Reply",
  "Whatever the main thread and the registration thread do in whatever order: if a NAT is found, one Info-Reply from the Map-Server with the request's nonce shows another address than one the request was sent from, or another port than 4342 (or RTRs are forced), and the result is that Info-Reply with that address as the private one; 'no NAT' is found only if such a reply shows none, none was recorded when the thread decided, or it was asked to stop.",
  "all interleavings, step by step, of the thread that registers with the thread that handles messages, any number of Info-Replies, any time-outs, any stop request", "a race of a few bytecodes between two threads", [TR+"etr_node.py:set_reply_if_matches", TR+"etr_node.py:get_nat_info", TR+"etr_node.py:handle_info_message_reply"])
p("C129", "No change of the RTRs is missed by the other registrations",
  "However the registration threads of a prefix interleave: when none of them is in the middle of a pass, each of them that has registered has either announced, in its last Map-Register, exactly the RTRs that the NAT detections of all registrations of the prefix have last found, or it will send a new Map-Register in its next pass; and when the NAT detections find nothing new, one more pass of each leaves all of them with the same RTRs announced and none with a reason to register again.",
  "any number of registrations of one prefix, any sequences of NAT detection results, all interleavings of their threads, access by access", "a race of a few bytecodes between threads; the window is narrow and a missed signal shows only at the map-servers", [TR+"etr_node.py:run", TR+"etr_node.py:set_rtrs", TR+"etr_node.py:get_rtrs", TR+"etr_node.py:get_etr_locators", TR+"etr_node.py:_locators_have_changed"])
p("C130", "What is announced while addresses change",
  "While a registration thread collects the locators, the addresses of the interfaces can change at any moment. Every locator that is announced has the priorities and weights of a configured one and an address its interface had during the collection, or is an RTR that replaces one that had the address of a socket; never the unspecified address. A configured locator whose interface has an address throughout is announced, or the RTRs are. If nothing changes, the announcement is that of C57.",
  "all sets of locators, sockets and RTRs, all changes of all addresses at any moment of the collection, also several", "the window is a few bytecodes wide and needs a SIGHUP in it", [TR+"etr_node.py:get_etr_locators", "pylisp/utils/auto_addresses.py:update_addresses", "pylisp/utils/auto_addresses.py:update_address"])
p("C131", "The reported source is where the datagram left from",
  "While the main thread follows a change of address, other threads send. Every datagram that is sent leaves from the port of the socket and an address the socket was given and may be bound to; send_message reports that address; and it raises no exception but those of the operating system.",
  "all histories of address changes and system call outcomes, any number of sending threads, all interleavings", "the windows are a few bytecodes wide; tests send from sockets that are not rebound meanwhile", ["pylisp/utils/auto_socket.py:rebind", "pylisp/utils/auto_socket.py:sendto", "pylisp/utils/auto_socket.py:getsockname", "pylisp/application/lispd/send_message.py:send_message"])
p("C132", "A registration that is cut short stops and leaves nothing behind",
  "A pass of a registration thread sends its Info-Request at most three times and its Map-Register at most three times. Told to stop, it leaves its attempts within a few steps, having sent at most one message more, and announces nothing it knows to be wrong. However the pass ends, none of its requests is left in the lists of outstanding requests.",
  "all interleavings, step by step, of a registration thread with the thread that handles messages, any number of answers, any time-outs, a stop request at any moment, any exception of the operating system", "stop requests and errors at every moment of a pass; what is left behind shows only as memory and time", [TR+"etr_node.py:get_nat_info", TR+"etr_node.py:register", TR+"etr_node.py:run", TR+"etr_node.py:stop"])
p("C133", "A change of address reaches the Map-Server",
  "When the addresses of the interfaces stop changing, an attempt to register begins within 60 s plus the longest time G the thread is held up, and what every attempt from then on announces are the current addresses (or RTRs in their place), all of them and no other. If the Map-Registers arrive within d and not later, the Map-Server has exactly the current addresses registered from 60 s + G + 2 d after the last change on, as long as the ETR works.",
  "all changes of all addresses at any time, reads of the addresses at any moment of an attempt, all delays within the bounds, all executions of the thread, all other traffic at the Map-Server, all schedules of its cleanup thread", "an address changes during, before and after attempts, messages with old addresses are on their way; a test has one change and one registration", [TR+"etr_node.py:get_etr_locators", TR+"etr_node.py:run", "pylisp/utils/auto_addresses.py:AutoAddress", TR+"map_server_node.py:handle_map_register_record"])
p("C134", "A registration uses a NAT detection that is not old",
  "Every registration uses the result of the last NAT detection that came to a result. If a Map-Notify is forced, that detection was made in the same pass of the thread; otherwise it is at most 15 minutes old and every registration that returned since then was successful. What get_rtrs has recorded for the registration are the RTRs of the last registration that returned. If they are not those of the one before, the next pass registers again (unless NAT detection fails there); if they are the same, it does nothing unless a minute has passed or something changed.",
  "all results and exceptions of get_nat_info and register in every pass, all times between passes, all changes signalled by others at any moment, all histories", "the loop carries two times, two flags, the last NAT information and the recorded RTRs from pass to pass, and an exception leaves some of them as they were", [TR+"etr_node.py:run", TR+"etr_node.py:set_rtrs", TR+"etr_node.py:get_nat_info", TR+"etr_node.py:register"])
p("C135", "NAT is found exactly if there is one",
  "When a Map-Server answers Info-Requests with the source address and port it has seen, an ETR whose requests all leave from one address and are answered finds NAT exactly if the path translates that address or the port 4342, and then knows the translated address and port and its own address; without an answer it assumes no NAT.",
  "all translations of addresses and ports, all histories of requests, lost and late answers and messages from others", "which answer belongs to which request depends on losses and delays, and a test has one translation", [TR+"etr_node.py:get_nat_info", TR+"etr_node.py:set_reply_if_matches", TR+"etr_node.py:InfoRequest"])
p("C136", "No datagram exhausts the interpreter's stack",
  "Decoding an address or a packet never needs more nested calls of the decoder than Python allows, whatever a datagram contains; and if there is room for them, the result does not depend on how much room there is.",
  "all byte strings a datagram can carry, as addresses and as packets of every kind", "what nests most deeply is not what a test sends; the bound is about every content of a given size", [AFI+":read_afi_address_from_bitstream", LC+"base.py:from_bytes", LC+"afi_list_address.py:_from_data_bytes", IP+"ipv6/hop_by_hop_options_header.py:from_bytes", IP+"ipv6/base.py:from_bytes", CT+"encapsulated_control_message.py:from_bytes"])
p("C137", "Everything lispd sends fits into a datagram",
  "What lispd hands to a UDP socket is never longer than the 65507 octets a datagram over IPv4 can carry: answers, Map-Registers with any number of locators and RTRs, directly or through an RTR, Info-Requests, and packets it encapsulates.",
  "all configurations, states, received datagrams, locators, keys and packets from the queue", "the longest message depends on configuration and input together, and a message that is too long only fails in the socket", [LD+"send_message.py:send_message", TR+"etr_node.py:MapRegister", TR+"etr_node.py:InfoRequest", LD+"message_handler.py:handle_message", "scripts/lispd:nfqueue_callback"])
p("C138", "A datagram that arrives twice counts once",
  "UDP may deliver a datagram twice. When a Map-Register arrives a second time (at once, or after other things that do not concern the registration), every registration is what it was before the second arrival, in force for as long or longer; a second Map-Notify or Info message changes nothing and is not answered; any datagram gets the same answer the second time.",
  "all configurations, histories, datagrams on both ports and things happening in between", "a test sends each datagram once", [LD+"message_handler.py:handle_message", LD+"address_tree/map_server_node.py:MapServerNode.handle_map_register_record", TR+"etr_node.py:MapRegister", TR+"etr_node.py:InfoRequest"])
p("C139", "The order in which datagrams of different senders arrive does not matter",
  "If datagrams overtake each other on the way, in any number, but never a Map-Register one of the same sender (the xTR if it gives its id, otherwise the address), then the same prefixes are registered with the same records until the same time, and every datagram gets the answer it would have got.",
  "all configurations, histories, datagrams and reorderings", "the number of orders grows with the factorial of the number of datagrams", [LD+"message_handler.py:handle_message", LD+"message_handler.py:handle_map_register", LD+"address_tree/map_server_node.py:MapServerNode.handle_map_register_record", LD+"address_tree/map_server_node.py:MSCleanupThread.run"])
p("C140", "A sender's registrations are touched by its own Map-Registers only",
  "If datagrams are lost, or any others arrive in addition, none of them a Map-Register in the name of a sender (its xTR-ID and site-ID, or its address if it gives no xTR-ID), then this sender's registrations at every node are exactly the same. In particular nobody can remove, replace, prolong or add a registration of a sender without claiming to be that sender, not even with the key.",
  "all configurations, histories and sets of datagrams lost and added", "an interfering datagram can be anything at any moment", [LD+"message_handler.py:handle_message", LD+"message_handler.py:handle_map_register", LD+"address_tree/map_server_node.py:MapServerNode.handle_map_register_record", LD+"address_tree/map_server_node.py:MSCleanupThread.run"])
p("C141", "A Map-Server that was restarted recovers",
  "lispd keeps registrations in memory. After a restart a registration is missing until the sender registers again; from then on it is what it would be without the restart; and after the first cleanup pass more than 180 seconds after the last datagram before the restart, everything registered at that node is.",
  "all configurations and all histories before and after the restart", "the two histories, with and without restart, have to be compared for every continuation", [LD+"address_tree/map_server_node.py:MapServerNode.__init__", LD+"address_tree/map_server_node.py:MapServerNode.handle_map_register_record", LD+"address_tree/map_server_node.py:MSCleanupThread.run", LD+"message_handler.py:handle_map_register"])
p("C142", "How often the cleanup threads run does not matter in the end",
  "After a pass of a Map-Server's cleanup thread at time t, what is registered there does not depend on which other passes (of any thread, for times up to t) were made before; and no pass changes any answer.",
  "all configurations, histories and sets of passes left out and added", "the passes are made by a thread, at moments nobody chooses", [LD+"address_tree/map_server_node.py:MSCleanupThread.run", LD+"address_tree/map_server_node.py:MapServerNode.handle_map_register_record", LD+"message_handler.py:handle_message"])
p("C143", "A Map-Server holds no more than it was asked to hold in the last three minutes",
  "After a cleanup pass for time t a Map-Server node holds at most as many registrations as there were records in the Map-Registers handled since 180 seconds before t, whatever was received before; without any it holds nothing. At no time does an empty table stay behind for a prefix.",
  "all configurations and histories", "growth shows only in long runs, and only if the input is varied enough", [LD+"address_tree/map_server_node.py:MSCleanupThread.run", LD+"address_tree/map_server_node.py:MapServerNode.handle_map_register_record"])
p("C144", "The order of the nodes in the configuration does not matter",
  "Children of containers are kept in sets, whose order is nobody's. Two daemons whose configurations contain the same nodes in another order, at any depth, started in the same state, send the same messages and are in the same state after every history.",
  "all configurations, reorderings, states and histories", "the order of a Python set depends on addresses in memory", [LD+"address_tree/container_node.py:ContainerNode.resolve_path", LD+"message_handler.py:handle_message", LD+"address_tree/ddt_referral_node.py:handle_ddt_map_request", LD+"message_handler.py:handle_map_register"])
p("C145", "An answer is not answered",
  "Whatever message a datagram makes lispd send, when its octets arrive at the control port of any lispd, this one or another with any configuration and state, nothing is sent and no registration and no ETR node changes. So two daemons never keep each other busy: a datagram sets off one message, and that is the end.",
  "all configurations, states, datagrams and addresses of arrival", "a message loop needs two daemons and the right message", [LD+"message_handler.py:handle_message", LD+"message_handler.py:handle_map_reply", LD+"message_handler.py:handle_map_notify", LD+"message_handler.py:handle_map_referral"])
p("C146", "How records are grouped into Map-Registers does not matter",
  "Whether an ETR sends its records in one Map-Register or each in a Map-Register of its own, with the same identification, proxy bit and key and arriving from the same address at the same times, anywhere in the history of a lispd, every Map-Server node ends with the same registrations.",
  "all configurations in which a node id names one node, histories before and after, Map-Registers, keys, times, prefixes and senders", "the ways to split a message and the histories around it are unbounded", [LD+"message_handler.py:handle_map_register", LD+"address_tree/map_server_node.py:MapServerNode.handle_map_register_record"])
if __name__ == "__main__":
    with open(sys.argv[1] if len(sys.argv) > 1 else "/verif/properties.jsonl", "w") as f:
        for q in P:
            f.write(json.dumps(q) + "\n")
    print(len(P))
