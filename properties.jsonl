{"id": "C01", "title": "AFI addresses survive encode/decode", "statement": "For every address value the library accepts (no address, IPv4, IPv6, or any LCAF address nested to any depth whose leaves are plain addresses), if get_bitstream_for_afi_address produces bits then read_afi_address_from_bitstream on those bits followed by arbitrary further bits returns an equal address and leaves exactly the further bits unread.", "quantifier": "every address tree, every following bit string", "why_tests_cant": "LCAF addresses nest without bound and the following bits are arbitrary; tests cover seven literal addresses", "anchors": ["pylisp/utils/afi.py:read_afi_address_from_bitstream", "pylisp/utils/afi.py:get_bitstream_for_afi_address", "pylisp/utils/lcaf/base.py:LCAFAddress.from_bytes", "pylisp/utils/lcaf/base.py:LCAFAddress.to_bytes"]}
{"id": "C02", "title": "AFI prefixes survive encode/decode", "statement": "For every IPv4 or IPv6 network, plain or inside an LCAF instance/AS/geo address, encoding it and decoding it again with its own prefix length returns an equal prefix and consumes exactly the encoded bits.", "quantifier": "every network (address, length), every wrapper, every following bit string", "why_tests_cant": "2^32 and 2^128 address spaces times all prefix lengths", "anchors": ["pylisp/utils/afi.py", "pylisp/utils/lcaf/instance_address.py", "pylisp/utils/lcaf/autonomous_system_address.py", "pylisp/utils/lcaf/geo_address.py"]}
{"id": "C03", "title": "Prefix decoding accepts exactly the aligned prefixes", "statement": "Decoding an IPv4/IPv6 address with a prefix length n succeeds exactly when n is between 0 and the address width and all address bits after the first n are zero; the result is then the network with that address and length, otherwise ValueError. No address (AFI 0) goes with prefix length 0 only.", "quantifier": "every address value and every prefix length", "why_tests_cant": "the boundary is different for each of the 2^128 addresses", "anchors": ["pylisp/utils/afi.py:read_afi_address_from_bitstream"]}
{"id": "C04", "title": "Address decoding is total and local", "statement": "On every input bit string and every optional prefix length address decoding terminates with an address or an exception; what it returns depends only on the bits it consumes: appending further bits never changes the address and leaves those bits unread.", "quantifier": "every bit string, every prefix length, every extension", "why_tests_cant": "includes hostile deeply nested or self-inconsistent LCAF lengths", "anchors": ["pylisp/utils/afi.py:read_afi_address_from_bitstream", "pylisp/utils/lcaf/base.py:LCAFAddress.from_bytes", "pylisp/utils/lcaf/afi_list_address.py", "pylisp/utils/lcaf/nat_traversal_address.py"]}
{"id": "C05", "title": "Every decoded address can be re-encoded and decodes to itself", "statement": "Whatever address is decoded from any bit string, encoding it succeeds, is never longer than what was consumed, and decodes to the same address. It is a well-formed address object; with a prefix length it is a prefix of exactly that length (plain, in an instance, AS or geo address, or a list of such), no address with length 0, a null address or a NAT address.", "quantifier": "every bit string accepted by the decoder", "why_tests_cant": "accepted inputs include non-canonical ones (trailing LCAF data, set reserved bits)", "anchors": ["pylisp/utils/afi.py", "pylisp/utils/lcaf/"]}
{"id": "C06", "title": "LCAF address extraction returns all leaf addresses in order", "statement": "get_addresses on an LCAF address returns exactly the non-LCAF addresses at the leaves, left to right, each exactly once, recursively through nested LCAFs; a NAT-traversal address stands for its list of RTR locators.", "quantifier": "every LCAF tree", "why_tests_cant": "unbounded nesting", "anchors": ["pylisp/utils/lcaf/afi_list_address.py:get_addresses", "pylisp/utils/lcaf/instance_address.py:get_addresses", "pylisp/utils/lcaf/nat_traversal_address.py:get_addresses"]}
{"id": "C07", "title": "The checksum is the Internet checksum", "statement": "ones_complement(message) is the 16-bit one's complement of the one's-complement sum of the message's big-endian 16-bit words (odd messages padded with a zero byte): the sum of all words plus the checksum is congruent to 0 modulo 65535, and it is the value RFC 1071 prescribes.", "quantifier": "every byte string of every length", "why_tests_cant": "carry propagation depends on the entire content", "anchors": ["pylisp/utils/checksum.py:ones_complement"]}
{"id": "C08", "title": "Every emitted IPv4 header carries a correct checksum", "statement": "Whenever IPv4Packet.to_bytes returns bytes, the one's-complement sum over the emitted header (all IHL*4 bytes) verifies, i.e. recomputing the checksum over it gives 0.", "quantifier": "every IPv4 packet that can be serialised, with any options and payload", "why_tests_cant": "all header contents", "anchors": ["pylisp/packet/ip/ipv4.py:IPv4Packet.to_bytes", "pylisp/utils/checksum.py"]}
{"id": "C09", "title": "A corrupted IPv4 header is rejected", "statement": "If IPv4Packet.from_bytes accepts a packet, then changing any single 16-bit word of its header, other than the header-length nibble, to a value that is not congruent to it modulo 65535 (in particular flipping any single bit) makes from_bytes raise.", "quantifier": "every accepted packet, every header word, every replacement value", "why_tests_cant": "the product of all packets and all corruptions", "anchors": ["pylisp/packet/ip/ipv4.py:IPv4Packet.from_bytes"]}
{"id": "C10", "title": "UDP checksums verify", "statement": "For every UDP message and address pair, storing calculate_checksum(source, destination) in the message makes verify_checksum(source, destination) true; the computed value is never 0; a stored 0 always verifies; a computation that succeeds does not change the message (for failing ones see C67).", "quantifier": "every UDP message and every pair of addresses of one IP version", "why_tests_cant": "the all-zero case needs particular payloads", "anchors": ["pylisp/packet/ip/udp.py:UDPMessage.calculate_checksum", "pylisp/packet/ip/udp.py:UDPMessage.verify_checksum"]}
{"id": "C11", "title": "UDP checksum detects a changed word", "statement": "If a UDP message with a non-zero checksum verifies, then a message differing from it in exactly one 16-bit word of its serialised ports or payload, changed to a value not congruent modulo 65535, does not verify with the same checksum.", "quantifier": "every verified message and every single-word change", "why_tests_cant": "infinite input space", "anchors": ["pylisp/packet/ip/udp.py"]}
{"id": "C12", "title": "IPv4 packets without options survive a round trip", "statement": "An IPv4Packet with empty options that to_bytes accepts is returned unchanged by from_bytes (payload not decoded).", "quantifier": "all field values and payloads", "why_tests_cant": "combinations of all fields", "anchors": ["pylisp/packet/ip/ipv4.py"]}
{"id": "C13", "title": "IPv4 packets with options survive a round trip", "statement": "An IPv4Packet with non-empty options that to_bytes accepts can be parsed again by from_bytes and yields the same fields, options (zero padded to 4 bytes) and payload.", "quantifier": "all packets with options", "why_tests_cant": "depends on option and payload lengths", "anchors": ["pylisp/packet/ip/ipv4.py:IPv4Packet.to_bytes"]}
{"id": "C14", "title": "Accepted IPv4 packets are internally consistent", "statement": "If IPv4Packet.from_bytes accepts bytes then version is 4, IHL >= 5, the total length field equals the number of bytes given and covers the header, the reserved flag is 0, the header checksum is right, the parsed fields equal the wire fields, and DF is not combined with a fragment offset.", "quantifier": "every byte string", "why_tests_cant": "all malformed inputs", "anchors": ["pylisp/packet/ip/ipv4.py:IPv4Packet.from_bytes", "pylisp/packet/ip/ipv4.py:IPv4Packet.sanitize"]}
{"id": "C15", "title": "IPv6 packets survive a round trip and follow RFC 2460 layout", "statement": "An IPv6Packet that to_bytes accepts is returned unchanged by from_bytes (payload not decoded), and every field sits at its RFC 2460 bit position.", "quantifier": "all field values and payloads", "why_tests_cant": "combinations of all fields", "anchors": ["pylisp/packet/ip/ipv6/base.py"]}
{"id": "C16", "title": "IPv6 extension headers survive a round trip up to zero padding", "statement": "For hop-by-hop, destination-options, routing and fragment headers: parsing the emitted bytes returns the same header, with options/data zero-padded to the 8-octet boundary, and the same payload.", "quantifier": "all option lengths and contents", "why_tests_cant": "padding depends on length modulo 8", "anchors": ["pylisp/packet/ip/ipv6/"]}
{"id": "C17", "title": "UDP messages survive a round trip; LISP ports select the payload decoder", "statement": "A UDP message to_bytes accepts is parsed back with the same ports, checksum and payload; when a port is 4341 the payload is decoded as LISP data, else when a port is 4342 as LISP control, else left as bytes; length fields shorter than 8 or not matching the input are rejected.", "quantifier": "all UDP messages, all byte strings", "why_tests_cant": "all lengths", "anchors": ["pylisp/packet/ip/udp.py"]}
{"id": "C18", "title": "Emitted IP next-header fields match the payload object", "statement": "When the payload of an IPv4Packet/IPv6Packet is a protocol object, the emitted protocol/next-header byte is that object's protocol number regardless of the attribute set by the caller.", "quantifier": "all packets and payload objects", "why_tests_cant": "all payload kinds", "anchors": ["pylisp/packet/ip/protocol.py:Protocol.sanitize", "pylisp/packet/ip/ipv4.py", "pylisp/packet/ip/ipv6/base.py"]}
{"id": "C19", "title": "Extension headers also advertise their payload's protocol", "statement": "When the payload of an IPv6 extension header is a protocol object the emitted next-header byte is that object's protocol number.", "quantifier": "all extension headers and payload objects", "why_tests_cant": "all payload kinds", "anchors": ["pylisp/packet/ip/ipv6/hop_by_hop_options_header.py:sanitize"]}
{"id": "C20", "title": "Whole packet stacks survive a round trip", "statement": "For any nesting of IPv4, IPv6, extension headers, UDP, LISP data packets, encapsulated control messages and control messages, anything the parser returns that can be serialised again re-parses to exactly the same object tree. Excepted are IPv4 headers with options (C13) and Map-Requests asking for LCAF EIDs (C32), whose re-serialisation is not the same message.", "quantifier": "every byte string accepted by any of the parsers, any nesting depth", "why_tests_cant": "unbounded nesting", "anchors": ["pylisp/packet/ip/", "pylisp/packet/lisp/control/encapsulated_control_message.py", "pylisp/packet/lisp/data.py"]}
{"id": "C21", "title": "Fragment and final-payload inspection", "statement": "get_final_payload of an IPv6 packet returns the first payload in the chain that is not an extension header (or is a no-next-header) with the next-header value preceding it; is_fragmented is true exactly when a fragment header occurs before that point; for IPv4 exactly when MF is set or the offset is non-zero; ECM.get_udp returns the UDP layer exactly for unfragmented UDP content.", "quantifier": "every packet tree", "why_tests_cant": "unbounded header chains", "anchors": ["pylisp/packet/ip/ipv6/base.py:get_final_payload", "pylisp/packet/ip/ipv6/base.py:is_fragmented", "pylisp/packet/lisp/control/encapsulated_control_message.py:get_udp"]}
{"id": "C22", "title": "LISP data headers survive a round trip", "statement": "A DataPacket that to_bytes accepts and whose payload is bytes not starting with an IP version nibble 4 or 6 is returned by from_bytes with equal attributes (echo-nonce flag cleared when there is no nonce).", "quantifier": "all combinations of nonce / map versions / LSBs / instance id", "why_tests_cant": "2^64 header values", "anchors": ["pylisp/packet/lisp/data.py"]}
{"id": "C23", "title": "LISP data header layout and exclusivity", "statement": "In every emitted data header the N,L,E,V,I bits say which fields are present, N and V are never both set, E is never set without N, nonce/versions/instance-id/LSBs sit at their RFC 6830 positions (LSB list least significant first) and absent fields are zero.", "quantifier": "all data packets", "why_tests_cant": "all header values", "anchors": ["pylisp/packet/lisp/data.py:DataPacket.to_bytes", "pylisp/packet/lisp/data.py:DataPacket.sanitize"]}
{"id": "C24", "title": "Map-Request messages survive a round trip", "statement": "Every Map-Request message that to_bytes accepts is parsed back by from_bytes into a message with the same attribute values (plain (non-LCAF) EID prefixes; single addresses come back as host prefixes), whatever bytes follow it.", "quantifier": "all messages: any number of records/locators the count fields allow, any addresses", "why_tests_cant": "unbounded record lists and address contents", "anchors": ["pylisp/packet/lisp/control/map_request.py"]}
{"id": "C25", "title": "Map-Reply messages survive a round trip", "statement": "Every Map-Reply message that to_bytes accepts is parsed back by from_bytes into a message with the same attribute values (locators come back sorted, the action is cleared when locators exist, 3-byte nonces come back left-padded with zeroes), whatever bytes follow it.", "quantifier": "all messages: any number of records/locators the count fields allow, any addresses", "why_tests_cant": "unbounded record lists and address contents", "anchors": ["pylisp/packet/lisp/control/map_reply.py"]}
{"id": "C26", "title": "Map-Register messages survive a round trip", "statement": "Every Map-Register message that to_bytes accepts is parsed back by from_bytes into a message with the same attribute values (nonce of 8 bytes), whatever bytes follow it.", "quantifier": "all messages: any number of records/locators the count fields allow, any addresses", "why_tests_cant": "unbounded record lists and address contents", "anchors": ["pylisp/packet/lisp/control/map_register.py"]}
{"id": "C27", "title": "Map-Notify messages survive a round trip", "statement": "Every Map-Notify message that to_bytes accepts is parsed back by from_bytes into a message with the same attribute values, whatever bytes follow it.", "quantifier": "all messages: any number of records/locators the count fields allow, any addresses", "why_tests_cant": "unbounded record lists and address contents", "anchors": ["pylisp/packet/lisp/control/map_notify.py"]}
{"id": "C28", "title": "Map-Referral messages survive a round trip", "statement": "Every Map-Referral message that to_bytes accepts is parsed back by from_bytes into a message with the same attribute values (for record prefixes that are networks or networks directly inside an instance LCAF; plain ones come back wrapped in an instance-0 LCAF), whatever bytes follow it.", "quantifier": "all messages: any number of records/locators the count fields allow, any addresses", "why_tests_cant": "unbounded record lists and address contents", "anchors": ["pylisp/packet/lisp/control/map_referral.py"]}
{"id": "C29", "title": "Info-Request/Info-Reply messages survive a round trip", "statement": "Every Info-Request/Info-Reply message that to_bytes accepts is parsed back by from_bytes into a message with the same attribute values, whatever bytes follow it.", "quantifier": "all messages: any number of records/locators the count fields allow, any addresses", "why_tests_cant": "unbounded record lists and address contents", "anchors": ["pylisp/packet/lisp/control/info_message.py"]}
{"id": "C30", "title": "Encapsulated control messages preserve all flags", "statement": "An EncapsulatedControlMessage that to_bytes accepts is parsed back with the same flags (security, ddt_originated, for_rtr, relayed_by_rtr) and payload.", "quantifier": "all messages", "why_tests_cant": "all flag/payload combinations", "anchors": ["pylisp/packet/lisp/control/encapsulated_control_message.py"]}
{"id": "C31", "title": "Control messages are dispatched on their type nibble", "statement": "ControlMessage.from_bytes returns a message of the class registered for the first four bits (1 Map-Request, 2 Map-Reply, 3 Map-Register, 4 Map-Notify, 6 Map-Referral, 7 Info, 8 ECM) or raises; with any other type it always raises ValueError; every serialised message starts with its own type.", "quantifier": "every byte string", "why_tests_cant": "all inputs", "anchors": ["pylisp/packet/lisp/control/base.py", "pylisp/packet/lisp/control/type_registry.py"]}
{"id": "C32", "title": "Everything parsed can be serialised again to a stable form", "statement": "Any control message obtained from from_bytes can be serialised by to_bytes, and parsing that gives an equal message.", "quantifier": "every byte string accepted by the parser", "why_tests_cant": "inputs include non-canonical encodings", "anchors": ["pylisp/packet/lisp/control/"]}
{"id": "C33", "title": "Control message headers follow the LISP wire layout", "statement": "Type, flags, counts, nonce, key-id, TTL, mask length, action, map-version sit at the bit positions of RFC 6830/DDT/NAT-traversal drafts in every emitted message, and counts equal the number of encoded items.", "quantifier": "all messages", "why_tests_cant": "a symmetric encoder/decoder mistake passes round-trip tests", "anchors": ["pylisp/packet/lisp/control/"]}
{"id": "C34", "title": "Too many items are refused, never truncated", "statement": "When a record/locator/authentication/LCAF count or length does not fit its field, serialising raises instead of emitting a wrapped count.", "quantifier": "all list lengths", "why_tests_cant": "large lists", "anchors": ["pylisp/packet/lisp/control/", "pylisp/utils/lcaf/base.py"]}
{"id": "C35", "title": "Locator sets are emitted sorted and complete", "statement": "In every emitted Map-Reply/Register/Referral record the locators appear in ascending numeric address order, are exactly the record's locators (none lost, duplicated or altered), and equal-keyed ones keep their order; with pairwise different addresses the emitted bytes do not depend on the order in which the locators were listed.", "quantifier": "all locator lists", "why_tests_cant": "all permutations", "anchors": ["pylisp/packet/lisp/control/map_reply_record.py:sanitize", "pylisp/packet/lisp/control/locator_record.py:sort_key"]}
{"id": "C36", "title": "IPv4 locators precede IPv6 locators", "statement": "In every emitted record all IPv4 locators come before all IPv6 locators (as the record documentation demands).", "quantifier": "all locator lists", "why_tests_cant": "depends on address values", "anchors": ["pylisp/packet/lisp/control/map_reply_record.py:sanitize", "pylisp/packet/lisp/control/locator_record.py:sort_key"]}
{"id": "C37", "title": "Forbidden locators are never emitted or accepted", "statement": "No emitted or accepted locator is 255.255.255.255, in 224.0.0.0/24, in ff02::/16 or ff12::/16, or not an address; all others are accepted.", "quantifier": "all addresses", "why_tests_cant": "2^128 addresses", "anchors": ["pylisp/packet/lisp/control/locator_record.py:sanitize"]}
{"id": "C38", "title": "LCAF locators are usable", "statement": "A locator record whose address is an LCAF address containing valid IPv4/IPv6 addresses is accepted.", "quantifier": "all LCAF addresses", "why_tests_cant": "all nestings", "anchors": ["pylisp/packet/lisp/control/locator_record.py:sanitize"]}
{"id": "C39", "title": "Referral records obey the DDT action table", "statement": "Every emitted or accepted Map-Referral record satisfies the action/incomplete/referral-set/TTL table of the DDT draft, and every record satisfying it (with valid other fields) is accepted.", "quantifier": "all records", "why_tests_cant": "all combinations", "anchors": ["pylisp/packet/lisp/control/map_referral_record.py:sanitize"]}
{"id": "C40", "title": "Map-Requests with up to 255 EID records are accepted", "statement": "A Map-Request carrying between 1 and 255 valid EID records is accepted (as its error message documents) and other counts are rejected.", "quantifier": "all record counts", "why_tests_cant": "boundary", "anchors": ["pylisp/packet/lisp/control/map_request.py:sanitize"]}
{"id": "C41", "title": "Inserted authentication data verifies", "statement": "After insert_authentication_data(key) on any serialisable Map-Register, Map-Notify or Info message with a known key id, verify_authentication_data(key) is true, also after sending: from_bytes(to_bytes(m)) verifies with the same key.", "quantifier": "all messages and keys", "why_tests_cant": "all contents", "anchors": ["pylisp/packet/lisp/control/map_register.py", "pylisp/packet/lisp/control/map_notify.py", "pylisp/packet/lisp/control/info_message.py"]}
{"id": "C42", "title": "Verification means the MAC matches the message", "statement": "verify_authentication_data(key) is true exactly when the authentication data equals HMAC (SHA-1 for key id 1, SHA-256 for 2) under key over the serialised message with the authentication field zeroed; hence two verified messages with the same authentication data either serialise identically outside that field or exhibit a MAC collision.", "quantifier": "all messages and keys", "why_tests_cant": "all contents", "anchors": ["pylisp/packet/lisp/control/map_register.py:verify_authentication_data"]}
{"id": "C43", "title": "Computing authentication data leaves the message unchanged", "statement": "calculate_authentication_data and verify_authentication_data leave the message's attributes as they were (apart from the normalisation every serialisation performs), whether they succeed or raise.", "quantifier": "all messages, including unserialisable ones", "why_tests_cant": "exception paths", "anchors": ["pylisp/packet/lisp/control/map_register.py:calculate_authentication_data", "pylisp/packet/ip/udp.py:calculate_checksum"]}
{"id": "C44", "title": "Verification uses the bytes that were received", "statement": "A received message whose authentication data is the correct HMAC of the received bytes (authentication field zeroed) verifies.", "quantifier": "all received messages", "why_tests_cant": "senders order locators or set reserved/action bits differently", "anchors": ["pylisp/packet/lisp/control/map_register.py:verify_authentication_data"]}
{"id": "C45", "title": "Type registries never rebind a number", "statement": "Over any sequence of register_type_class calls: a number once bound stays bound to the first class, re-registering the same class is a no-op, a different class or an invalid number or a foreign class raises and changes nothing.", "quantifier": "all call sequences", "why_tests_cant": "histories", "anchors": ["pylisp/packet/lisp/control/type_registry.py", "pylisp/utils/lcaf/type_registry.py", "pylisp/packet/ip/protocol_registry.py"]}
{"id": "C46", "title": "resolve_path is longest-prefix match", "statement": "In a tree whose siblings do not overlap and lie inside their parents, resolve_path(address) returns exactly the nodes whose prefix covers the address, most specific first, ending in the node asked; resolve returns the most specific one; the result does not depend on sibling order. The daemon's lookup by instance and family gives nothing when they are not configured and otherwise what their tree gives.", "quantifier": "all trees, all addresses, all set iteration orders", "why_tests_cant": "unbounded trees", "anchors": ["pylisp/application/lispd/address_tree/container_node.py:resolve_path", "pylisp/application/lispd/address_tree/container_node.py:find_one"]}
{"id": "C47", "title": "A container's children never overlap", "statement": "Over any sequence of add/update/discard/clear calls that start from an empty container, the children lie inside the container's prefix and no two children overlap.", "quantifier": "all call sequences", "why_tests_cant": "histories", "anchors": ["pylisp/application/lispd/address_tree/container_node.py:add"]}
{"id": "C48", "title": "A node is only authoritative for its own prefix", "statement": "find_all, find_one, add and resolve raise NotAuthoritativeError exactly when the given prefix is not completely inside the node's prefix (or of the other IP version).", "quantifier": "all prefixes", "why_tests_cant": "2^128", "anchors": ["pylisp/application/lispd/address_tree/container_node.py:find_all", "pylisp/application/lispd/address_tree/container_node.py:add"]}
{"id": "C49", "title": "Adding a node for an existing prefix replaces the old node", "statement": "After add(child) with the prefix of an existing child, the container holds the new child and not the old one, and lookups return the new child.", "quantifier": "all containers", "why_tests_cant": "histories", "anchors": ["pylisp/application/lispd/address_tree/container_node.py:add"]}
{"id": "C50", "title": "remove raises KeyError exactly for absent children", "statement": "remove(child) removes a present child without raising and raises KeyError when it is absent.", "quantifier": "all containers and children", "why_tests_cant": "histories", "anchors": ["pylisp/application/lispd/address_tree/container_node.py:remove"]}
{"id": "C51", "title": "Map-Server registration store refines a keyed store with expiry", "statement": "Over any interleaving of Map-Register handling and cleanup passes, the store holds for (prefix, source) exactly the record of the last accepted registration for it, provided no later cleanup ran after its deadline (arrival + 180 s); nothing else, and no empty per-prefix entries remain after cleanup.", "quantifier": "all histories and interleavings of the handler and the cleanup thread", "why_tests_cant": "schedules", "anchors": ["pylisp/application/lispd/address_tree/map_server_node.py:MapServerNode.handle_map_register_record", "pylisp/application/lispd/address_tree/map_server_node.py:MSCleanupThread.run"]}
{"id": "C52", "title": "Only in-scope prefixes are registered", "statement": "Every stored registration is for a prefix equal to, or (only if allow_more_specifics) inside, the Map-Server node's prefix.", "quantifier": "all histories", "why_tests_cant": "all prefixes", "anchors": ["pylisp/application/lispd/address_tree/map_server_node.py:handle_map_register_record"]}
{"id": "C53", "title": "Only senders knowing the key can register", "statement": "Every stored registration came from a Map-Register whose authentication data is a MAC under the node's key.", "quantifier": "all messages", "why_tests_cant": "adversarial inputs", "anchors": ["pylisp/application/lispd/address_tree/map_server_node.py:handle_map_register_record", "pylisp/packet/lisp/control/map_register.py:verify_authentication_data"]}
{"id": "C54", "title": "Map-Notify reports exactly what was registered", "statement": "handle_map_register sends a Map-Notify only if requested and at least one record was accepted; it carries the nonce, key id, xTR-ID and site-ID of the register and exactly the accepted records in order, is authenticated with the Map-Server's key and goes to the sender.", "quantifier": "all Map-Registers and trees", "why_tests_cant": "all mixes of accepted/rejected records", "anchors": ["pylisp/application/lispd/message_handler.py:handle_map_register"]}
{"id": "C55", "title": "DDT requests get the answer the tree prescribes", "statement": "handle_ddt_map_request answers NODE-REFERRAL for a delegated prefix, MS-ACK/MS-NOT-REGISTERED for a Map-Server prefix, DELEGATION-HOLE inside authoritative space without delegation and NOT-AUTHORITATIVE otherwise.", "quantifier": "all trees and requests", "why_tests_cant": "all trees", "anchors": ["pylisp/application/lispd/address_tree/ddt_referral_node.py:handle_ddt_map_request"]}
{"id": "C56", "title": "Loading the DDT root yields exactly the listed delegations", "statement": "After add_delegation for each entry of a list without overlapping distinct prefixes, each listed (instance, AFI, prefix) resolves to a referral node holding exactly the addresses listed for it, independent of order.", "quantifier": "all delegation lists", "why_tests_cant": "orders and sizes", "anchors": ["pylisp/application/lispd/utils/ddt_root_loader.py:add_delegation"]}
{"id": "C57", "title": "Announced locators are the configured ones, local ones replaced by RTRs behind NAT", "statement": "get_etr_locators announces every bound non-local configured locator with its priorities and weights; local locators are announced as they are when there are no RTRs and otherwise all local ones are replaced by the RTRs; unbound locators (address 0) are never announced.", "quantifier": "all locator sets, RTR sets and sockets", "why_tests_cant": "all set orders", "anchors": ["pylisp/application/lispd/address_tree/etr_node.py:ETRNode.get_etr_locators"]}
{"id": "C58", "title": "Map-Requests to an ETR get a matching Map-Reply", "statement": "handle_map_request replies once to an ITR-RLOC with the request's nonce and probe bit, the ETR's prefix, authoritative, TTL 1440, the announced locators all marked reachable with the probed bit only on the probed address of a probe, or a natively-forward negative reply without locators.", "quantifier": "all requests and locator sets", "why_tests_cant": "all inputs", "anchors": ["pylisp/application/lispd/address_tree/etr_node.py:ETRNode.handle_map_request"]}
{"id": "C59", "title": "A Map-Notify is accepted only if it confirms what was registered", "statement": "notify_content_ok is true only if the notify authenticates under the registration key, has the register's nonce and key id, compatible xTR/site ids, and the same records with the same locators.", "quantifier": "all notifies", "why_tests_cant": "adversarial inputs", "anchors": ["pylisp/application/lispd/address_tree/etr_node.py:MapRegister.notify_content_ok"]}
{"id": "C60", "title": "Registrations are refreshed in time", "statement": "Over any run of the registration loop: after a failed registration the next iteration re-detects NAT and asks for a Map-Notify; after a successful one a new registration is sent on the first iteration more than 60 s later or when a change was signalled, not earlier; NAT detection happens on the first iteration more than 15 minutes after the last.", "quantifier": "all iteration timings and outcomes", "why_tests_cant": "schedules", "anchors": ["pylisp/application/lispd/address_tree/etr_node.py:MSRThread.run"]}
{"id": "C61", "title": "A locator address change triggers re-registration", "statement": "When a configured locator's address changes, every registration thread of the ETR is told to send a new registration.", "quantifier": "all change histories", "why_tests_cant": "asynchronous", "anchors": ["pylisp/application/lispd/address_tree/etr_node.py:on_locator_change", "pylisp/packet/lisp/control/locator_record.py:_send_notifications"]}
{"id": "C62", "title": "send_message delivers through at most one socket of the right family", "statement": "send_message stops at the first socket of the destination's family that sends the complete message, tries destinations and sockets in order, never uses a socket of the wrong family, and reports (None, None) only if every attempt fell short; a destination whose text is no address ends the search with an exception, an address in instance 0 counts as that address.", "quantifier": "all destination lists, socket lists and send outcomes", "why_tests_cant": "all failure patterns", "anchors": ["pylisp/application/lispd/send_message.py:send_message"]}
{"id": "C63", "title": "Auto sockets are bound exactly to the current usable address", "statement": "Over any sequence of address changes and bind outcomes, after each rebind the socket is open iff the recorded bound address is non-zero, then it equals the current address and that address is not loopback, link-local, multicast or unspecified; the old socket is closed. While there is no socket, sending and receiving do nothing and raise nothing; while there is one they give what the operating system gives, a socket error on receiving being no data.", "quantifier": "all histories", "why_tests_cant": "failure injection", "anchors": ["pylisp/utils/auto_socket.py:AutoUDPSocket.rebind"]}
{"id": "C64", "title": "Auto addresses follow the interface and notify exactly on change", "statement": "update_address selects the first suitable address of the interface (0 if none) and notifies each listener exactly once if and only if the address changed.", "quantifier": "all interface states", "why_tests_cant": "histories", "anchors": ["pylisp/utils/auto_addresses.py:AutoAddress.update_address"]}
{"id": "C65", "title": "Message numbers are unique until wrap-around", "statement": "Message numbers handed out by successive ReceivedMessage constructions are 1,2,...,maxint,1,...: always within 1..maxint and any maxint consecutive ones are pairwise different.", "quantifier": "all numbers of messages", "why_tests_cant": "wrap-around after 2^63 messages", "anchors": ["pylisp/application/lispd/received_message.py:ReceivedMessage"]}
{"id": "C66", "title": "A missing address family gets an empty container", "statement": "fix_config accepts an INSTANCES setting where an instance lacks an address family and supplies an empty container for it.", "quantifier": "all configurations", "why_tests_cant": "all combinations", "anchors": ["pylisp/application/lispd/settings.py:Settings.fix_config"]}
{"id": "C67", "title": "A failed UDP checksum computation leaves the message unchanged", "statement": "If UDPMessage.calculate_checksum or verify_checksum raises, the message's checksum attribute is what it was before the call.", "quantifier": "every UDP message, address pair and cause of failure", "why_tests_cant": "the failure has to happen between two assignments", "anchors": ["pylisp/packet/ip/udp.py:UDPMessage.calculate_checksum"]}
{"id": "C68", "title": "Extension headers announce the next header they were given", "statement": "The next-header byte an IPv6 extension header emits is exactly the next_header attribute of the object, whatever its payload is.", "quantifier": "all extension headers, values and payloads", "why_tests_cant": "all values and payload objects", "anchors": ["pylisp/packet/ip/ipv6/hop_by_hop_options_header.py", "pylisp/packet/ip/ipv6/destination_options_header.py", "pylisp/packet/ip/ipv6/routing_header.py", "pylisp/packet/ip/ipv6/fragment_header.py"]}
{"id": "C69", "title": "Parsing terminates on every input", "statement": "Every packet parser either returns an object or raises an ordinary exception on every byte string: the nesting of parsers is bounded by the length of the input.", "quantifier": "every byte string, every entry point", "why_tests_cant": "infinitely many inputs, unbounded nesting", "anchors": ["pylisp/packet/ip/", "pylisp/packet/lisp/control/", "pylisp/packet/lisp/data.py"]}
{"id": "C70", "title": "Copying a container gives an equal container", "statement": "copy() of a container gives a new container of the same class with the same prefix, the same children and, for an AuthContainerNode, the same DDT nodes.", "quantifier": "all containers", "why_tests_cant": "all trees and all configurations of DDT nodes", "anchors": ["pylisp/application/lispd/address_tree/container_node.py:ContainerNode.copy", "pylisp/application/lispd/address_tree/authoritative_container_node.py:AuthContainerNode.__init__"]}
{"id": "C71", "title": "A socket whose bind failed is bound when binding becomes possible", "statement": "After every poll of the interface, an AutoUDPSocket listening to an AutoAddress is open and bound to the interface's current address whenever that address is bindable and the operating system accepts the bind.", "quantifier": "all histories of interface states and bind outcomes", "why_tests_cant": "failure injection over time", "anchors": ["pylisp/utils/auto_socket.py:AutoUDPSocket.on_address_change", "pylisp/utils/auto_addresses.py:AutoAddress.update_address"]}
{"id": "C72", "title": "The xTR-ID identifies the machine", "statement": "get_xtr_id is made from the first unicast non-zero MAC address of the machine, fits in the 128-bit field, is not 0 and differs for different MAC addresses; it is 0 only when there is no usable MAC address.", "quantifier": "all lists of MAC addresses", "why_tests_cant": "all addresses", "anchors": ["pylisp/application/lispd/utils/id_generators.py:get_xtr_id"]}
{"id": "C73", "title": "A datagram gets at most one answer, and an answer always belongs to it", "statement": "Whatever bytes arrive at the control or data port: the daemon sends at most one message for the datagram; if it sends one, it is a Map-Reply with the nonce and probe bit of the Map-Request, addressed to the Map-Request's ITR-RLOCs, a Map-Notify with the nonce of a Map-Register that wants one, addressed to its source at port 4342, or a Map-Referral with the nonce of the Map-Request inside a DDT-originated ECM, addressed to the source of the datagram; and only Map-Registers change Map-Server state, only Map-Notifies and Info-Replies change outstanding requests, and a datagram that does not parse changes nothing. After any history an ETR node is as its own threads left it.", "quantifier": "every datagram, configuration and state", "why_tests_cant": "all byte strings and states", "anchors": ["scripts/lispd:handle_control_message", "scripts/lispd:handle_data_message", "pylisp/application/lispd/message_handler.py:handle_message", "pylisp/application/lispd/received_message.py:ReceivedMessage"]}
{"id": "C74", "title": "What is registered is what authentic Map-Registers put there, end to end", "statement": "After any history of datagrams at either port, queued packets, cleanup passes and registration threads, the registration a Map-Server node holds for a prefix and source is the one of the last acceptable record for them in a Map-Register the daemon received, unless a cleanup pass came after its expiry; and every acceptable record of a message counts, whatever the other records of that message are.", "quantifier": "all histories of all events, all configurations", "why_tests_cant": "unbounded histories, arbitrary bytes", "anchors": ["scripts/lispd", "pylisp/application/lispd/message_handler.py:handle_map_register", "pylisp/application/lispd/address_tree/map_server_node.py"]}
{"id": "C75", "title": "A control message in a data packet is treated like one at the control port", "statement": "A LISP control message that arrives in a data packet with instance id 0xffffff, in UDP for port 4342 (from a port other than 4341) inside an IPv4 packet without options or an IPv6 packet, has exactly the effects and answers that the same bytes have when they arrive at the control port from the same sender, whatever the bytes are. Other data packets leave the state as it is, and those of instance 0xffffff are neither answered nor sent on.", "quantifier": "all byte strings, both families, all states", "why_tests_cant": "all byte strings and states", "anchors": ["scripts/lispd:handle_data_message"]}
{"id": "C76", "title": "Decapsulated packets are forwarded unchanged", "statement": "The inner IP packet of a LISP data packet (any instance id but 0xffffff) is sent on, byte for byte as it came, to its own destination address; packets for the control instance are never sent on.", "quantifier": "all data packets and inner packets", "why_tests_cant": "all packets", "anchors": ["scripts/lispd:handle_data_message", "pylisp/packet/lisp/data.py", "pylisp/packet/ip/"]}
{"id": "C87", "title": "Encapsulation adds eight zero bytes and nothing else", "statement": "A packet taken from the queue is sent to the PETR at port 4341 as eight zero bytes followed by the packet, exactly when a PETR is configured and the packet is a readable IPv4 or IPv6 packet; and a plain IP packet that goes through one daemon's queue and another daemon's data port leaves it byte for byte for its own destination.", "quantifier": "all packets and all states of both daemons", "why_tests_cant": "all packets", "anchors": ["scripts/lispd:nfqueue_callback"]}
{"id": "C89", "title": "The LISP accessors of a UDP message give what their names say", "statement": "get_lisp_message returns the payload exactly when the ports and arguments call for LISP data and it is a data packet, or for LISP control and it is a control message, and raises ValueError otherwise and for mixed ports; get_lisp_data_packet returns only data packets and get_lisp_control_message only control messages.", "quantifier": "all UDP messages", "why_tests_cant": "all ports and payloads", "anchors": ["pylisp/packet/ip/udp.py:UDPMessage.get_lisp_message,get_lisp_data_packet,get_lisp_control_message"]}
{"id": "C77", "title": "NAT detection decides from the last valid answer, within three attempts", "statement": "Whatever is heard, when, and from whom: an ETR sends its Info-Request at most three times, again only if no Info-Reply from its Map-Server with its nonce was heard; Info-Replies from others or with another nonce have no influence; the verdict is NAT exactly if the last answer shows another address or port than the one the request was sent from (or RTRs are forced), with that address as the private address, and 'no NAT' otherwise; with NAT detection switched off nothing is sent.", "quantifier": "all sequences of replies, send failures and stop signals", "why_tests_cant": "unbounded interleavings of the network and the thread", "anchors": ["pylisp/application/lispd/address_tree/etr_node.py:MSRThread.get_nat_info", "pylisp/application/lispd/message_handler.py:handle_info_message"]}
{"id": "C78", "title": "A registration counts as ok exactly if its last Map-Notify is acceptable", "statement": "A Map-Register that wants a Map-Notify is sent at most three times, again only if no Map-Notify from the Map-Server with its nonce was heard, and is ok exactly if the last such Map-Notify passes the checks; one that wants none is sent once. A registration that was never sent is not ok, and no outstanding request is left behind.", "quantifier": "all sequences of notifies, send failures and stop signals", "why_tests_cant": "unbounded interleavings of the network and the thread", "anchors": ["pylisp/application/lispd/address_tree/etr_node.py:MSRThread.register", "pylisp/application/lispd/address_tree/etr_node.py:MapRegister.notify_content_ok"]}
{"id": "C90", "title": "An EID is looked up as what it names", "statement": "The daemon looks an EID up under the instance id, the address family and the one address or prefix it contains, and not at all exactly if it contains none or several, or one that is not an IP address or prefix; the instance id in it is never lost.", "quantifier": "all LCAF and plain EIDs", "why_tests_cant": "unbounded nesting of LCAFs", "anchors": ["pylisp/application/lispd/message_handler.py:determine_instance_id_and_afi", "pylisp/utils/lcaf/__init__.py"]}
{"id": "C91", "title": "Exactly the well-formed addresses, records and messages can be sent", "statement": "to_bytes succeeds exactly for the messages whose fields have the permitted values: counts of 1..32 ITR-RLOCs and EIDs in a Map-Request, at most 255 records and 255 locators, nonces of 8 bytes (3 or 8 in a Map-Reply), key ids 0..2, authentication data of at most 65535 bytes, TTLs, versions, xTR-IDs and Site-IDs in range, permitted locators, rows of the DDT table, and addresses whose numbers and nested LCAF lengths fit their fields; everything else is refused with an exception, never truncated.", "quantifier": "all addresses, records and messages", "why_tests_cant": "all field values and nestings", "anchors": ["pylisp/packet/lisp/control/", "pylisp/utils/lcaf/", "pylisp/utils/afi.py"]}
{"id": "C79", "title": "A Map-Notify reaches the Map-Register it answers, and nothing else", "statement": "A Map-Notify the daemon receives is recorded, at every ETR one of its records is for, with the first outstanding Map-Register of that ETR that went to the address the notify comes from with the same nonce; no other registration, no Map-Server and no ETR state changes, and nothing is sent. Records it cannot look up do not keep it from the ETRs of the other records.", "quantifier": "all configurations, outstanding registrations and Map-Notifies", "why_tests_cant": "unbounded trees, lists and message contents", "anchors": ["pylisp/application/lispd/message_handler.py:handle_map_notify", "pylisp/application/lispd/address_tree/etr_node.py:ETRNode.handle_map_notify_record"]}
{"id": "C80", "title": "An Info-Reply reaches the Info-Request it answers, and nothing else", "statement": "An Info-Reply is recorded, at the ETR its EID is for, with the first outstanding Info-Request that went to its source with the same nonce, and gives the address that request was sent from as private address; anything else, and every Info-Request received, changes nothing and is not answered. Only replies with valid authentication data are believed.", "quantifier": "all configurations, outstanding requests and Info messages", "why_tests_cant": "unbounded trees, lists and message contents", "anchors": ["pylisp/application/lispd/message_handler.py:handle_info_message", "pylisp/application/lispd/address_tree/etr_node.py:ETRNode.handle_info_message_reply"]}
{"id": "C83", "title": "A Map-Notify from another source confirms nothing; one relayed by an RTR is believed", "statement": "A Map-Notify whose datagram comes from another address than the Map-Server of a registration leaves that registration unconfirmed, whatever it contains; but the Map-Notify of a registration through an RTR, which arrives inside a data packet from that RTR with the Map-Server as inner source, confirms it.", "quantifier": "all states and Map-Notifies at the control and data ports", "why_tests_cant": "unbounded states and packet contents", "anchors": ["pylisp/application/lispd/message_handler.py:handle_map_notify", "scripts/lispd:handle_data_message"]}
{"id": "C84", "title": "One running thread per configured registration", "statement": "After any history of adding and removing registrations, giving and taking sockets and reporting RTRs, exactly the configured registrations of an ETR have a registration thread, each its own, which runs exactly if the node had control-plane sockets at some time since the registration was added; every other thread ever created has been told to stop, and RTRs of removed registrations are no longer announced.", "quantifier": "all histories of configuration changes", "why_tests_cant": "unbounded histories", "anchors": ["pylisp/application/lispd/address_tree/etr_node.py:ETRNode.add_etr_registration", "pylisp/application/lispd/address_tree/etr_node.py:ETRNode.remove_etr_registration", "pylisp/application/lispd/address_tree/etr_node.py:ETRNode.set_sockets", "pylisp/application/lispd/address_tree/etr_node.py:ETRNode.get_rtrs"]}
{"id": "C92", "title": "Exactly the packets whose fields fit can be sent, with the length the protocols prescribe", "statement": "to_bytes of a packet succeeds exactly if every header in it has the permitted values (field widths, addresses of the family of the header, at most 40 octets of IPv4 options, 2046 of IPv6 options, payload within the 16-bit length fields, the nonce/version/instance-id rules of the LISP data header, no security in an ECM), and the result has exactly the octets of headers, options rounded up to 4 or 8, and payload.", "quantifier": "all stacks of headers of any depth", "why_tests_cant": "unbounded nesting and field values", "anchors": ["pylisp/packet/ip", "pylisp/packet/lisp/data.py", "pylisp/packet/lisp/control/"]}
{"id": "C81", "title": "A registration with the right key is stored and confirmed", "statement": "The Map-Register an ETR makes for a prefix can always be authenticated and sent; a daemon whose Map-Server node is responsible for the prefix, has the same key and accepts the prefix stores the record for 180 seconds under the identity of the sender and answers with exactly one Map-Notify to the sender; the bytes of that Map-Notify, parsed by the ETR, are accepted as confirmation of the registration and recorded with it. A Map-Register that does not ask for a Map-Notify is stored in the same way and nothing is sent back.", "quantifier": "all prefixes, locator sets, keys, key ids, nonces, ids, RTRs, configurations, states and clocks; every function with the digest lengths of HMAC", "why_tests_cant": "the whole exchange for unbounded data, with any hash", "anchors": ["pylisp/application/lispd/address_tree/etr_node.py:MapRegister", "pylisp/application/lispd/address_tree/map_server_node.py:MapServerNode.handle_map_register_record", "pylisp/application/lispd/message_handler.py:handle_map_register", "pylisp/application/lispd/address_tree/etr_node.py:MapRegister.notify_content_ok"]}
{"id": "C82", "title": "A Map-Register reaches the Map-Server, behind NAT through the RTR", "statement": "Without NAT the Map-Register of an ETR is sent over the control-plane sockets to port 4342 of the Map-Server. Behind NAT it is sent over a data-plane socket to the RTRs, as an encapsulated control message around an IP packet from the private address of the ETR to the Map-Server that routers can forward (TTL or hop limit above 0), around UDP port 4342 with a valid checksum, around the Map-Register with its authentication intact, whichever families the addresses have.", "quantifier": "all Map-Registers, addresses of both families, RTRs", "why_tests_cant": "all addresses and messages", "anchors": ["pylisp/application/lispd/address_tree/etr_node.py:MapRegister.send", "pylisp/packet/ip/udp.py:UDPMessage.calculate_checksum"]}
{"id": "C85", "title": "Settings come from the last configuration file that defines them", "statement": "After loading, each upper-case setting has the value the last readable configuration file that defines it gives, and its default if none does; names with lower-case letters are never taken over; files that cannot be read are skipped, and any other failure of a file is a configuration error.", "quantifier": "all lists of configuration files and their contents", "why_tests_cant": "unbounded files and names", "anchors": ["pylisp/application/lispd/settings.py:Settings.apply_config_files"]}
{"id": "C86", "title": "In an accepted configuration every address of a configured instance has exactly one responsible node", "statement": "Once a configuration is accepted, looking up any IPv4 or IPv6 address in a configured instance gives a node: the one with the most specific prefix that contains the address; in other instances there is none; and checking the accepted configuration again accepts it unchanged.", "quantifier": "all accepted configurations with tidy trees, all addresses", "why_tests_cant": "unbounded trees and all addresses", "anchors": ["pylisp/application/lispd/settings.py:Settings.fix_config", "pylisp/application/lispd/utils/prefix.py:resolve"]}
{"id": "C88", "title": "The queries of map_resolve and ddt_query are well-formed", "statement": "For every address asked for, the query can be sent; whoever receives it reads an encapsulated control message, with the DDT-originated bit exactly in those of ddt_query, around an IP packet from the unspecified address to the address asked for with TTL 64, around UDP to port 4342 with a checksum that verifies, around a Map-Request for the host prefix with the nonce and the ITR-RLOC given; and a pylisp daemon takes that Map-Request out of it.", "quantifier": "all addresses, nonces, ports and source addresses", "why_tests_cant": "all addresses and ports", "anchors": ["scripts/map_resolve", "scripts/ddt_query", "pylisp/packet/lisp/control/encapsulated_control_message.py:EncapsulatedControlMessage", "pylisp/application/lispd/received_message.py:ReceivedMessage"]}
{"id": "C93", "title": "Messages are read up to their own end", "statement": "Every byte string a record's or control message's from_bytes accepts starts with a message that is accepted, with the same result, whatever follows it, and that is refused as soon as its last octet is missing; of a message made by to_bytes no proper prefix is accepted. IPv4, IPv6 and UDP accept a string only if it has the length it says: neither cut short nor with octets added is it accepted. An encapsulated control message around an IP packet inherits this; cut short it is accepted only directly after its own four octets.", "quantifier": "all byte strings, all ways to cut or extend them, all message types", "why_tests_cant": "all strings and all cuts", "anchors": ["pylisp/packet/lisp/control/base.py:ControlMessage.from_bytes", "pylisp/packet/lisp/control/map_register.py:MapRegisterMessage.from_bytes", "pylisp/packet/lisp/control/map_reply_record.py:MapReplyRecord.from_bytes", "pylisp/packet/lisp/control/encapsulated_control_message.py:EncapsulatedControlMessage.from_bytes", "pylisp/packet/ip/ipv4.py:IPv4Packet.from_bytes", "pylisp/packet/ip/ipv6/base.py:IPv6Packet.from_bytes", "pylisp/packet/ip/udp.py:UDPMessage.from_bytes"]}
{"id": "C94", "title": "lispd starts with every node able to send, or not at all", "statement": "lispd refuses to start (exit code 2; 1 for configuration errors) exactly if there is no address to listen on, a proxy ETR is configured for processing data without an NFQUEUE for each family, or an NFQUEUE is configured without the module for it. Otherwise it has a control socket (4342) on every configured address, a data socket (4341) on each exactly if it processes data, and gives the sockets to every node of every configured tree; a node in the trees of a running daemon can always send.", "quantifier": "all configurations and trees of any depth, nodes added later", "why_tests_cant": "unbounded trees and configurations", "anchors": ["scripts/lispd", "pylisp/application/lispd/address_tree/container_node.py:ContainerNode.set_sockets", "pylisp/application/lispd/address_tree/container_node.py:ContainerNode.add", "pylisp/application/lispd/address_tree/base.py:AbstractNode.set_sockets"]}
{"id": "C95", "title": "The main loop handles everything once, in order, and stops only when told to", "statement": "Whatever arrives, in whatever order, and whatever fails (parsing, handling, recvfrom, select, updating addresses): every datagram that arrives is handled exactly once, for each socket in order of arrival, or still waits; the state and everything sent are those of handling the events one after the other; the loop stops exactly when it has read a SIGINT or SIGTERM, after serving the rest of what select reported, and then takes nothing more; addresses are updated once per SIGHUP read.", "quantifier": "all interleavings of arrivals, signals, rounds and threads, all failures", "why_tests_cant": "unbounded interleavings and failures", "anchors": ["scripts/lispd"]}
{"id": "C96", "title": "An answer reaches the request that waits for it while other threads register", "statement": "While the main thread looks for the request that a Map-Notify or Info-Reply answers, other registration threads may add and withdraw their own requests at any moment. An answer is never given to a request that does not wait for it and nothing else is touched; the search ends; and a request that waits all the time gets its answer.", "quantifier": "all requests, all answers, all interleavings of the search with requests being added and withdrawn", "why_tests_cant": "depends on the schedule of the threads", "anchors": ["pylisp/application/lispd/address_tree/etr_node.py", "ETRNode.handle_map_notify_record", "ETRNode.handle_info_message_reply", "MSRThread.register", "MSRThread.get_nat_info"]}
{"id": "C97", "title": "Registering and cleaning up at the same time is as good as one after the other", "statement": "However the steps of registering prefixes at a Map-Server and of the cleanup thread's passes interleave: none of them raises KeyError, at most one of them is inside at a time, whenever nobody is inside the registrations are what the operations make of them one after the other (each thread's in its own order), and no thread is ever locked out for good.", "quantifier": "all registrations to start with, all sequences of operations per thread, all schedules, any number of threads", "why_tests_cant": "depends on the schedule of the threads", "anchors": ["pylisp/application/lispd/address_tree/map_server_node.py", "MSCleanupThread.run", "MapServerNode.handle_map_register_record"]}
{"id": "C98", "title": "A registration is there for 180 seconds and gone half a minute later", "statement": "An accepted registration that is not replaced is there until 180 seconds after it was accepted. If a pass of the cleanup thread takes at most D and the thread wakes up at most E late, it is gone 30 seconds + 2D + E after that.", "quantifier": "all histories of registrations and passes, all delays, all times", "why_tests_cant": "unbounded histories and timings", "anchors": ["pylisp/application/lispd/address_tree/map_server_node.py", "MSCleanupThread.run", "MapServerRegistration"]}
{"id": "C99", "title": "Geo addresses keep their position in decimal degrees", "statement": "Reading latitude or longitude of an LCAFGeoAddress gives its position in degrees, up to the precision of a float; assigning a number makes degrees, minutes (0..59) and seconds (0..59) of the position nearest to it, negative numbers meaning south or west; assigning what was read changes nothing, and an address whose position was assigned can be serialised.", "quantifier": "all addresses and all floating point numbers", "why_tests_cant": "the numbers are rounded at every step, for all doubles", "anchors": ["pylisp/utils/lcaf/geo_address.py", "LCAFGeoAddress._get_latitude", "LCAFGeoAddress._set_latitude", "LCAFGeoAddress._get_longitude", "LCAFGeoAddress._set_longitude"]}
{"id": "C100", "title": "All automatic addresses follow their interfaces", "statement": "get_ipv4_address and get_ipv6_address give one object per interface and family. After update_addresses() every automatic address in use has the current address of its interface, and the listeners of exactly those that changed have been told once. Automatic addresses that are equal have equal hashes.", "quantifier": "all histories of creating, listening, dropping and updating addresses, all states of the interfaces", "why_tests_cant": "depends on which addresses existed without an address at the same time", "anchors": ["pylisp/utils/auto_addresses.py", "update_addresses", "AutoAddress", "get_ipv4_address", "get_ipv6_address"]}
{"id": "C101", "title": "An ETR asks its Map-Server about NAT and understands the answer", "statement": "The Info-Request of an ETR for its prefix can always be authenticated and sent; it goes only to the Map-Server, port 4342; whoever receives it reads the nonce, the prefix, a TTL of 1440 minutes and authentication data that is valid for the key of the registration, and a pylisp daemon neither changes anything nor answers. Any Info-Reply with the nonce and the prefix of the request that arrives from the Map-Server is recorded with the request, and the ETR finds itself behind NAT exactly if the Map-Server saw another address or port than the one used (or RTRs are forced), with the RTRs of the reply.", "quantifier": "all prefixes, keys, nonces, configurations, daemon states and contents of the reply", "why_tests_cant": "all messages and states", "anchors": ["pylisp/application/lispd/address_tree/etr_node.py", "InfoRequest", "MSRThread.get_nat_info", "InfoMessage"]}
{"id": "C102", "title": "The query tools get an answer from a pylisp daemon", "statement": "When ddt_query asks a pylisp daemon that is configured for the address, or map_resolve one that has an ETR for it, the daemon sends exactly one answer, to the address and port the query came from, which the tool reads as a Map-Referral (Map-Reply) with the nonce of the query.", "quantifier": "all addresses, nonces, trees and states", "why_tests_cant": "all addresses, configurations and states", "anchors": ["scripts/ddt_query", "scripts/map_resolve", "pylisp/application/lispd/message_handler.py:handle_ddt_map_request,handle_enc_map_request"]}
{"id": "C103", "title": "map_register registers the prefix", "statement": "The registration map_register makes can be sent for every prefix; a pylisp Map-Server that is responsible for the prefix and has the same key stores it for 180 seconds under the sender's address with the locator 127.0.0.1 and proxy Map-Replies, and sends nothing back.", "quantifier": "all prefixes, keys, nonces, trees and states", "why_tests_cant": "all prefixes, keys and states", "anchors": ["scripts/map_register", "pylisp/application/lispd/address_tree/map_server_node.py:MapServerNode.handle_map_register_record"]}
{"id": "C104", "title": "The sockets follow the interfaces", "statement": "At any time every open UDP socket of the daemon is bound to the current value of its address. After SIGHUP a socket made for the address of an interface (get_ipv4_address, get_ipv6_address) is bound to the interface's current address, or closed if it has none. The process has no other open UDP sockets than those main() made and reads.", "quantifier": "all histories of imports, address lookups, socket creations and SIGHUPs, all interface states, bind outcomes and string hashes", "why_tests_cant": "all histories of interface changes and signals", "anchors": ["pylisp/utils/auto_socket.py:AutoUDPSocket", "pylisp/utils/auto_addresses.py:update_addresses", "pylisp/application/lispd/address_tree/map_server_node.py:x", "scripts/lispd:main"]}
{"id": "C105", "title": "The text of the DDT root file", "statement": "Each line of the DDT root file is ignored if it is white space or a comment, and otherwise has four fields (instance, address family number, prefix, address) separated by white space, perhaps with a comment behind them; any other line, or an address that is none, makes loading fail with ValueError. A text is accepted exactly if every line is one of these, every line names address family 0, 1 or 2 and a prefix of that family, and different prefixes delegated in one instance and family do not overlap. A loaded file delegates every listed prefix to exactly the addresses on its lines, and nothing else.", "quantifier": "all texts, and all readings of addresses and prefixes by ip_address and ip_network", "why_tests_cant": "all texts", "anchors": ["pylisp/application/lispd/utils/ddt_root_loader.py:load_ddt_root", "pylisp/application/lispd/utils/ddt_root_loader.py:add_delegation"]}
{"id": "C106", "title": "A running daemon registers what is configured", "statement": "Once the daemon has reached its main loop, every registration of an ETR node in the trees (whatever was added and removed before start-up and whatever is added and removed later) has exactly one running registration thread, and no other registration thread runs. Nothing is registered by a daemon that ends before its main loop, nor for nodes that are not in the trees.", "quantifier": "all configurations, all histories of adding and removing registrations before and after the start, all trees", "why_tests_cant": "all histories", "anchors": ["scripts/lispd:main", "pylisp/application/lispd/address_tree/etr_node.py:ETRNode", "pylisp/application/lispd/address_tree/container_node.py:ContainerNode"]}
{"id": "C107", "title": "The DDT root file is a configuration", "statement": "Setting INSTANCES to what load_ddt_root returns gives settings that are accepted, and then every address of a listed instance and family is delegated to exactly the addresses listed for the prefix it lies in, or belongs to the root that this node is authoritative for. False of the code: this is accepted exactly if every listed instance has delegations for both address families (and its number is an int).", "quantifier": "all DDT root files, all other settings, all instances and addresses", "why_tests_cant": "all files", "anchors": ["pylisp/application/lispd/utils/ddt_root_loader.py:load_ddt_root", "pylisp/application/lispd/settings.py:Settings"]}
{"id": "C108", "title": "The locators of an ETR node", "statement": "However locators are added to and removed from an ETR node while the addresses of interfaces change, the node has exactly the locators that were added and not removed since, each once (equal locators are one), and announces exactly those that have an address now, with that address. A locator whose attributes are assigned while it is in the node is outside of this: if its address was assigned, removing it has no effect, for ever.", "quantifier": "all histories of additions, removals and interface changes, all locators, all hash functions that tell the names and addresses used apart", "why_tests_cant": "all histories", "anchors": ["pylisp/application/lispd/address_tree/etr_node.py:ETRNode", "pylisp/packet/lisp/control/locator_record.py:LocatorRecord", "pylisp/utils/auto_addresses.py:AutoAddress"]}
{"id": "C109", "title": "The DDT nodes of a referral", "statement": "After any history of add, update, clear, discard and remove a DDT referral node contains each address that was added and not taken away since, once, and no other; add and update accept addresses and texts and raise ValueError for a text that is no address (keeping what was added before); remove raises KeyError exactly if the address is not there; a copy has the same addresses. Texts are converted only when they are added: looking for one never finds it, discarding one does nothing, and removing one always raises KeyError.", "quantifier": "all histories of operations, all readings of texts by ip_address", "why_tests_cant": "all histories", "anchors": ["pylisp/application/lispd/address_tree/ddt_referral_node.py:DDTReferralNode", "pylisp/application/lispd/address_tree/authoritative_container_node.py:AuthContainerNode"]}
{"id": "C110", "title": "An ETR that works stays registered", "statement": "The registration thread of an ETR attempts a registration at least every 60 s plus the longest time G it is held up, whatever the registrations come to and whatever is signalled, as long as NAT detection does not raise. If of the Map-Registers of every attempt one reaches the Map-Server (same key, prefix in scope) within d, and 60 s + G + d is at most 180 s, then from the first attempt on the prefix is registered all the time, whatever else is registered and whatever the cleanup thread does.", "quantifier": "all executions of the thread, all delays within the bounds, all other traffic, all schedules of the cleanup thread", "why_tests_cant": "all schedules and histories of two processes", "anchors": ["pylisp/application/lispd/address_tree/etr_node.py:MSRThread", "pylisp/application/lispd/address_tree/map_server_node.py:MapServerNode"]}
{"id": "C111", "title": "What a running daemon sends and knows comes from what arrived", "statement": "Whatever arrives on its sockets and queues, fails, interrupts or is signalled, and in whatever order select() reports it, a running lispd has handled what it took from its sockets, each datagram once and in the order of arrival per socket. For each it sent nothing or the one thing it calls for: the answer to the control message it brings, the inner packet of a data packet to that packet's destination, an outgoing IP packet to the proxy ETR. It sends nothing that nothing called for. The registrations of its Map-Servers are exactly those the handled events leave in force: none that no received Map-Register made, and none lost while no cleanup pass is later than its deadline.", "quantifier": "all histories of arrivals, errors, signals, thread actions and select() results, all configurations, all bytes", "why_tests_cant": "all schedules and histories of the whole daemon", "anchors": ["scripts/lispd:handle_control_message", "scripts/lispd:handle_data_message", "pylisp/application/lispd/message_handler.py:handle_message", "pylisp/application/lispd/address_tree/map_server_node.py:MapServerNode"]}
{"id": "C112", "title": "Authentication data is the HMAC of RFC 2104, and what that means for keys", "statement": "With key ids 1 and 2 the authentication data of a message is accepted exactly if it is the HMAC-SHA-1 or HMAC-SHA-256 over the message as sent with its authentication data zeroed. Two keys are interchangeable (verify, compute and register the same for every message and history) if they have the same RFC 2104 block: zero bytes at the end of a key of up to 64 bytes do not count, and a longer key is as good as its digest. Otherwise, authentication data that verifies for two messages, with whatever keys, means the messages are the same and the keys interchangeable, or exhibits two inputs with the same SHA digest.", "quantifier": "all messages, all keys of any length, all histories of registrations", "why_tests_cant": "all keys and messages", "anchors": ["pylisp/packet/lisp/control/map_register.py:MapRegisterMessage.calculate_authentication_data", "pylisp/packet/lisp/control/map_notify.py:MapNotifyMessage.calculate_authentication_data", "pylisp/packet/lisp/control/info_message.py:InfoMessage.calculate_authentication_data"]}
{"id": "C113", "title": "Addresses and networks as text", "statement": "A text given to the daemon or read from a file is taken for an address exactly if it is an IPv4 address in dotted decimal notation or an IPv6 address in the notation of RFC 4291 (groups, one '::', an IPv4 address at the end), and it then stands for that address and no other; it is taken for a network exactly if it is an address, or an address and a prefix length (in IPv4 also a network mask, or an inverted one) with no host bits set. What the daemon prints for an address or network (for the operating system, for logs) is read back as the same, so different ones are printed differently; it is the one canonical text of the address (dotted decimal without leading zeros; RFC 5952, section 4), whatever text it was read from; the names it gives to xTRs in the Map-Server are different for different xTRs and never the text of an address. A DDT root file written from entries loads as exactly these entries.", "quantifier": "all texts, all addresses and networks of both families, all lists of entries", "why_tests_cant": "unboundedly many texts; 2^128 addresses", "anchors": ["pylisp/application/lispd/utils/ddt_root_loader.py:load_ddt_root", "pylisp/application/lispd/address_tree/map_server_node.py:MapServerNode.handle_map_register_record", "pylisp/application/lispd/send_message.py:send_message", "pylisp/application/lispd/address_tree/base.py:AbstractNode"]}
{"id": "C114", "title": "lispd serves what its configuration files say", "statement": "Each setting has the value of the last configuration file that defines it, or its default; by default lispd listens on the addresses its host name resolves to, without their scope. A configuration is accepted exactly if LISTEN_ON lists address objects or texts of addresses, INSTANCES maps integers to containers for the whole address space of both families, PETR is an address or None, NATT a boolean and the queue numbers integers or None; a refused configuration or a configuration file that raises gives exit status 1. An accepted one gives exit status 2 if there is nothing to listen on, an entry of an instance is no node, or queues are missing or cannot be read; otherwise lispd serves port 4342 of exactly the addresses listed, in their order, and with PROCESS_DATA port 4341 of the same addresses and the queues, and every node of every tree has these sockets.", "quantifier": "all resolver results, all sequences of configuration files, all values of settings", "why_tests_cant": "unboundedly many combinations of files and values", "anchors": ["pylisp/application/lispd/settings.py:Settings", "pylisp/application/lispd/settings.py:fix_config", "pylisp/application/lispd/settings.py:default_listen_on", "scripts/lispd:main", "scripts/lispd:create_sockets"]}
{"id": "C115", "title": "An accepted configuration can register", "statement": "Whenever lispd serves with a configuration, the Map-Registers it builds with the configured xTR-ID and site-ID can be sent.", "quantifier": "all configurations, keys, prefixes, locators and nonces", "why_tests_cant": "unboundedly many configurations; the defaults work", "anchors": ["pylisp/application/lispd/settings.py:fix_config", "pylisp/application/lispd/address_tree/etr_node.py:MapRegister"]}
{"id": "C116", "title": "A replayed Map-Register does not undo a newer registration", "statement": "Once a source's registration of a prefix has been replaced by that of a later Map-Register, the earlier Map-Register arriving again (delayed, duplicated or replayed by someone without the key) does not bring the old record back.", "quantifier": "all histories of Map-Registers and cleanup passes at a Map-Server, all keys and sources", "why_tests_cant": "adversarial schedules: any old message can arrive at any time", "anchors": ["pylisp/application/lispd/address_tree/map_server_node.py:handle_map_register_record", "pylisp/packet/lisp/control/map_register.py:nonce"]}
{"id": "C117", "title": "What a Map-Server has registered was announced by someone who has its key", "statement": "Whatever a network does that delivers, drops, delays, reorders, repeats and makes up datagrams but cannot make MACs without the key: every registration in a Map-Server node of a running lispd (prefix, record, proxy flag, xTR) is the announcement of an ETR that has the node's key. If one ETR has the key, everything registered is for its prefix with its configured locators, priorities and weights (or an RTR in the place of a local one).", "quantifier": "all sequences of datagrams, cleanup passes and schedules, all configurations, keys and announcements, every MAC function", "why_tests_cant": "adversarial networks", "anchors": ["pylisp/application/lispd/address_tree/map_server_node.py:handle_map_register_record", "pylisp/packet/lisp/control/map_register.py:verify_authentication_data", "pylisp/application/lispd/address_tree/etr_node.py:MapRegister"]}
{"id": "C118", "title": "An ETR whose registration is confirmed is registered", "statement": "When the registration with a key of an ETR that asked for a Map-Notify succeeds (register() returns True), a Map-Server node with that key registered exactly this announcement (prefix, locators, proxy flag, xTR), whatever the network did with the datagrams in between short of making MACs without the key; it stays registered until a later message of the same source replaces it or it expires.", "quantifier": "all histories of datagrams at the Map-Server, all sequences of attempts and answers at the ETR, all configurations and MAC functions", "why_tests_cant": "adversarial networks, all interleavings", "anchors": ["pylisp/application/lispd/address_tree/etr_node.py:register", "pylisp/application/lispd/address_tree/etr_node.py:notify_content_ok", "pylisp/application/lispd/message_handler.py:handle_map_register"]}
{"id": "C119", "title": "A container finds and discards its children by prefix and by object", "statement": "In a container whose children do not overlap: find_all gives exactly the children that share an address with the prefix asked for; find_exact gives the child with exactly this prefix, `prefix in container` tells whether there is one, and discard(prefix) removes it and no other; `node in container` and discard(node) are about that very object, clear removes all, and a node that was added (inside the container's prefix, apart from the children) is found both ways.", "quantifier": "all containers, prefixes of both families and nodes", "why_tests_cant": "unboundedly many trees and prefixes", "anchors": ["pylisp/application/lispd/address_tree/container_node.py:find_exact", "pylisp/application/lispd/address_tree/container_node.py:__contains__", "pylisp/application/lispd/address_tree/container_node.py:discard", "pylisp/application/lispd/address_tree/container_node.py:add", "pylisp/application/lispd/address_tree/container_node.py:clear"]}
{"id": "C120", "title": "The threads of a node run until they are told to stop", "statement": "A registration thread of an ETR node and the cleanup thread of a Map-Server node end only after stop() was called (by remove_etr_registration, or because the node was dropped): no exception in a pass ends them, and after each pass and the time of the wait there is another one. Once told to stop, a thread begins no further pass and ends as soon as the one it may be in is over, at once if it waits. When the node is dropped, every thread it ever had has been told to stop, and a pass under way does nothing more with the node.", "quantifier": "all histories of passes, exceptions, waits, stop() and dropping the node", "why_tests_cant": "threads, timing, exceptions at any point", "anchors": ["pylisp/application/lispd/address_tree/etr_node.py:MSRThread.run", "pylisp/application/lispd/address_tree/map_server_node.py:MSCleanupThread.run", "pylisp/application/lispd/address_tree/etr_node.py:__del__"]}
{"id": "C121", "title": "Which configuration file counts", "statement": "lispd looks for settings.py in /etc/lispd, in ../etc/lispd relative to the directory of its executable and in ~/.pylisp/lispd; a setting has the value of the user's file if that defines it, otherwise of the installation's, otherwise of the system's, otherwise its default. get_config_paths(name) gives the same three places for any relative name, and just the file itself for an absolute one.", "quantifier": "all names, home directories, installation directories and file contents", "why_tests_cant": "unbounded texts and file systems", "anchors": ["pylisp/application/lispd/settings.py:get_config_paths", "pylisp/application/lispd/settings.py:get_potential_config_files"]}
{"id": "C122", "title": "Answers are not an amplifier", "statement": "Whatever datagram arrives at the control or data port and whatever the state of lispd, the Map-Notify or Map-Referral sent in answer is no longer than that datagram; a Map-Reply has at most 40 octets plus 24 for every locator configured at, and every RTR known to, the ETR node it answers for, however long the Map-Request was.", "quantifier": "all configurations, states, datagrams, arrival addresses and clocks", "why_tests_cant": "unbounded messages, nesting and configurations", "anchors": ["pylisp/application/lispd/message_handler.py:handle_map_register", "pylisp/application/lispd/address_tree/ddt_referral_node.py:handle_ddt_map_request", "pylisp/application/lispd/message_handler.py:handle_map_request", "pylisp/application/lispd/address_tree/etr_node.py:handle_map_request"]}
{"id": "C123", "title": "Map-Servers do not disturb each other, and answers do not depend on past datagrams", "statement": "What a Map-Server node has registered after any history is the same as if every datagram without a record for that node, and every cleanup pass of other nodes, had not happened, and as if the other nodes had begun with other registrations. What lispd sends in answer to an event depends on the configuration, the event and what the registration threads of the ETR nodes did, and on nothing received before.", "quantifier": "all configurations without shared nodes, pairs of states with the same settings, histories and sub-histories", "why_tests_cant": "pairs of unbounded histories", "anchors": ["pylisp/application/lispd/message_handler.py:handle_map_register", "pylisp/application/lispd/message_handler.py:handle_map_request", "pylisp/application/lispd/message_handler.py:handle_message", "pylisp/application/lispd/address_tree/map_server_node.py:handle_map_register_record"]}
{"id": "C124", "title": "Reserved bits are sent as zero", "statement": "In every Map-Reply, Map-Referral, Map-Register, Info-Request and encapsulated message that lispd makes, and in the messages of map_resolve, ddt_query and map_register, all reserved bits of the header, of the records and of the locators are zero, whatever was received or configured; in a Map-Notify those of the header are zero and those of every record are the ones of the Map-Register record it confirms. A receiver reads the reserved bits that were sent.", "quantifier": "all configurations, states, events, keys, nonces, locator sets", "why_tests_cant": "unbounded inputs, states and record lists", "anchors": ["pylisp/application/lispd/message_handler.py:handle_map_register", "pylisp/application/lispd/address_tree/etr_node.py:handle_map_request", "pylisp/application/lispd/address_tree/etr_node.py:MapRegister", "pylisp/application/lispd/address_tree/ddt_referral_node.py:handle_ddt_map_request"]}
{"id": "C125", "title": "Every message class decodes exactly the messages of its own type", "statement": "from_bytes of a control message class gives on every byte string that announces the type of the class (in its first four bits) exactly what ControlMessage.from_bytes gives, exceptions included, and raises ValueError on every other non-empty byte string and bitstring's ReadError on the empty one. ControlMessage.from_bytes only returns messages of the announced type, raises ValueError for unregistered types, and no byte string is a message of two classes. to_bytes of a message, whatever its fields, announces the type of its class.", "quantifier": "all byte strings, all message objects", "why_tests_cant": "unbounded inputs", "anchors": ["pylisp/packet/lisp/control/base.py:from_bytes", "pylisp/packet/lisp/control/map_register.py:from_bytes", "pylisp/packet/lisp/control/map_reply.py:from_bytes", "pylisp/packet/lisp/control/encapsulated_control_message.py:from_bytes"]}
{"id": "C126", "title": "Every address has a text that identifies it", "statement": "unicode() of an address never raises, different addresses (that differ in more than wrappers for instance 0 and the mask lengths of instances) have different texts, the text is the address in its canonical notation, with [instance], [ASnumber] or [longitude,latitude] in front, or the parts of a NAT address, and it is read by ip_address exactly if the address is an IP address, possibly in instance 0, and gives that address back; likewise for ip_network.", "quantifier": "all address objects of all classes, nested to any depth", "why_tests_cant": "unbounded nesting", "anchors": ["pylisp/utils/afi.py", "pylisp/utils/lcaf/instance_address.py:LCAFInstanceAddress", "pylisp/utils/lcaf/afi_list_address.py:LCAFAFIListAddress", "pylisp/utils/lcaf/geo_address.py:LCAFGeoAddress", "pylisp/utils/lcaf/autonomous_system_address.py:LCAFAutonomousSystemAddress"]}
{"id": "C127", "title": "The Map-Notify that confirms a registration is one Map-Notify", "statement": "Whatever the main thread and the registration thread do in whatever order: if a Map-Register that asks for a Map-Notify is taken as confirmed, then one Map-Notify from its Map-Server, heard while the registration was running, meets every condition (authentic, nonce, key id, xTR-ID, site-ID, number of records, every registered record repeated in it).", "quantifier": "all interleavings, step by step, of the thread that registers with the thread that handles messages, any number of Map-Notifies, any time-outs, any stop request", "why_tests_cant": "a race of a few bytecodes between two threads", "anchors": ["pylisp/application/lispd/address_tree/etr_node.py:notify_content_ok", "pylisp/application/lispd/address_tree/etr_node.py:set_notify_if_matches", "pylisp/application/lispd/address_tree/etr_node.py:register", "pylisp/application/lispd/address_tree/etr_node.py:handle_map_notify_record"]}
{"id": "C128", "title": "NAT detection looks at one complete Info-Reply", "statement": "Whatever the main thread and the registration thread do in whatever order: if a NAT is found, one Info-Reply from the Map-Server with the request's nonce shows another address than one the request was sent from, or another port than 4342 (or RTRs are forced), and the result is that Info-Reply with that address as the private one; 'no NAT' is found only if such a reply shows none, none was recorded when the thread decided, or it was asked to stop.", "quantifier": "all interleavings, step by step, of the thread that registers with the thread that handles messages, any number of Info-Replies, any time-outs, any stop request", "why_tests_cant": "a race of a few bytecodes between two threads", "anchors": ["pylisp/application/lispd/address_tree/etr_node.py:set_reply_if_matches", "pylisp/application/lispd/address_tree/etr_node.py:get_nat_info", "pylisp/application/lispd/address_tree/etr_node.py:handle_info_message_reply"]}
{"id": "C129", "title": "No change of the RTRs is missed by the other registrations", "statement": "However the registration threads of a prefix interleave: when none of them is in the middle of a pass, each of them that has registered has either announced, in its last Map-Register, exactly the RTRs that the NAT detections of all registrations of the prefix have last found, or it will send a new Map-Register in its next pass; and when the NAT detections find nothing new, one more pass of each leaves all of them with the same RTRs announced and none with a reason to register again.", "quantifier": "any number of registrations of one prefix, any sequences of NAT detection results, all interleavings of their threads, access by access", "why_tests_cant": "a race of a few bytecodes between threads; the window is narrow and a missed signal shows only at the map-servers", "anchors": ["pylisp/application/lispd/address_tree/etr_node.py:run", "pylisp/application/lispd/address_tree/etr_node.py:set_rtrs", "pylisp/application/lispd/address_tree/etr_node.py:get_rtrs", "pylisp/application/lispd/address_tree/etr_node.py:get_etr_locators", "pylisp/application/lispd/address_tree/etr_node.py:_locators_have_changed"]}
{"id": "C130", "title": "What is announced while addresses change", "statement": "While a registration thread collects the locators, the addresses of the interfaces can change at any moment. Every locator that is announced has the priorities and weights of a configured one and an address its interface had during the collection, or is an RTR that replaces one that had the address of a socket; never the unspecified address. A configured locator whose interface has an address throughout is announced, or the RTRs are. If nothing changes, the announcement is that of C57.", "quantifier": "all sets of locators, sockets and RTRs, all changes of all addresses at any moment of the collection, also several", "why_tests_cant": "the window is a few bytecodes wide and needs a SIGHUP in it", "anchors": ["pylisp/application/lispd/address_tree/etr_node.py:get_etr_locators", "pylisp/utils/auto_addresses.py:update_addresses", "pylisp/utils/auto_addresses.py:update_address"]}
{"id": "C131", "title": "The reported source is where the datagram left from", "statement": "While the main thread follows a change of address, other threads send. Every datagram that is sent leaves from the port of the socket and an address the socket was given and may be bound to; send_message reports that address; and it raises no exception but those of the operating system.", "quantifier": "all histories of address changes and system call outcomes, any number of sending threads, all interleavings", "why_tests_cant": "the windows are a few bytecodes wide; tests send from sockets that are not rebound meanwhile", "anchors": ["pylisp/utils/auto_socket.py:rebind", "pylisp/utils/auto_socket.py:sendto", "pylisp/utils/auto_socket.py:getsockname", "pylisp/application/lispd/send_message.py:send_message"]}
{"id": "C132", "title": "A registration that is cut short stops and leaves nothing behind", "statement": "A pass of a registration thread sends its Info-Request at most three times and its Map-Register at most three times. Told to stop, it leaves its attempts within a few steps, having sent at most one message more, and announces nothing it knows to be wrong. However the pass ends, none of its requests is left in the lists of outstanding requests.", "quantifier": "all interleavings, step by step, of a registration thread with the thread that handles messages, any number of answers, any time-outs, a stop request at any moment, any exception of the operating system", "why_tests_cant": "stop requests and errors at every moment of a pass; what is left behind shows only as memory and time", "anchors": ["pylisp/application/lispd/address_tree/etr_node.py:get_nat_info", "pylisp/application/lispd/address_tree/etr_node.py:register", "pylisp/application/lispd/address_tree/etr_node.py:run", "pylisp/application/lispd/address_tree/etr_node.py:stop"]}
{"id": "C133", "title": "A change of address reaches the Map-Server", "statement": "When the addresses of the interfaces stop changing, an attempt to register begins within 60 s plus the longest time G the thread is held up, and what every attempt from then on announces are the current addresses (or RTRs in their place), all of them and no other. If the Map-Registers arrive within d and not later, the Map-Server has exactly the current addresses registered from 60 s + G + 2 d after the last change on, as long as the ETR works.", "quantifier": "all changes of all addresses at any time, reads of the addresses at any moment of an attempt, all delays within the bounds, all executions of the thread, all other traffic at the Map-Server, all schedules of its cleanup thread", "why_tests_cant": "an address changes during, before and after attempts, messages with old addresses are on their way; a test has one change and one registration", "anchors": ["pylisp/application/lispd/address_tree/etr_node.py:get_etr_locators", "pylisp/application/lispd/address_tree/etr_node.py:run", "pylisp/utils/auto_addresses.py:AutoAddress", "pylisp/application/lispd/address_tree/map_server_node.py:handle_map_register_record"]}
{"id": "C134", "title": "A registration uses a NAT detection that is not old", "statement": "Every registration uses the result of the last NAT detection that came to a result. If a Map-Notify is forced, that detection was made in the same pass of the thread; otherwise it is at most 15 minutes old and every registration that returned since then was successful. What get_rtrs has recorded for the registration are the RTRs of the last registration that returned. If they are not those of the one before, the next pass registers again (unless NAT detection fails there); if they are the same, it does nothing unless a minute has passed or something changed.", "quantifier": "all results and exceptions of get_nat_info and register in every pass, all times between passes, all changes signalled by others at any moment, all histories", "why_tests_cant": "the loop carries two times, two flags, the last NAT information and the recorded RTRs from pass to pass, and an exception leaves some of them as they were", "anchors": ["pylisp/application/lispd/address_tree/etr_node.py:run", "pylisp/application/lispd/address_tree/etr_node.py:set_rtrs", "pylisp/application/lispd/address_tree/etr_node.py:get_nat_info", "pylisp/application/lispd/address_tree/etr_node.py:register"]}
{"id": "C135", "title": "NAT is found exactly if there is one", "statement": "When a Map-Server answers Info-Requests with the source address and port it has seen, an ETR whose requests all leave from one address and are answered finds NAT exactly if the path translates that address or the port 4342, and then knows the translated address and port and its own address; without an answer it assumes no NAT.", "quantifier": "all translations of addresses and ports, all histories of requests, lost and late answers and messages from others", "why_tests_cant": "which answer belongs to which request depends on losses and delays, and a test has one translation", "anchors": ["pylisp/application/lispd/address_tree/etr_node.py:get_nat_info", "pylisp/application/lispd/address_tree/etr_node.py:set_reply_if_matches", "pylisp/application/lispd/address_tree/etr_node.py:InfoRequest"]}
{"id": "C136", "title": "No datagram exhausts the interpreter's stack", "statement": "Decoding an address or a packet never needs more nested calls of the decoder than Python allows, whatever a datagram contains; and if there is room for them, the result does not depend on how much room there is.", "quantifier": "all byte strings a datagram can carry, as addresses and as packets of every kind", "why_tests_cant": "what nests most deeply is not what a test sends; the bound is about every content of a given size", "anchors": ["pylisp/utils/afi.py:read_afi_address_from_bitstream", "pylisp/utils/lcaf/base.py:from_bytes", "pylisp/utils/lcaf/afi_list_address.py:_from_data_bytes", "pylisp/packet/ip/ipv6/hop_by_hop_options_header.py:from_bytes", "pylisp/packet/ip/ipv6/base.py:from_bytes", "pylisp/packet/lisp/control/encapsulated_control_message.py:from_bytes"]}
{"id": "C137", "title": "Everything lispd sends fits into a datagram", "statement": "What lispd hands to a UDP socket is never longer than the 65507 octets a datagram over IPv4 can carry: answers, Map-Registers with any number of locators and RTRs, directly or through an RTR, Info-Requests, and packets it encapsulates.", "quantifier": "all configurations, states, received datagrams, locators, keys and packets from the queue", "why_tests_cant": "the longest message depends on configuration and input together, and a message that is too long only fails in the socket", "anchors": ["pylisp/application/lispd/send_message.py:send_message", "pylisp/application/lispd/address_tree/etr_node.py:MapRegister", "pylisp/application/lispd/address_tree/etr_node.py:InfoRequest", "pylisp/application/lispd/message_handler.py:handle_message", "scripts/lispd:nfqueue_callback"]}
{"id": "C138", "title": "A datagram that arrives twice counts once", "statement": "UDP may deliver a datagram twice. When a Map-Register arrives a second time (at once, or after other things that do not concern the registration), every registration is what it was before the second arrival, in force for as long or longer; a second Map-Notify or Info message changes nothing and is not answered; any datagram gets the same answer the second time.", "quantifier": "all configurations, histories, datagrams on both ports and things happening in between", "why_tests_cant": "a test sends each datagram once", "anchors": ["pylisp/application/lispd/message_handler.py:handle_message", "pylisp/application/lispd/address_tree/map_server_node.py:MapServerNode.handle_map_register_record", "pylisp/application/lispd/address_tree/etr_node.py:MapRegister", "pylisp/application/lispd/address_tree/etr_node.py:InfoRequest"]}
{"id": "C139", "title": "The order in which datagrams of different senders arrive does not matter", "statement": "If datagrams overtake each other on the way, in any number, but never a Map-Register one of the same sender (the xTR if it gives its id, otherwise the address), then the same prefixes are registered with the same records until the same time, and every datagram gets the answer it would have got.", "quantifier": "all configurations, histories, datagrams and reorderings", "why_tests_cant": "the number of orders grows with the factorial of the number of datagrams", "anchors": ["pylisp/application/lispd/message_handler.py:handle_message", "pylisp/application/lispd/message_handler.py:handle_map_register", "pylisp/application/lispd/address_tree/map_server_node.py:MapServerNode.handle_map_register_record", "pylisp/application/lispd/address_tree/map_server_node.py:MSCleanupThread.run"]}
{"id": "C140", "title": "A sender's registrations are touched by its own Map-Registers only", "statement": "If datagrams are lost, or any others arrive in addition, none of them a Map-Register in the name of a sender (its xTR-ID and site-ID, or its address if it gives no xTR-ID), then this sender's registrations at every node are exactly the same. In particular nobody can remove, replace, prolong or add a registration of a sender without claiming to be that sender, not even with the key.", "quantifier": "all configurations, histories and sets of datagrams lost and added", "why_tests_cant": "an interfering datagram can be anything at any moment", "anchors": ["pylisp/application/lispd/message_handler.py:handle_message", "pylisp/application/lispd/message_handler.py:handle_map_register", "pylisp/application/lispd/address_tree/map_server_node.py:MapServerNode.handle_map_register_record", "pylisp/application/lispd/address_tree/map_server_node.py:MSCleanupThread.run"]}
{"id": "C141", "title": "A Map-Server that was restarted recovers", "statement": "lispd keeps registrations in memory. After a restart a registration is missing until the sender registers again; from then on it is what it would be without the restart; and after the first cleanup pass more than 180 seconds after the last datagram before the restart, everything registered at that node is.", "quantifier": "all configurations and all histories before and after the restart", "why_tests_cant": "the two histories, with and without restart, have to be compared for every continuation", "anchors": ["pylisp/application/lispd/address_tree/map_server_node.py:MapServerNode.__init__", "pylisp/application/lispd/address_tree/map_server_node.py:MapServerNode.handle_map_register_record", "pylisp/application/lispd/address_tree/map_server_node.py:MSCleanupThread.run", "pylisp/application/lispd/message_handler.py:handle_map_register"]}
{"id": "C142", "title": "How often the cleanup threads run does not matter in the end", "statement": "After a pass of a Map-Server's cleanup thread at time t, what is registered there does not depend on which other passes (of any thread, for times up to t) were made before; and no pass changes any answer.", "quantifier": "all configurations, histories and sets of passes left out and added", "why_tests_cant": "the passes are made by a thread, at moments nobody chooses", "anchors": ["pylisp/application/lispd/address_tree/map_server_node.py:MSCleanupThread.run", "pylisp/application/lispd/address_tree/map_server_node.py:MapServerNode.handle_map_register_record", "pylisp/application/lispd/message_handler.py:handle_message"]}
{"id": "C143", "title": "A Map-Server holds no more than it was asked to hold in the last three minutes", "statement": "After a cleanup pass for time t a Map-Server node holds at most as many registrations as there were records in the Map-Registers handled since 180 seconds before t, whatever was received before; without any it holds nothing. At no time does an empty table stay behind for a prefix.", "quantifier": "all configurations and histories", "why_tests_cant": "growth shows only in long runs, and only if the input is varied enough", "anchors": ["pylisp/application/lispd/address_tree/map_server_node.py:MSCleanupThread.run", "pylisp/application/lispd/address_tree/map_server_node.py:MapServerNode.handle_map_register_record"]}
{"id": "C144", "title": "The order of the nodes in the configuration does not matter", "statement": "Children of containers are kept in sets, whose order is nobody's. Two daemons whose configurations contain the same nodes in another order, at any depth, started in the same state, send the same messages and are in the same state after every history.", "quantifier": "all configurations, reorderings, states and histories", "why_tests_cant": "the order of a Python set depends on addresses in memory", "anchors": ["pylisp/application/lispd/address_tree/container_node.py:ContainerNode.resolve_path", "pylisp/application/lispd/message_handler.py:handle_message", "pylisp/application/lispd/address_tree/ddt_referral_node.py:handle_ddt_map_request", "pylisp/application/lispd/message_handler.py:handle_map_register"]}
{"id": "C145", "title": "An answer is not answered", "statement": "Whatever message a datagram makes lispd send, when its octets arrive at the control port of any lispd, this one or another with any configuration and state, nothing is sent and no registration and no ETR node changes. So two daemons never keep each other busy: a datagram sets off one message, and that is the end.", "quantifier": "all configurations, states, datagrams and addresses of arrival", "why_tests_cant": "a message loop needs two daemons and the right message", "anchors": ["pylisp/application/lispd/message_handler.py:handle_message", "pylisp/application/lispd/message_handler.py:handle_map_reply", "pylisp/application/lispd/message_handler.py:handle_map_notify", "pylisp/application/lispd/message_handler.py:handle_map_referral"]}
{"id": "C146", "title": "How records are grouped into Map-Registers does not matter", "statement": "Whether an ETR sends its records in one Map-Register or each in a Map-Register of its own, with the same identification, proxy bit and key and arriving from the same address at the same times, anywhere in the history of a lispd, every Map-Server node ends with the same registrations.", "quantifier": "all configurations in which a node id names one node, histories before and after, Map-Registers, keys, times, prefixes and senders", "why_tests_cant": "the ways to split a message and the histories around it are unbounded", "anchors": ["pylisp/application/lispd/message_handler.py:handle_map_register", "pylisp/application/lispd/address_tree/map_server_node.py:MapServerNode.handle_map_register_record"]}
