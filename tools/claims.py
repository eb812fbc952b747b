c("C01","proved",["C01_afi_roundtrip"])
c("C02","proved",["C02_prefix_roundtrip"])
c("C03","proved",["C03_prefix_exact","C03_no_address"])
c("C04","proved",["C04_decode_total","C04_fuel_irrelevant","C04_decode_local"])
c("C05","proved",["C05_decoded_stable","C05_decoded_plain","C05_decoded_prefix","C05_decoded_wf"])
c("C06","proved",["C06_get_addresses"])
c("C24","proved",["C24_map_request_roundtrip"])
c("C25","proved",["C25_map_reply_roundtrip"])
c("C26","proved",["C26_map_register_roundtrip"])
c("C27","proved",["C27_map_notify_roundtrip"])
c("C28","proved",["C28_map_referral_roundtrip"])
c("C29","proved",["C29_info_roundtrip"])
c("C32","partial",["C32_parsed_messages_stable","C32_map_request_lcaf_eid_refuted","C32_parsed_objects","C32_map_request_exact"],"False of the code for Map-Requests with an LCAF EID: such a message parses but cannot be serialised (counterexample proved). Proved for every other message; for Map-Requests exactly when it holds: if and only if every EID is a prefix, plain or in an instance-0 address, and after one more trip nothing changes any more.")
c("C33","proved",["C33_address_layout","C33_locator_layout","C33_mapping_record_layout","C33_referral_record_layout","C33_map_request_layout","C33_map_reply_layout","C33_map_register_layout","C33_map_notify_layout","C33_map_referral_layout","C33_info_layout"])
c("C34","proved",["C34_too_many_refused","C34_long_lcaf_refused"])
c("C35","proved",["C35_locators_sorted_complete","C35_order_independent"])
c("C36","partial",["C36_ipv4_first_refuted","C36_ipv4_first_partial"],"False of the code: the sort key is the bare integer, so an IPv6 locator in ::/96 sorts before larger IPv4 ones (counterexample proved). Proved: it holds for all IPv6 locators outside ::/96.")
c("C37","proved",["C37_locator_accepted_iff","C37_no_forbidden_locators"])
c("C38","partial",["C38_lcaf_locators_refuted","C91_records"],"False of the code: every locator whose address is an LCAF with at least one inner address is refused (proved for all of them).")
c("C39","proved",["C39_referral_table"])
c("C40","partial",["C40_up_to_255_eids_refuted","C40_at_most_32_eids_partial","C91_map_request"],"False of the code: 33..255 EIDs are refused (proved); proved: exactly 1..32 are accepted.")

c("C07","proved",["C07_internet_checksum","C07_range_and_congruence"])
c("C08","proved",["C08_emitted_ipv4_checksum"])
c("C09","proved",["C09_corrupted_word_rejected","C09_flipped_bit_rejected"])
c("C10","proved",["C10_computed_checksum_verifies","C10_zero_checksum_verifies","C10_computed_value"])
c("C11","proved",["C11_verifies_iff_sum","C11_changed_word_detected"])
c("C12","proved",["C12_ipv4_round_trip","C12_ipv4_object_payload"])
c("C13","partial",["C13_options_never_reparse","C13_refuted"],"False of the code: the total length field leaves the options out, so no packet with options that to_bytes emits is ever accepted again (proved for all of them).")
c("C14","proved",["C14_accepted_ipv4"])
c("C15","proved",["C15_ipv6_round_trip","C15_accepted_ipv6"])
c("C16","proved",["C16_hop_by_hop","C16_destination_options","C16_routing","C16_fragment"])
c("C17","proved",["C17_udp_round_trip","C17_bytes_round_trip","C17_udp_accepted"])
c("C18","proved",["C18_ipv4_protocol_field","C18_ipv6_next_header_field","C18_other_payloads"])
c("C19","partial",["C19_next_header_as_stored","C19_refuted"],"False of the code: extension headers never look at their payload (counterexample proved); what they do emit is proved for all of them (C68).")
c("C20","proved",["C20_stacks_stable","C20_no_depth_bound","C20_lcaf_request_not_stable"],"C20_lcaf_request_not_stable shows that the exception for LCAF EIDs is needed.")
c("C21","proved",["C21_ipv6_inspection","C21_ipv4_inspection","C21_get_udp"])
c("C22","proved",["C22_data_round_trip","C22_bytes_round_trip"])
c("C23","proved",["C23_data_header_layout"])
c("C30","partial",["C30_ecm_round_trip_partial","C30_rtr_flags_lost","C30_refuted"],"False of the code for for_rtr and relayed_by_rtr, which are neither written nor read (proved for all messages). Proved for the other flags and the payload.")
c("C31","proved",["C31_dispatch","C31_other_types_rejected","C31_empty_rejected","C31_emitted_type"])
c("C67","partial",["C67_failed_computation_clears_checksum","C67_refuted"],"False of the code: a failure while serialising leaves checksum 0, after which the message verifies (counterexample and general form proved).")
c("C68","proved",["C19_next_header_as_stored"])
c("C69","proved",["C20_no_depth_bound"],"In the model running out of fuel is a distinct outcome (EFuel); it is proved impossible for every input.")

c("C41","proved",["C41_inserted_verifies"],"For every HMAC function with digests of 20 and 32 bytes.")
c("C42","proved",["C42_verify_iff_mac","C42_same_mac_same_message"])
c("C43","partial",["C43_calculate_unchanged_partial","C43_exception_keeps","C43_exception_refuted"],"False of the code when serialisation raises: the authentication data stays zeroed (counterexample and general form proved). Proved for all successful calls, and that an exception changes nothing else (locators may be sorted and actions of records with locators cleared).")
c("C44","partial",["C44_received_bytes_partial","C44_received_bytes_refuted"],"False of the code: a Map-Register with the I bit and unspecified ids is re-serialised without them before hashing, so for every HMAC function the correct MAC is refused unless the function collides. Proved when the received bytes are the canonical serialisation.")
c("C45","proved",["C45_never_rebound"])

c("C46","proved",["C46_longest_prefix_match","C46_address_lookup","C46_order_independent","C46_instances"])
c("C47","partial",["C47_children_partial","C47_no_overlap_partial","C47_children_overlap_refuted"],"False of the code: two different nodes with the same prefix can both be added (counterexample proved). Proved for all histories: children lie inside, overlapping children have the same prefix, no prefix occurs three times, and nothing overlaps unless two different nodes with the same prefix are handed over.")
c("C48","proved",["C48_authority","C48_refused_add"])
c("C49","partial",["C49_old_child_stays","C49_refuted"],"False of the code: for every tidy container the old child stays and lookups raise MoreSpecificsFoundError from then on (proved for all of them).")
c("C50","partial",["C50_remove_inverted","C50_refuted"],"False of the code: remove raises KeyError exactly when the node was present (proved for all containers).")
c("C70","partial",["C70_copy_children_partial","C70_refuted"],"False of the code for AuthContainerNode: the DDT nodes are lost (proved). Prefix and children proved.")

c("C51","proved",["C51_store_refines","C51_no_empty_entries","C51_daemon","C51_locators_print","C51_verified_locators_print"],"C51_daemon lifts it from one Map-Server node to every node of a daemon handling whole Map-Registers.")
c("C52","proved",["C52_in_scope","C52_acceptable_is_registered"])
c("C53","partial",["C53_key_holders_partial","C53_anyone_can_register","C53_refuted"],"False of the code: a Map-Register with key id 0 and empty authentication data is accepted for every prefix in scope, whatever the key (proved for all of them). Proved: every registration from a message with key id 1 or 2 carries the MAC under the node's key.")
c("C54","proved",["C54_notify_content"])

c("C62","proved",["C62_attempts_in_order","C62_right_family","C62_no_address","C62_unbound_sockets"])
c("C63","proved",["C63_bound_to_current_address","C63_binds","C63_reads_and_writes"])
c("C64","proved",["C64_follows_interface","C64_deterministic"])
c("C65","proved",["C65_numbers","C65_range_and_distinct"])
c("C66","partial",["C66_accepts_exactly","C66_missing_family_refused","C66_refuted"],"False of the code: the containers are stored under key 4, so every configuration with a missing family is refused (proved for all of them, with the exact set of accepted configurations).")
c("C71","partial",["C71_open_socket_current_partial","C71_failed_bind_not_retried","C71_refuted"],"False of the code: a failed bind is not tried again until the address changes (proved for all histories). Proved: an open socket is always bound to the current address.")
c("C72","proved",["C72_xtr_id","C72_distinct"])

c("C55","partial",["C55_only_not_authoritative","C55_actual_partial","C55_unconfigured","C55_security","C55_answer_arrives","C55_root_never_refers","C55_refuted"],"False of the code: NODE-REFERRAL and MS answers raise (LocatorRecord has no parameter 'locator'; Map-Server nodes have no ddt_nodes) and DELEGATION-HOLE is never sent, so the only answer ever put on the wire is NOT-AUTHORITATIVE (proved for every configuration and request); exact behaviour proved for all tidy trees.")
c("C56","proved",["C56_accepted","C56_accepted_all","C56_delegated","C56_nothing_else","C56_bad_prefix"],"For what the lines say; the text is C105.")

c("C57","partial",["C57_announced_partial","C57_other_addresses_raise","C57_shown_rtrs","C57_refuted"],"False of the code when an address of one family has the number of a socket of the other: only the integers are compared. Proved exactly for all other configurations, in whatever order the set is iterated.")
c("C58","proved",["C58_reply","C58_answered","C58_ignored","C58_arrives"])
c("C59","partial",["C59_accepts_partial","C59_authentic","C59_key_zero_anyone","C59_mismatch_raises","C59_refuted"],"False of the code: locators are compared but a difference is only logged (for every HMAC there is an accepted notify with other locators). Proved: the exact set of accepted notifies; an xTR-ID or Site-ID mismatch raises KeyError instead of returning False.")
c("C60","partial",["C60_after_success","C60_after_failure","C60_at_start","C60_signal_lost_refuted","C60_nat_blocks_refuted","C60_not_earlier_refuted"],"The exact behaviour of every iteration after success and after failure is proved for all runs. False as stated: a signalled change is lost when the registration raises; NAT detection that raises blocks the periodic registration; a NAT refresh registers earlier than 60 s.")
c("C61","partial",["C61_change_ignored","C61_refuted","C61_rtr_change","C61_first_rtrs"],"False of the code: on_locator_change is called without its argument and then calls a method that does not exist; both exceptions are swallowed, so no thread ever sees a change of address (proved for all states). A change of the RTRs does reach all threads.")

c("C73","proved",["C73_control_datagram","C73_data_datagram","C73_etr_nodes"],"Raw forwarding of data packets is the one other output of the data port.")
c("C74","partial",["C74_registered_iff_in_force","C74_records_not_independent"],"The exact content of every Map-Server node after every history of the whole daemon is proved. False of the code: one record whose EID cannot be looked up (prefix shorter than two or more configured ones: MoreSpecificsFoundError) drops all later records of the same Map-Register (proved).")
c("C75","proved",["C75_control_in_data","C75_only_control"],"For every byte string, parsable or not.")
c("C76","partial",["C76_forwarded_partial","C76_where_to","C76_options_corrupted","C76_udp_fragments_dropped","C76_refuted"],"False of the code: the inner packet is parsed to the bottom and serialised again, so IPv4 fragments of UDP messages are dropped, packets with IPv4 options leave with a wrong total length (proved for all of them) and reserved bits of fragment headers and of inner LISP messages are cleared. Proved: stacks of IPv4 without options, IPv6, extension headers other than fragment, and UDP outside the LISP ports pass unchanged; whatever is sent goes to the inner destination.")
c("C87","proved",["C87_encapsulation","C87_tunnel"])
c("C89","partial",["C89_lisp_content","C89_refuted"],"Exact set of results proved. False of the code: get_lisp_control_message returns a data packet when a port is 4341.")
c("C77","partial",["C77_detection","C77_verdict_unique","C77_disabled","C77_refuted"],"Exact verdict proved for every run. False of the code in one case: when no socket can send to the Map-Server, detection raises TypeError instead of finding no NAT.")
c("C78","partial",["C78_exchange","C78_fire_and_forget","C78_refuted"],"Exact outcome proved for every run. False of the code: a Map-Register without the M bit that no socket could send counts as ok, and a request stays in the outstanding list when the thread is stopped or sending raises.")
c("C90","partial",["C90_lookup_key","C90_no_lookup","C90_refuted"],"Exact key proved. False of the code: an instance id inside another LCAF is lost and the EID is looked up in instance 0.")
c("C91","proved",["C91_address","C91_records","C91_map_request","C91_map_reply","C91_map_register","C91_map_notify","C91_map_referral","C91_info"],"For objects whose reserved bit fields have the constructor's width and whose ipaddress objects satisfy the library's invariants (obj_* hypotheses).")
c("C79","partial",["C79_notify","C79_refuted"],"Exact effect of a Map-Notify on every node proved. False of the code: a record whose lookup raises (it covers several configured prefixes) keeps the message from the records after it.")
c("C80","partial",["C80_info_reply","C80_refuted"],"Exact effect of an Info message on every node proved. False of the code: the authentication data of Info-Replies is never checked.")
c("C83","partial",["C83_other_source","C83_refuted"],"First half proved. False of the code: the outer source of the data packet (the RTR) is compared with the Map-Server, so a registration through an RTR is never confirmed.")
c("C84","partial",["C84_threads","C84_rtrs","C84_refuted"],"Threads: proved for all histories. False of the code: the RTRs a removed registration reported stay announced for ever; exactly which RTRs are announced is proved.")
c("C92","proved",["C92_sendable"],"For control messages without a packet inside: C91.")
c("C81","proved",["C81_confirmed","C81_recorded","C81_unconfirmed"],"The transport between the two daemons is not modelled: the bytes one hands over are the bytes the other receives.")
c("C82","partial",["C82_directly","C82_through_rtr","C82_other_family","C82_refuted","C82_unsent_refuted"],"False of the code: a daemon that does not process data packets has no data-plane sockets and never sends a registration behind NAT; over IPv6 the inner packet has hop limit 0, and if the Map-Server and the private address have different families nothing is sent, without an error. Everything else is proved.")
c("C85","proved",["C85_refused","C85_last_wins"],"Executing a file is an input of the model (its definitions, IOError or another exception).")
c("C86","proved",["C86_every_address","C86_unconfigured","C86_stable"],"Trees that containers can get into although they are not tidy: C47, C49.")
c("C88","proved",["C88_query"])
c("C93","proved",["C93_self_delimiting","C93_control_delimited","C93_emitted_uncut","C93_exact","C93_encapsulated"],"The last theorem also shows the one place where a truncated encapsulated control message is accepted.")
c("C94","partial",["C94_refuses","C94_exit_codes","C94_serves","C94_late_nodes","C94_refuted"],"Everything but the last clause is proved. False of the code: a node added to a container after start-up never gets the sockets (ContainerNode.add does not pass them on), so an ETR node added later never registers.")
c("C95","proved",["C95_every_event_once","C95_round","C95_stopped"],"Sockets' buffers are unbounded queues in the model; opening sockets succeeds.")
c("C96","partial",["C96_never_wrong","C96_never_wrong_info","C96_ends","C96_delivered_partial","C96_delivered_info_partial","C96_atomic","C96_refuted"],"False of the code: the list is searched without a lock; when a thread withdraws a request the search has already passed, the next request is skipped and its answer lost. Proved: that is the only way to lose it (C96_delivered_partial), and everything else. The main thread's loop and list operations are modelled step by step.")
c("C97","proved",["C97_serialisable","C97_exclusive","C97_no_deadlock"],"Steps are single operations on the dictionaries; reading time.time() before the lock is taken is part of the operation.")
c("C98","proved",["C98_gone_in_time","C98_not_early","C98_interleaved_stays","C98_interleaved_goes"])
c("C99","partial",["C99_set_partial","C99_get","C99_roundtrip_partial","C99_latitude_partial","C99_longitude_partial","C99_encode","C99_sixty_refuted","C99_negative_refuted","C99_negative_encode_refuted","C99_hemisphere_refuted"],"False of the code: seconds can come out as 60 (reading 1 degree 1 minute and assigning it back gives 1 degree 0 minutes 60 seconds), negative numbers become other positions or cannot be serialised, and reading ignores the hemisphere. Proved for all numbers >= 0: the error of assigning is half a second plus 2^-42 seconds, reading is within 2^-37 degrees, and the round trip keeps the position. Floats are IEEE doubles rounding to nearest even; no overflow.")
c("C100","partial",["C100_same_object","C100_followed","C100_followed_mixed","C100_constructed_partial","C100_constructed_refuted","C100_hash_refuted"],"Proved for programs that get their addresses with get_ipv4_address/get_ipv6_address (if hash() tells the interface names apart). False of the code for the constructors: a second object for an interface without an address is not registered and never updated. Equality is that of ipaddress, the hash that of the interface name, so equal addresses can have different hashes.")
c("C102","partial",["C102_ddt_query_partial","C102_ddt_query_unanswered","C102_map_resolve_unanswered","C102_refuted"],"False of the code: encapsulated Map-Requests that are not DDT-originated are ignored, so map_resolve never gets an answer from a pylisp daemon; ddt_query gets none for delegated or Map-Server prefixes or unconfigured families (and has no timeout, so it waits for ever). Proved: in all other cases it gets its answer.")
c("C103","proved",["C103_map_register"],"For every prefix, key and state; the script's own are one instance (example).")
c("C101","proved",["C101_request","C101_verdict"],"End to end: message made, bytes, parser, daemon of the ETR, verdict of the thread.")
c("C104","partial",["C104_bound_to_address","C104_sighup","C104_sighup_vlan2_partial","C104_only_made_partial","C104_leftover_socket","C104_two_sockets","C104_vlan2_refuted","C104_refuted"],"The first two sentences are proved for every interface but IPv4 on vlan2. False of the code for vlan2: importing map_server_node leaves an AutoUDPSocket(AutoIPv4Address('vlan2'), 4342) behind (map_server_node.py:182) which nobody reads; whenever vlan2 has an IPv4 address it is open next to the daemon's own socket (SO_REUSEPORT), and when vlan2 has none at start, the daemon's own address for vlan2 is never updated. A failed bind is not retried (C71), so 'open' needs that no bind failed.")
c("C105","proved",["C105_lines","C105_line","C105_fields_unique","C105_file","C105_one_reading","C105_accepted","C105_delegated"],"ip_address and ip_network (py2-ipaddress) are arguments; of ip_network only that what it gives is a well-formed prefix is used.")
c("C106","proved",["C106_running","C106_nothing_else"],"Threads are running or stopping as in C84; what a running thread does is C60.")
c("C107","partial",["C107_accepted","C107_text","C107_every_address","C107_refuted"],"False of the code: a file that delegates only one family in some instance is loaded and then refused as INSTANCES (C107_refuted); the exact set of accepted files is proved, and what every address of an accepted file gets.")
c("C108","proved",["C108_locators","C108_announced","C108_reassigned"],"hash() of addresses and of interface names are arguments; a collision between an interface name and another name or address in use is excluded by hypothesis.")
c("C109","proved",["C109_nodes","C109_answers","C109_text","C109_new","C109_copy"],"ip_address of a text is an argument.")
c("C110","proved",["C110_often","C110_stays"],"That a datagram of each attempt arrives within d is a hypothesis about the network; both machines are assumed to have the same clock.")
c("C111","proved",["C111_whole_run","C111_nothing_made_up","C111_not_lost"],"Threads act between events of the main loop, not in the middle of one (C98_interleaved covers the Map-Server's cleanup at a finer grain).")
c("C112","proved",["C112_digests","C112_rfc2104","C112_mac","C112_interchangeable","C112_trailing_zeros","C112_long_keys","C112_same_registrations","C112_no_accident","C112_not_reusable"],"SHA-1, SHA-256 and HMAC are written down from FIPS 180-4 and RFC 2104 (Python's hashlib and hmac are not pylisp's code) and checked on the standards' test vectors and on captured messages in Conform.v.")
c("C113","proved",["C113_ipv4","C113_ipv6","C113_address","C113_one_address","C113_printed","C113_printed_differently","C113_canonical","C113_canonical_net","C113_network","C113_network_wf","C113_network_printed","C113_networks_printed_differently","C113_xtr_names","C113_xtr_no_address","C113_line","C113_written","C113_file_accepted","C113_masks","C113_masks_ok","C113_masks33","C113_masks33_sound","C113_masks33_ok","C113_network_masks"],"The functions modelled are those of the library py2-ipaddress as in Python 3.3; whether a leading zero in an IPv4 octet is accepted, and the form of dotted masks, are arguments and quantified over; for the two forms of masks there have been (Python 3.3, 1.0.x) the accepted masks are given exactly.")
c("C114","proved",["C114_broken_file","C114_in_force","C114_outcome","C114_dies","C114_no_list","C114_texts","C114_defaults"],"Composition of the models of loading (Conf.v), checking (Net.v), texts (IpText.v) and main() (Main.v). Iterable objects other than lists, tuples, sets, dictionaries and texts, and floats as keys, are left out.")
c("C115","partial",["C115_registers_partial","C115_defaults","C115_unchecked","C115_refuted"],"False of the code: XTR_ID and SITE_ID are not checked, and with an identifier that does not fit lispd serves and can never register. Proved: exactly when a Map-Register can be sent; the default identifiers are fine; whatever XTR_ID and SITE_ID are, lispd starts in the same way.")
c("C116","partial",["C116_accepted_again","C116_old_comes_back","C116_kept_alive","C116_refuted","C116_in_order_partial"],"False of the code: the nonce of a Map-Register is not looked at. Proved: whatever was accepted once is accepted whenever it arrives again, from anywhere if it names its xTR, its record replaces the newer one and can be kept alive forever. Proved part: if the Map-Registers of a source for a prefix arrive in the order they were sent, the newest is the one registered.")
c("C117","partial",["C117_from_key_holders_partial","C117_own_locators_partial","C117_refuted"],"Proved for every history in which all Map-Registers have a key id; unforgeability is a hypothesis about the datagrams of the history. False of the code without it: messages with key id 0 are accepted by every node (C53).")
c("C118","proved",["C118_confirmed_is_registered"],"Unforgeability and fresh nonces are hypotheses about the history. With key id 0 anyone can confirm (C59_key_zero_anyone).")
c("C119","proved",["C119_find_all","C119_by_prefix","C119_by_node","C119_added"],"Adding a node with the prefix of a child: C49. remove: C50.")
c("C120","proved",["C120_only_when_told","C120_goes_on","C120_told","C120_gone","C120_dropped"],"That CPython calls __del__ when the last reference to a node is gone is assumed; the handlers for ReferenceError around the loops are never reached, because the bare except inside catches it.")
c("C121","partial",["C121_paths","C121_settings","C121_wins","C121_absolute","C121_refuted"],"False of the code for absolute names: get_config_paths gives the text instead of a list, so going through the result gives its characters. Everything else is proved. os.path.realpath is an argument.")
c("C122","proved",["C122_no_amplification","C122_reply_bounded"],"Lengths are those of the LISP messages handed to the socket against the received UDP payload.")
c("C123","proved",["C123_isolated","C123_answers","C123_forgetful"],"Non-interference: C123_isolated compares the registrations of a node in two runs, C123_answers everything sent in two runs, C123_forgetful the next answer after two histories with the same ETR thread events.")
c("C124","proved",["C124_answers","C124_notify","C124_register","C124_info_request","C124_tools","C124_arrives"],"Reserved fields the packet objects keep; the reserved bits of the data header are C23 and C87.")
c("C125","proved",["C125_classes","C125_generic","C125_one_class","C125_written"],"Message types 1-4 and 6-8.")
c("C126","partial",["C126_has_text_partial","C126_list_raises","C126_read_as_address","C126_read_as_network","C126_text_of_address","C126_text_identifies_partial","C126_written_as","C126_nat_text_identifies","C126_hemispheres"],"False of the code in two places, both characterised: an address has a text exactly if it prints no non-empty AFI list (TypeError otherwise), and positions in different hemispheres or altitudes have the same text. Which text it is is proved for all addresses that have one. Distinct texts are proved for addresses, networks, Null, these in instances and AS numbers, and NAT addresses made of such (up to what is printed for their lists of RTRs, which is left open, as are the floats of positions).")
c("C127","partial",["C127_pieces","C127_authentic","C127_single_partial","C127_as_if_atomic","C127_refuted"],"False of the code: notify_content_ok reads self.notify anew for every check, and a Map-Notify the main thread was already handling when the request left the list can replace the first one in between (C127_refuted: two Map-Notifies, each refused alone, confirm together). Proved: an authentic Map-Notify for the request is always among them; at most two are mixed and every condition holds of one of the two; with one Map-Notify heard for the request the property holds; and a run in which none is recorded during the checks is a run of the atomic model used by C78.")
c("C128","partial",["C128_verdict","C128_settled_partial","C128_needs_two","C128_refuted"],"False of the code: the reply is stored before its private address is assigned, so a second answer (the three attempts share a nonce) can be compared with the private address the Map-Server wrote (C128_refuted: two answers that show no NAT, and a NAT is found). Proved: the verdict is that of a reply that was heard, with its private address as sent or replaced by one the request was sent from; the full statement whenever each sending found a socket and no reply is half recorded at the comparison; and that the latter takes two answers.")
c("C129","partial",["C129_partial","C129_registers","C129_settles","C129_refuted"],"False of the code when register raises (a socket error): the flag was reset before and the pass does not remember the failure, so the change is missed until the minute is over (C129_refuted). Proved in full for histories in which no Map-Register is cut off by an exception: flagged or up to date, a flagged one registers in its next pass, and one pass each settles it.")
c("C130","partial",["C130_origin","C130_partial","C130_announced","C130_still","C130_refuted"],"False of the code in one clause: the address is looked at for being unspecified, and read again for the announcement; an interface that loses its address in between is announced as 0.0.0.0 (C130_refuted). Proved: that clause for interfaces that keep having an address, and everything else for all changes.")
c("C131","partial",["C131_source","C131_partial","C131_no_exception","C131_refuted"],"False of the code (C131_refuted): the address is read again after sending, so a change in between is reported as the source (and makes a NAT where there is none); a datagram handed over between the creation of the socket and its binding leaves from another port and makes the binding fail; the socket can be gone between the test and the use. Proved for all interleavings: where datagrams leave from and what is reported; and the full statement if the main thread is not in rebind meanwhile.")
c("C132","partial",["C132_registers","C132_asks","C132_told_registers","C132_told_asks","C132_one_pass","C132_told_ends","C132_told_ends_asking","C132_cut_short","C132_map_register_left_partial","C132_info_request_left_partial","C132_refuted"],"False of the code in two clauses (C132_refuted). A request stays in the list for ever if sending it raises or if the thread is told to stop between attempts, so an ETR that cannot send grows by one request every five seconds; proved: exactly in these cases. Told to stop during NAT detection the thread goes on to register as if there were no NAT, even if it has heard of one: one Info-Request and one Map-Register more (C132_one_pass: never more than that). The rest is proved for all interleavings.")
c("C133","proved",["C133_collected","C133_attempt","C133_reaches"],"The change itself is not noticed (C61): this is what the registration every minute gives. Hypotheses about the network and about other ETRs as in C110; messages sent before the last change arrive within d or never.")
c("C134","proved",["C134_uses","C134_recorded","C134_change_announced","C134_no_needless","C134_as_C60"],"The clock of the passes is not assumed to be monotonic. What the threads of the other registrations of a node do is the flag that anyone may set at any time; C129 has all the threads of a node.")
c("C135","proved",["C135_exact","C135_nat_iff"],"The condition on the address cannot be dropped: C135_refuted has the address change between two requests, and the answer to the first one finds a NAT where there is none. That the reported source is where the request left from is C131. An answer is not authenticated by the ETR, so the Map-Server is assumed honest and its address not forged together with the nonce.")
c("C136","partial",["C136_addresses","C136_addresses_exact","C136_packets","C136_packets_exact","C136_frame","C136_frame_address","C136_refuted"],"False of the code for large datagrams: C136_refuted gives a control datagram of 8028 bytes and an address of 8001 bytes that nest 1000 deep. Proved: the exact depth by size (one call for each eight bytes), so that nothing that fits into one Ethernet frame nests more than 189 deep, and that the result does not depend on the room left. A level of nesting is one Python frame for a packet and three for an address (read_afi_address_from_bitstream, from_bytes, _from_data_bytes), so an address reaches the limit of 1000 frames at a third of the size C136_refuted has. That number of frames, and those of the callers and of bitstring, are not modelled.")
c("C137","partial",["C137_answers","C137_reply","C137_register","C137_info_request","C137_queued","C137_refuted"],"Proved for every message: answers to datagrams that fit, fit; a Map-Reply has at most 6160 octets, a Map-Register at most 6272 (with the encapsulation through an RTR), an Info-Request at most 74, whatever is configured. False of the code for packets from the queue: an encapsulated packet has exactly eight octets more than the packet (C137_queued), so one of more than 65499 octets is too long (C137_refuted); no ICMP error or fragmentation is made. The messages of the tools are those of C88 and not in this property.")
c("C138","proved",["C138_registrations","C138_replies","C138_answer"],"C138_registrations: for any history before, with no other Map-Register for that prefix and source and no cleanup past the deadline in between (a duplicate that is overtaken by a newer registration is C116). C138_answer: at any later time, as long as no ETR thread of the daemon itself changed an ETR node in between; the message counter is not part of an answer.")
c("C139","proved",["C139_registrations","C139_answers"],"The times at which datagrams are handled move with them. Not the same sender: then the last to arrive wins, even if it is older (C116).")
c("C140","proved",["C140_own_only","C140_others_cannot"],"Claiming to be a sender: with the xTR-ID it is enough to write it into a message that authenticates (C53, C117), without it the UDP source address counts. Cleanup passes are the same in both histories.")
c("C141","proved",["C141_registered_again","C141_after_a_while","C141_until_then"],"A restart is modelled as a new state without registrations, with the same configuration and keys; datagrams that arrive while the daemon is down are in neither history. That the senders do register again is C110; that cleanup passes are made is C98.")
c("C142","proved",["C142_registrations","C142_answers"],"Passes are atomic here; that they are when they run at the same time as registrations is C97.")
c("C143","proved",["C143_bounded","C143_empties","C143_no_empty_tables"],"The bound is for one node; a Map-Register counts with all its records even if it was refused or repeats a registration, and an event that occurs several times in the history counts once. That the passes are made every 30 seconds is C98. Memory other than the table of registrations is not in this property.")
c("C144","proved",["C144_order"],"Any trees, not only those an accepted configuration has: lookups that raise raise in both. C46_order_independent is the lookup alone.")
c("C145","proved",["C145_not_answered"],"What a Map-Notify changes is the list of outstanding Map-Registers (C79). At the data port the octets would be read as a data packet; forwarded data packets are not messages of lispd and not in this property.")
c("C146","partial",["C146_grouping","C146_refuted"],"The code violates the full statement: a record that makes lispd give up on the message (a prefix too short to be looked up, C74) takes the others with it only when they share a message (C146_refuted). C146_grouping proves it for all Map-Registers without such a record.")
