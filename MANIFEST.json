{
 "claims": [
  {
   "property": "C01",
   "status": "partial",
   "theorems": [
    "fifo_lossless_queue_partial",
    "fifo_lossless_queue_aligned_partial",
    "fifo_step_exact_or_discards",
    "fifo_lossless_queue_refuted"
   ],
   "note": "Lossless-queue refinement proved for all histories in which the write position never falls in the last 3 bytes of the storage (in particular whenever all lengths are multiples of 4). The unrestricted claim is false of the code: fifo_lossless_queue_refuted gives a 15-datagram history on the shipped 20480-byte buffer. fifo_step_exact_or_discards covers all histories."
  },
  {
   "property": "C02",
   "status": "proved",
   "theorems": [
    "fifo_memory_safe"
   ],
   "note": ""
  },
  {
   "property": "C03",
   "status": "proved",
   "theorems": [
    "fifo_can_push_exact",
    "fifo_max_payload_is_maximum",
    "fifo_drained_accepts"
   ],
   "note": ""
  },
  {
   "property": "C04",
   "status": "proved",
   "theorems": [
    "rx_ring_is_byte_stream",
    "rx_ring_conservation"
   ],
   "note": ""
  },
  {
   "property": "C05",
   "status": "proved",
   "theorems": [
    "rx_ring_is_byte_stream",
    "rx_ring_insert_exact",
    "adv_win_bounded"
   ],
   "note": ""
  },
  {
   "property": "C06",
   "status": "proved",
   "theorems": [
    "seq_inc_adds",
    "seq_leq_order",
    "seq_lt_order",
    "seq_diff_order",
    "seq_compare_total"
   ],
   "note": ""
  },
  {
   "property": "C07",
   "status": "proved",
   "theorems": [
    "timers_refine_pending_set",
    "timer_cancelled_never_fires",
    "timer_fires_at_most_once",
    "timer_due_is_delivered"
   ],
   "note": "For histories of fewer than 2^32-1 operations (handles are a 32-bit counter)."
  },
  {
   "property": "C08",
   "status": "proved",
   "theorems": [
    "checksum_accepts_iff_valid",
    "transport_is_checksum_of_concat",
    "filled_checksum_verifies",
    "single_word_corruption_detected",
    "filled_transport_verifies",
    "ip_header_checksum_verifies"
   ],
   "note": ""
  },
  {
   "property": "C09",
   "status": "partial",
   "theorems": [
    "route_lookup_longest_prefix",
    "route_tie_prefers_connected_partial",
    "route_tie_prefers_connected_refuted",
    "route_table_lookup_ready"
   ],
   "note": "Longest-prefix match, self delivery, default gateway and the exact tie-break order (length, age, interface) are proved for all tables. The claim that ties always prefer the connected subnet is false of the code for the first route ever added (age 0, same age as a connected subnet) on a lower-numbered interface: route_tie_prefers_connected_refuted."
  },
  {
   "property": "C10",
   "status": "proved",
   "theorems": [
    "route_table_is_finite_map",
    "route_table_lookup_ready"
   ],
   "note": "Histories of fewer than 2^32-1 calls (32-bit generation counter), at most 256 interfaces (uint8_t index)."
  },
  {
   "property": "C11",
   "status": "proved",
   "theorems": [
    "netmask_prefix_inverse",
    "prefix_mask_length",
    "prefix_match_exact"
   ],
   "note": ""
  },
  {
   "property": "C12",
   "status": "proved",
   "theorems": [
    "dotted_quad_round_trip",
    "parse_stays_in_string"
   ],
   "note": ""
  },
  {
   "property": "C13",
   "status": "proved",
   "theorems": [
    "acceptable_iff_rfc9293",
    "acceptable_in_window"
   ],
   "note": ""
  },
  {
   "property": "C14",
   "status": "proved",
   "theorems": [
    "tcp_options_exact",
    "tcp_options_unambiguous",
    "tcp_options_all_found",
    "ack_options_round_trip",
    "syn_options_round_trip",
    "data_options_round_trip"
   ],
   "note": ""
  },
  {
   "property": "C15",
   "status": "proved",
   "theorems": [
    "tcp_stream_integrity",
    "tcp_delivers_only_received",
    "tcp_in_order_progress",
    "tcp_receive_memory_safe"
   ],
   "note": "Receive rings below 2^29 bytes; each segment arrives within 2^29 of the bytes received so far; the peer sends no data beyond its FIN (memory safety needs neither)."
  },
  {
   "property": "C16",
   "status": "proved",
   "theorems": [
    "tcp_sack_truthful",
    "tcp_sack_first_block",
    "tcp_no_reneging",
    "tcp_sack_strictly_above_ack_refuted"
   ],
   "note": "Blocks never reach below the ACK of the same segment as built; a block may start exactly at it (tcp_sack_strictly_above_ack_refuted)."
  },
  {
   "property": "C17",
   "status": "proved",
   "theorems": [
    "rto_always_in_bounds",
    "rto_tracks_samples",
    "rto_matches_rfc6298",
    "backoff_doubles_to_cap",
    "persist_interval_bounds",
    "ctrl_not_abandoned_before_3_minutes",
    "data_retransmitted_15_times"
   ],
   "note": "Bounds for every history; agreement with exact-arithmetic RFC 6298 within 13 ms for samples below 2^26 ms (larger ones overflow 32 bits)."
  },
  {
   "property": "C18",
   "status": "partial",
   "theorems": [
    "tcp_ack_frees_exactly_covered",
    "tcp_ack_of_unsent_data_ignored_refuted"
   ],
   "note": "Proved for every reachable sender state and every ACK of data accepted so far (less than 2^30 bytes old, send queue below 2^29 bytes). An ACK beyond SND.NXT does free sent segments in the code: tcp_ack_of_unsent_data_ignored_refuted."
  },
  {
   "property": "C19",
   "status": "partial",
   "theorems": [
    "tcp_segment_transitions",
    "tcp_other_transitions",
    "tcp_time_wait_exits",
    "tcp_table_total",
    "tcp_unacceptable_ignored",
    "unacceptable_segment_no_effect_refuted",
    "last_ack_exact_refuted",
    "second_fin_ignored_refuted",
    "bound_socket_survives_refuted"
   ],
   "note": "Every state change of every socket slot, for every history, is an edge whose condition is met. An ACK beyond what was sent counts as covering our FIN (last_ack_exact_refuted), an unacceptable segment still sets the peer window, a second FIN advances RCV.NXT, and a RST with sequence 0 destroys a bound unconnected socket."
  },
  {
   "property": "C20",
   "status": "proved",
   "theorems": [
    "arp_lookup_only_solicited",
    "arp_lookup_is_fresh",
    "arp_entries_unique",
    "arp_mapping_change_needs_solicited_reply",
    "arp_eviction_is_lru",
    "arp_answers_exactly_own_requests",
    "arp_request_rate_limit",
    "arp_lookup_of_zero_refuted"
   ],
   "note": "For every address other than 0.0.0.0; a lookup of 0.0.0.0 on interface 0 matches a free slot (arp_lookup_of_zero_refuted)."
  },
  {
   "property": "C21",
   "status": "proved",
   "theorems": [
    "dhcp_options_total",
    "dhcp_options_plain",
    "dhcp_options_overload",
    "dhcp_options_round_trip",
    "dhcp_options_file_first_refuted",
    "dhcp_options_end_stops_overload_refuted",
    "dhcp_options_bad_overload_hides_refuted"
   ],
   "note": "The fields are read in the client's own order (sname before file, and not after END); that this differs from RFC 2131 section 4.1 is the content of the refuted theorems."
  },
  {
   "property": "C22",
   "status": "partial",
   "theorems": [
    "dhcp_client_total",
    "dhcp_config_only_by_ack",
    "dhcp_transitions",
    "dhcp_leased_usable",
    "dhcp_lease_times",
    "dhcp_nak_restarts",
    "dhcp_conflict",
    "dhcp_lease_withdrawn_partial",
    "dhcp_ack_accepted",
    "dhcp_ack_from_selected_server_refuted",
    "dhcp_dad_without_probe",
    "dhcp_conflict_only_primary_refuted",
    "dhcp_ack_option_order_refuted",
    "dhcp_bound_during_renewal_refuted"
   ],
   "note": "Proved for every history of replies, polls and ARP replies. Missing because false of the code: an OFFER naming server 0.0.0.0 lets any server's ACK through, and while no ARP probe can be sent the address outlives its lease (expiry is proved for BOUND, RENEWING and REBINDING)."
  },
  {
   "property": "C23",
   "status": "proved",
   "theorems": [
    "dns_copy_name_exact",
    "dns_skip_name_exact",
    "dns_encode_exact",
    "dns_name_round_trip"
   ],
   "note": ""
  },
  {
   "property": "C24",
   "status": "proved",
   "theorems": [
    "dns_client_refines_spec",
    "dns_answer_is_delivered",
    "dns_at_most_one_answer"
   ],
   "note": ""
  },
  {
   "property": "C25",
   "status": "proved",
   "theorems": [
    "udp_demux_exact",
    "recvfrom_returns_oldest",
    "udp_reads_what_arrived",
    "udp_nothing_lost",
    "udp_histories_defined",
    "udp_operation_defined",
    "connected_filters_during_dhcp_refuted",
    "connected_filters_multicast_port_refuted",
    "sendto_keeps_connection_refuted",
    "failed_sendto_keeps_connection_refuted",
    "short_buffer_keeps_datagram_refuted",
    "port_zero_unreachable_refuted"
   ],
   "note": "What a socket asks for is [wants] in UdpSpec, which spells out two exceptions of the code: an unaddressed socket takes everything for its port while DHCP runs, and a connected socket does not check the source port of multicasts. A push at the one bad buffer position of C01 may wipe the queue ([enqueued] allows it, [roomy] excludes it)."
  },
  {
   "property": "C26",
   "status": "partial",
   "theorems": [
    "descriptor_names_one_slot",
    "descriptor_of_slot",
    "socket_opens_a_free_slot",
    "open_until_closed",
    "bad_descriptor_no_effect",
    "bind_is_exclusive",
    "ports_stay_exclusive_partial",
    "random_port_taken_refuted",
    "connect_moves_onto_other_refuted",
    "unopened_descriptor_refused_refuted",
    "descriptors_unique_refuted",
    "descriptor_same_for_all_calls_refuted"
   ],
   "note": "Exclusive ports: proved for all histories in which sendto is not used on an unbound socket and connect not on a socket bound to a port but no address; false otherwise (refuted theorems). Descriptors of slots that were never opened are not refused."
  },
  {
   "property": "C27",
   "status": "proved",
   "theorems": [
    "ip_forward_sound",
    "ip_ttl_expired",
    "ip_time_exceeded_sound",
    "forward_longest_prefix_refuted",
    "forward_unicast_only_refuted",
    "forward_source_zero_refuted"
   ],
   "note": "The refuted theorems record what the statement does not promise: longest prefix when relaying, no multicast relaying, no 0.0.0.0 source."
  },
  {
   "property": "C28",
   "status": "proved",
   "theorems": [
    "vlan_table_is_finite_map",
    "vlan_table_wf",
    "vlan_create_succeeds_iff",
    "vlan_tag_round_trip",
    "vlan_send_accepts_iff",
    "vlan_demux_exact",
    "vlan_names"
   ],
   "note": ""
  },
  {
   "property": "C29",
   "status": "partial",
   "theorems": [
    "esp_window_exact",
    "esp_no_replay",
    "esp_unauthentic_is_harmless",
    "esp_no_replay_across_restart_refuted",
    "esp_life_partial"
   ],
   "note": "Within one run of the SA everything is proved. Across a restart with the persistence callbacks the claim is false of the code (the 64-bit window is handed to the callbacks as a uint32_t): esp_no_replay_across_restart_refuted; esp_life_partial proves what survives."
  },
  {
   "property": "C30",
   "status": "proved",
   "theorems": [
    "wg_window_exact",
    "wg_no_replay"
   ],
   "note": ""
  },
  {
   "property": "C31",
   "status": "proved",
   "theorems": [
    "cryptokey_routing_is_lpm",
    "output_goes_to_owner",
    "inject_only_from_owner"
   ],
   "note": ""
  },
  {
   "property": "C32",
   "status": "partial",
   "theorems": [
    "tftp_client_reproduces",
    "tftp_client_completes",
    "tftp_client_total",
    "tftp_server_data_honest",
    "tftp_server_stores",
    "tftp_default_blocksize_refuted",
    "tftp_oack_survives_send_failure_refuted",
    "tftp_final_ack_failure_recovers_refuted",
    "tftp_lost_block_resent_refuted",
    "tftp_final_ack_repeated_refuted",
    "tftp_server_default_blocksize_refuted",
    "tftp_window_needs_option_refuted",
    "tftp_server_blksize_limit_refuted"
   ],
   "note": "Proved for the client and for the server, each against every schedule of loss, duplication, reordering and polls, provided that both ends use the same block size and that no packet is 65536 or more blocks late. False of the code without the first proviso: an end configured for blocks above 512 bytes does not fall back to 512 when nothing was negotiated (tftp_default_blocksize_refuted, tftp_server_default_blocksize_refuted)."
  },
  {
   "property": "C33",
   "status": "proved",
   "theorems": [
    "tftp_request_parse_exact",
    "tftp_request_roundtrip",
    "tftp_oack_parse_exact",
    "tftp_oack_roundtrip",
    "tftp_oack_within_request_refuted",
    "tftp_request_refused_by_peer_refuted"
   ],
   "note": "Exact acceptance: a request (OACK) is accepted exactly when it is a well formed sequence of 0-terminated strings with option values in range, every read inside the packet, and the parsed values are those of the specification; what the builders emit is read back by the peer's parser. The refuted theorems record that an OACK may enlarge blksize and that some configurations build requests the same code refuses."
  },
  {
   "property": "C34",
   "status": "proved",
   "theorems": [
    "wpa_total",
    "wpa_pairwise_authentic",
    "wpa_group_authentic",
    "wpa_pairwise_once",
    "wpa_no_replay",
    "wpa_authenticated",
    "wpa_same_gtk_refuted",
    "wpa_refused_group_replay_refuted",
    "wpa_m3_insecure_refuted",
    "wpa_short_gtk_refuted",
    "wpa_keys_after_failure_refuted",
    "wpa_no_install_hook_refuted"
   ],
   "note": "For every history and every choice of the cryptographic primitives (which are parameters of the statement). The refuted theorems are stronger claims one might expect: Secure bit required, key length checked, keys withdrawn on failure, same GTK not reinstalled by a newer message."
  },
  {
   "property": "C35",
   "status": "proved",
   "theorems": [
    "eapol_key_parse_exact",
    "eapol_key_build_exact",
    "eapol_key_round_trip",
    "eap_parse_exact",
    "eapol_eap_build_exact",
    "eap_identity_exact",
    "eap_identity_round_trip",
    "rsn_ie_exact",
    "rsn_ie_equal_exact"
   ],
   "note": ""
  },
  {
   "property": "C36",
   "status": "proved",
   "theorems": [
    "eap_tls_total",
    "eap_tls_rx_exact",
    "eap_tls_read_in_order",
    "eap_tls_tx_exact",
    "eap_tls_flight_sendable",
    "eap_tls_roundtrip",
    "eap_tls_declared_length_enforced_refuted",
    "eap_tls_reject_is_harmless_refuted",
    "eap_tls_start_restarts_refuted",
    "eap_tls_duplicate_ignored_refuted"
   ],
   "note": "The refuted theorems record receiver behaviour outside the statement: short messages accepted, a rejected fragment pins the declared length, Start does not restart, duplicates are appended."
  },
  {
   "property": "C37",
   "status": "proved",
   "theorems": [
    "url_decode_exact",
    "url_encode_exact",
    "url_round_trip",
    "url_code_round_trip"
   ],
   "note": ""
  },
  {
   "property": "C38",
   "status": "proved",
   "theorems": [
    "loopback_is_bounded_fifo",
    "loopback_conserves"
   ],
   "note": ""
  },
  {
   "property": "C39",
   "status": "partial",
   "theorems": [
    "member_iff_joined",
    "join_reports_first",
    "join_succeeds",
    "leave_reports_last",
    "close_leaves_all",
    "query_arms_members",
    "timer_reports_member",
    "closed_slot_membership_leak_refuted",
    "leave_after_renumbering_refuted"
   ],
   "note": "For histories in which IP_ADD_MEMBERSHIP is used on open sockets and interfaces are not removed; false of the code without the first (closed_slot_membership_leak_refuted)."
  },
  {
   "property": "C40",
   "status": "partial",
   "theorems": [
    "frame_mtu_in_range",
    "mtu_set_get",
    "tcp_segment_fits_interface",
    "tcp_segment_fits_peer_mss_partial",
    "tcp_segment_fits_peer_mss_refuted",
    "pmtu_respected_partial",
    "pmtu_respected_refuted",
    "ptb_floor",
    "datagram_limits_exact"
   ],
   "note": "Interface bound proved. The peer-MSS and path-MTU bounds are false of the code when timestamps are on (12 option bytes are not subtracted): *_refuted; *_partial prove the bound that does hold."
  },
  {
   "property": "C41",
   "status": "proved",
   "theorems": [
    "esp_sent_never_repeats"
   ],
   "note": ""
  },
  {
   "property": "C42",
   "status": "proved",
   "theorems": [
    "tcp_sender_stream_integrity",
    "tcp_send_accepts_prefix",
    "tcp_zero_window_probe_possible"
   ],
   "note": ""
  },
  {
   "property": "C43",
   "status": "partial",
   "theorems": [
    "tcp_unacked_data_retained_partial",
    "tcp_unacked_data_retained_refuted"
   ],
   "note": "Proved for executions in which no bare ACK/FIN is queued behind data. In general false of the code: sending such a segment pops the head of the transmit queue (wolfip.c:11411), i.e. unacknowledged data."
  },
  {
   "property": "C44",
   "status": "partial",
   "theorems": [
    "tcp_new_data_within_window_partial",
    "tcp_new_data_within_window_refuted"
   ],
   "note": "Proved for flushes with no retransmission pending in the executions of C43; with a fast retransmission pending the window is exceeded."
  },
  {
   "property": "C45",
   "status": "partial",
   "theorems": [
    "tcp_timeout_retransmits_first_unacked",
    "tcp_timer_runs_while_data_outstanding",
    "tcp_timeout_retransmits_close_wait_refuted",
    "tcp_fin_retransmitted_refuted"
   ],
   "note": "Proved for ESTABLISHED (timeout also FIN_WAIT_1). False of the code in CLOSE_WAIT, and for a FIN sent behind data whose ACK arrives without the FIN's."
  },
  {
   "property": "C46",
   "status": "proved",
   "theorems": [
    "tcp_rtt_sample_from_single_transmission"
   ],
   "note": ""
  },
  {
   "property": "C47",
   "status": "partial",
   "theorems": [
    "close_wait_never_listens",
    "listener_recovers_refuted",
    "tcp_half_open_bounded",
    "tcp_syn_opens"
   ],
   "note": "Proved: a half-open connection held by a listener ends within nine timer expiries, and a listener in LISTEN opens on any valid SYN. False of the code: a peer that completes the handshake and sends FIN before accept() pins the listener in CLOSE_WAIT."
  },
  {
   "property": "C48",
   "status": "partial",
   "theorems": [
    "tcp_unacceptable_ignored",
    "ts_recent_monotone_refuted"
   ],
   "note": "The PAWS half is proved (but for the peer's window). TS.Recent does not follow the newest in-order timestamp: the update test compares byte-swapped values."
  },
  {
   "property": "C49",
   "status": "partial",
   "theorems": [
    "tcp_half_open_timer",
    "tcp_half_open_bounded",
    "fin_retransmitted_refuted",
    "last_ack_timer_refuted",
    "close_again_waits_refuted"
   ],
   "note": "Proved for SYN_SENT, SYN_RCVD and FIN_WAIT_2. FIN_WAIT_1 and LAST_ACK can lose their timer, and a second close() in LAST_ACK releases the socket."
  },
  {
   "property": "C50",
   "status": "partial",
   "theorems": [
    "tcp_segment_isolation",
    "tcp_unacceptable_ignored",
    "unacceptable_segment_no_effect_refuted"
   ],
   "note": "Isolation between sockets is proved in full; an unacceptable segment changes the peer's window and nothing else."
  },
  {
   "property": "C51",
   "status": "partial",
   "theorems": [
    "tcp_reset_replies",
    "tcp_unmatched_segment_reset",
    "final_ack_unanswered_refuted"
   ],
   "note": "Proved for every table and segment; a listener may however answer the final ACK of a connection that closed earlier in the same loop (final_ack_unanswered_refuted)."
  },
  {
   "property": "C52",
   "status": "proved",
   "theorems": [
    "tcp_syn_opens",
    "tcp_final_ack_establishes",
    "tcp_synack_establishes",
    "tcp_close_handshake",
    "tcp_reset_closes"
   ],
   "note": "Segments without data; data is C15."
  },
  {
   "property": "C53",
   "status": "partial",
   "theorems": [
    "passive_open_unique_partial",
    "unique_four_tuple_refuted"
   ],
   "note": "Proved for passive opens. False of the code in general: connect() draws its port without looking at other sockets."
  },
  {
   "property": "C54",
   "status": "proved",
   "theorems": [
    "dhcp_out_messages"
   ],
   "note": ""
  },
  {
   "property": "C55",
   "status": "partial",
   "theorems": [
    "dhcp_never_stuck",
    "dhcp_one_timer",
    "dhcp_reinit_retries_refuted"
   ],
   "note": "Proved as long as timer insertion succeeds. The retry count survives an exhausted discovery, so the next dhcp_client_init sends a single DISCOVER."
  },
  {
   "property": "C56",
   "status": "proved",
   "theorems": [
    "ip_input_total",
    "ip_deliver_sound",
    "ip_deliver_complete",
    "ip_reject_silent"
   ],
   "note": ""
  },
  {
   "property": "C57",
   "status": "partial",
   "theorems": [
    "ip_forward_complete",
    "ip_arp_reply_releases",
    "forward_queue_recovers_refuted",
    "forward_all_waiting_refuted",
    "forward_too_big_reported_refuted"
   ],
   "note": "Queued packets never expire, one packet waits per next hop, and oversize packets vanish silently (refuted); the rest is proved."
  },
  {
   "property": "C58",
   "status": "proved",
   "theorems": [
    "wpa_handshake_completes",
    "wpa_group_rekey_completes",
    "wpa_deadline",
    "wpa_m2_bounded",
    "wpa_forged_key_frame_refuted",
    "wpa_forged_eap_refuted",
    "wpa_m1_retransmit_counter_refuted",
    "wpa_lost_m4_refuted"
   ],
   "note": "Without interference. With forged frames the handshake or the authenticated session ends (refuted theorems), and a lost message 4 or a renumbered message 1 is not repaired."
  },
  {
   "property": "C59",
   "status": "partial",
   "theorems": [
    "wpa_pmk_source_partial",
    "wpa_reconnect_any_mode_refuted"
   ],
   "note": "Proved for histories without pmksa_reconnect, for a collision-free passphrase hash. False with it: reconnect ignores the authentication mode (wpa_reconnect_any_mode_refuted)."
  },
  {
   "property": "C60",
   "status": "proved",
   "theorems": [
    "tftp_sessions_isolated",
    "tftp_server_total"
   ],
   "note": ""
  },
  {
   "property": "C61",
   "status": "proved",
   "theorems": [
    "tftp_server_files",
    "tftp_server_reclaims"
   ],
   "note": "Provided that the application's open callback never returns a handle that is NULL or still open."
  },
  {
   "property": "C62",
   "status": "proved",
   "theorems": [
    "setsockopt_exact",
    "sendto_queues_exactly",
    "sendto_icmp_queues_exactly",
    "flush_transmits_in_order",
    "empty_datagram_fits_refuted"
   ],
   "note": ""
  },
  {
   "property": "C63",
   "status": "proved",
   "theorems": [
    "icmp_demux_exact",
    "icmp_recvfrom_returns_oldest"
   ],
   "note": ""
  },
  {
   "property": "C64",
   "status": "proved",
   "theorems": [
    "http_request_exact",
    "http_request_unambiguous",
    "register_result",
    "path_with_nul_refuted",
    "line_end_required_refuted",
    "every_request_answered_refuted"
   ],
   "note": "What a well-formed request is: request_bytes in HttpReqSpec. It is the code's reading and looser than RFC 9112 (refuted theorems): any byte after the CR of the request line, final empty line optional; an encoded NUL ends the path; a body of exactly 1024 bytes is dropped without an answer. One request per receive call: a request split over segments is not reassembled."
  },
  {
   "property": "C65",
   "status": "proved",
   "theorems": [
    "request_arg_exact"
   ],
   "note": ""
  },
  {
   "property": "C66",
   "status": "partial",
   "theorems": [
    "tcp_end_to_end_reliable_partial",
    "tcp_end_to_end_never_stuck",
    "tcp_end_to_end_reliable_refuted"
   ],
   "note": "Proved for every execution in which the sender queues no bare ACK behind unacknowledged data, holds at most 2^27 bytes, and no packet outlives 2^27 further bytes; false of the code without the first condition (tcp_end_to_end_reliable_refuted). FIN is not part of this composition."
  },
  {
   "property": "C67",
   "status": "proved",
   "theorems": [
    "tcp_lost_data_recoverable"
   ],
   "note": "Same composed system; the segment must have been transmitted before (or be marked), fit the receive buffer, and be among at most 1000 queued segments."
  },
  {
   "property": "C68",
   "status": "proved",
   "theorems": [
    "wg_nonce_unique"
   ],
   "note": "Assumes the sessions' keys are distinct, which is up to the random generator and the hash."
  },
  {
   "property": "C69",
   "status": "proved",
   "theorems": [
    "wg_session_limits"
   ],
   "note": ""
  },
  {
   "property": "C70",
   "status": "proved",
   "theorems": [
    "wg_accepted_once",
    "wg_injects_only_authentic",
    "wg_routes_to_owner"
   ],
   "note": "wg_accepted_once assumes distinct session keys as C68 does."
  },
  {
   "property": "C71",
   "status": "proved",
   "theorems": [
    "wg_packets_sent_once",
    "wg_response_flushes",
    "wg_fifo_refuted",
    "wg_expired_session_restarts_refuted"
   ],
   "note": "wg_response_flushes assumes encryption does not fail. The order is not kept in general: what waits at the responder is overtaken (wg_fifo_refuted), and a packet that finds the session just expired waits without a handshake being started (wg_expired_session_restarts_refuted)."
  },
  {
   "property": "C72",
   "status": "proved",
   "theorems": [
    "wg_handshake_agrees",
    "wg_exchange_delivers"
   ],
   "note": "The hypotheses are those of the record [ready]: among others A waits for the answer under that index for this peer alone, B has accepted no newer initiation and none in the last 5 s. The key pairs' owners are set first and not changed (a later key change clears nothing, see WgConf)."
  },
  {
   "property": "C73",
   "status": "proved",
   "theorems": [
    "wg_initiations_advance",
    "wg_replay_ignored"
   ],
   "note": "An initiation accepted while the device's clock still reads 0 does not count for the five seconds. wg_replay_ignored: the private key is set once, first, and the peers' public keys are valid points."
  },
  {
   "property": "C74",
   "status": "proved",
   "theorems": [
    "wg_unauthentic_ignored",
    "wg_load_needs_eight",
    "wg_load_only_cookies",
    "wg_cookie_gets_through"
   ],
   "note": "wg_cookie_gets_through: the device's other conditions for answering an initiation (no accepted initiation of the peer in the last five seconds, a newer timestamp, a working generator) are hypotheses, as is that the returned second MAC is not all zeros, which the code reads as no MAC. 'Eight datagrams' counts all received ones; the code counts handshake messages it did work for."
  },
  {
   "property": "C75",
   "status": "proved",
   "theorems": [
    "wg_sends_home",
    "wg_no_amplification"
   ],
   "note": "wg_no_amplification assumes the primitives' lengths (crypto_ok) and that the generator's blocks are no longer than the 32 bytes the code asks for. A cleartext never leaving is part of wg_sends_home: a data datagram carries the encryption of the packet; that the encryption hides it is the primitive's business."
  },
  {
   "property": "C76",
   "status": "proved",
   "theorems": [
    "esp_round_trip",
    "esp_delivers_the_datagram",
    "esp_exactly_once"
   ],
   "note": "esp_exactly_once: fewer than 2^32 datagrams, an association with an ICV, all datagrams of the conversation between addresses for which it is the first association at both ends. The primitives' laws (crypto_ok) are hypotheses; EspToy gives an instance and a run for each of the five suites."
  },
  {
   "property": "C77",
   "status": "proved",
   "theorems": [
    "esp_accepts_only_authentic",
    "esp_replay_dropped",
    "esp_inbound_policy_refuted"
   ],
   "note": "'Authentic' is defined in EspSpec from the suites' RFCs and the primitives. Associations without ICV (CBC without HMAC, which the API allows) have neither authentication nor replay protection, and the statements say so. That cleartext is accepted from a peer with inbound associations is esp_inbound_policy_refuted."
  },
  {
   "property": "C78",
   "status": "proved",
   "theorems": [
    "esp_nonce_never_repeats"
   ],
   "note": "For one association from its creation or restoration on. Across restarts the number comes from the saved state (C29) and the GCM IV also depends on 8 fresh random bytes."
  },
  {
   "property": "C79",
   "status": "proved",
   "theorems": [
    "esp_tables_sound",
    "esp_never_clear",
    "esp_never_clear_refuted"
   ],
   "note": "Received frames are well-formed IPv4 frames up to 1536 bytes, sent datagrams at most 1522 bytes. The second half fails on devices without Ethernet header, for which esp_send is not called (esp_never_clear_refuted)."
  },
  {
   "property": "C80",
   "status": "proved",
   "theorems": [
    "raw_delivers_exactly",
    "raw_recv_oldest",
    "raw_receives_in_order",
    "raw_send_narrows_refuted"
   ],
   "note": "'If the queue accepts it' is C01's [enqueued] (with the lost packets of [unlucky]). A sendto changes the interface the socket listens on (raw_send_narrows_refuted)."
  },
  {
   "property": "C81",
   "status": "proved",
   "theorems": [
    "pkt_delivers_exactly",
    "pkt_recv_oldest",
    "pkt_receives_in_order",
    "pkt_bind_first_refuted"
   ],
   "note": "Frames reaching the tap have at least the 14 bytes of a link header (wolfIP_recv_on checks). Binding to interface 0 means every interface (pkt_bind_first_refuted)."
  },
  {
   "property": "C82",
   "status": "proved",
   "theorems": [
    "raw_send_exact",
    "raw_flush_in_order",
    "raw_transmits_in_order",
    "raw_multicast_refuted",
    "raw_hdrincl_leaks_refuted"
   ],
   "note": "'Left' includes frames an interface refused, which are lost. With IP_HDRINCL the header supplied must fit its packet: otherwise the checksum covers uninitialised memory (raw_hdrincl_leaks_refuted). A packet to a multicast group waits for ARP for ever and blocks the queue (raw_multicast_refuted)."
  },
  {
   "property": "C83",
   "status": "proved",
   "theorems": [
    "pkt_send_exact",
    "pkt_flush_in_order",
    "pkt_transmits_in_order",
    "pkt_interface_kept_refuted"
   ],
   "note": "'Left' includes frames an interface refused or the filter dropped. Frames queued for one interface leave on another if the socket has meanwhile been used for it (pkt_interface_kept_refuted)."
  },
  {
   "property": "C84",
   "status": "proved",
   "theorems": [
    "raw_sockets_total",
    "raw_sockets_independent"
   ],
   "note": "Admissible operations: bytes and 32-bit addresses, frames up to 65536 bytes, at most 256 interfaces (their number is stored in a byte), a supplied header that fits its packet."
  },
  {
   "property": "C85",
   "status": "proved",
   "theorems": [
    "dns_lookups_end",
    "dns_ptr_answer_is_delivered",
    "dns_lookups_end_without_timer_refuted",
    "dns_needs_question_to_end_refuted"
   ],
   "note": "If the timer heap is full when a timer is armed, the query stays outstanding and every later lookup is refused (dns_lookups_end_without_timer_refuted). A message without any question ends a lookup (dns_needs_question_to_end_refuted)."
  }
 ]
}