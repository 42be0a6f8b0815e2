{"id": "C01", "title": "Datagram buffer is a lossless FIFO queue", "statement": "Every datagram/segment a socket buffer has accepted is later handed out exactly once, unmodified, in acceptance order, whatever the interleaving of accepts and removals and however often the circular buffer wraps.", "quantifier": "all buffer sizes, all histories of push/peek/next/pop with arbitrary payload lengths and contents", "why_tests_cant": "loss needs one particular alignment of head, tail and wrap marker; tests sample a few lengths out of an unbounded set of histories", "anchors": ["src/wolfip.c:fifo_push", "src/wolfip.c:fifo_pop", "src/wolfip.c:fifo_peek", "src/wolfip.c:fifo_next", "src/wolfip.c:fifo_align_tail", "src/wolfip.c:fifo_align_head_pos"]}
{"id": "C02", "title": "Datagram buffer never touches memory outside its storage", "statement": "No accept/inspect/remove operation on a socket buffer reads or writes a byte outside the size bytes of storage given at socket creation.", "quantifier": "all buffer sizes, all operation histories, all payload lengths", "why_tests_cant": "an out of bounds access appears only at specific wrap positions; tests with ASAN only see the positions they reach", "anchors": ["src/wolfip.c:fifo_push", "src/wolfip.c:fifo_pop", "src/wolfip.c:fifo_peek", "src/wolfip.c:fifo_next"]}
{"id": "C03", "title": "Writability prediction agrees with the actual send", "statement": "The stack reports that a frame of length L can be queued if and only if queueing it now succeeds, and the payload size chosen for a partial TCP send is the largest one that fits (0 iff not even one byte fits).", "quantifier": "all buffer states, all lengths, all caps", "why_tests_cant": "agreement of two separately written placement algorithms (and monotonicity needed by binary search) over all states cannot be sampled", "anchors": ["src/wolfip.c:fifo_can_push_len", "src/wolfip.c:fifo_max_push_payload", "src/wolfip.c:fifo_push", "src/wolfip.c:tx_has_writable_space"]}
{"id": "C04", "title": "TCP receive buffer delivers the exact byte stream", "statement": "Bytes handed to the application by recv are exactly the in-order concatenation of the segments accepted, each byte once, across ring wrap and across 32-bit sequence number wrap; stale, overlapping or non-contiguous data never alters what the application reads.", "quantifier": "all ring sizes, all initial sequence numbers, all sequences of insert/pop calls of any length", "why_tests_cant": "wrap of ring and of sequence space at arbitrary offsets gives an unbounded family of cases", "anchors": ["src/wolfip.c:queue_insert", "src/wolfip.c:queue_pop", "src/wolfip.c:queue_len", "src/wolfip.c:queue_space", "src/wolfip.c:queue_init"]}
{"id": "C05", "title": "TCP receive buffer memory safety and capacity", "statement": "A receive buffer of n bytes of storage never holds more than n-1 bytes, free + used is always n-1, an insert that fits is never refused, and no access falls outside the storage.", "quantifier": "all ring sizes and histories", "why_tests_cant": "off-by-one at wrap is only visible for exact head/tail combinations", "anchors": ["src/wolfip.c:queue_insert", "src/wolfip.c:queue_pop", "src/wolfip.c:queue_space", "src/wolfip.c:queue_len"]}
{"id": "C06", "title": "Sequence number comparison is wrap-safe", "statement": "Comparing two TCP sequence numbers gives the order of the stream offsets they stand for whenever the offsets differ by less than 2^31, wherever in the 32-bit space they lie; increment followed by difference returns the increment.", "quantifier": "all 2^64 pairs of sequence numbers", "why_tests_cant": "2^64 pairs", "anchors": ["src/wolfip.c:tcp_seq_diff", "src/wolfip.c:tcp_seq_leq", "src/wolfip.c:tcp_seq_lt", "src/wolfip.c:tcp_seq_inc"]}
{"id": "C07", "title": "Timers fire in deadline order, exactly once, and cancelled timers never fire", "statement": "For every history of arming, cancelling and expiring timers: the timer delivered next is one with the smallest deadline; arming keeps all other pending timers; cancelling removes exactly that timer and no other; a timer is reported due iff its deadline has been reached; the pending set never exceeds its capacity and arming reports failure only when it is full.", "quantifier": "all histories of insert/cancel/pop, all deadlines and capacities", "why_tests_cant": "heap order bugs surface only for particular tree shapes and deadline patterns", "anchors": ["src/wolfip.c:timers_binheap_insert", "src/wolfip.c:timers_binheap_pop", "src/wolfip.c:timer_binheap_cancel", "src/wolfip.c:timers_heapify", "src/wolfip.c:is_timer_expired"]}
{"id": "C08", "title": "Internet checksum: what the stack emits verifies, and corruption of a word is detected", "statement": "A header or datagram whose checksum field was filled by the stack passes the stack's verification; verification accepts exactly the byte strings whose ones'-complement sum is zero; changing one 16-bit word to a value different modulo 65535 makes verification fail.", "quantifier": "all headers, all payloads of any length (odd and even)", "why_tests_cant": "unbounded input space", "anchors": ["src/wolfip.c:transport_checksum", "src/wolfip.c:transport_verify_checksum", "src/wolfip.c:iphdr_set_checksum", "src/wolfip.c:iphdr_verify_checksum", "src/wolfip.c:icmp_checksum", "src/wolfip.c:ip_checksum_buf"]}
{"id": "C09", "title": "Route lookup is longest-prefix match with deterministic tie break", "statement": "Route lookup returns: self delivery for a local address; otherwise the interface/next hop of a matching connected subnet or static route such that no other match is more specific; ties prefer the connected subnet, then the older route; with no match the first interface with a gateway is used.", "quantifier": "all destination addresses, all interface configurations, all route tables", "why_tests_cant": "2^32 destinations times all tables", "anchors": ["src/wolfip.c:wolfIP_route_lookup_internal", "src/wolfip.c:wolfIP_route_match_prefix", "src/wolfip.c:wolfIP_prefix_mask", "src/wolfip.c:wolfIP_mask_prefix_len", "src/wolfip.c:wolfIP_route_lookup"]}
{"id": "C10", "title": "Route table behaves as a finite map", "statement": "After any history of route_add/route_delete, the table is the finite map keyed by (interface, masked prefix, length) that the successful calls describe: at most one entry per key, add replaces the gateway, delete removes only that key, add fails with ENOMEM only when the table is full, and count/get enumerate exactly the live entries.", "quantifier": "all histories of add/delete/get/count", "why_tests_cant": "history dependent; slot reuse", "anchors": ["src/wolfip.c:wolfIP_route_add", "src/wolfip.c:wolfIP_route_delete", "src/wolfip.c:wolfIP_route_get", "src/wolfip.c:wolfIP_route_count"]}
{"id": "C11", "title": "Prefix length and netmask conversions are inverse", "statement": "A netmask is given a prefix length iff it is contiguous, and the mask rebuilt from that length is the original mask; prefix matching compares exactly the leading prefix_len bits.", "quantifier": "all 2^32 masks, all lengths", "why_tests_cant": "2^32 masks, 2^64 address pairs", "anchors": ["src/wolfip.c:wolfIP_mask_prefix_len", "src/wolfip.c:wolfIP_prefix_mask", "src/wolfip.c:wolfIP_route_match_prefix"]}
{"id": "C12", "title": "Dotted-quad text round trip", "statement": "Formatting an IPv4 address and parsing the text gives the address back; the text never needs more than 16 bytes including the terminator; parsing never reads past the terminator.", "quantifier": "all 2^32 addresses; all strings", "why_tests_cant": "2^32 addresses", "anchors": ["wolfip.h:iptoa", "wolfip.h:atoip4", "wolfip.h:atou"]}
{"id": "C13", "title": "TCP segment acceptability follows RFC 9293", "statement": "A received segment is processed only if it passes the RFC 9293 acceptability test relative to the receive window the stack itself advertises, including zero-window and zero-length cases and sequence wrap.", "quantifier": "all segments, windows and sequence numbers", "why_tests_cant": "2^32 positions times lengths", "anchors": ["src/wolfip.c:tcp_segment_acceptable", "src/wolfip.c:tcp_adv_win"]}
{"id": "C14", "title": "TCP option parsing is total, bounded and correct", "statement": "For every byte string in the option area parsing terminates, reads only bytes inside the segment, and the MSS, window-scale, timestamp and SACK values reported are those of a well-formed option present in the segment; options of a well-formed list are all found.", "quantifier": "all option byte strings of any length", "why_tests_cant": "adversarial inputs", "anchors": ["src/wolfip.c:tcp_parse_options", "src/wolfip.c:tcp_data_offset_bytes", "src/wolfip.c:tcp_build_ack_options"]}
{"id": "C15", "title": "Out-of-order segments never corrupt or reorder the byte stream", "statement": "Whatever order, duplication or overlap segments arrive in, the bytes that become readable are a prefix of the peer's stream, each byte at its sequence position; a hole is never skipped.", "quantifier": "all arrival orders, overlaps, duplications of segments of one stream", "why_tests_cant": "factorial/infinite arrival orders", "anchors": ["src/wolfip.c:tcp_store_ooo_segment", "src/wolfip.c:tcp_consume_ooo", "src/wolfip.c:tcp_recv"]}
{"id": "C16", "title": "SACK blocks sent are truthful", "statement": "Every SACK block advertised describes bytes that have really arrived and lie at or above the cumulative ACK; blocks are disjoint and at most four; the first one covers the segment being answered; a byte once SACKed stays SACKed until it is acknowledged.", "quantifier": "all out-of-order buffer contents", "why_tests_cant": "many combinations with wrap", "anchors": ["src/wolfip.c:tcp_rebuild_rx_sack", "src/wolfip.c:tcp_merge_sack_blocks", "src/wolfip.c:tcp_sort_sack_blocks"]}
{"id": "C17", "title": "Retransmission timeout stays within RFC 6298 bounds", "statement": "For every history of RTT samples the retransmission timeout stays between 1 s and 60 s; back-off never shrinks the wait and never exceeds 64 s.", "quantifier": "all sample histories, all retry counts", "why_tests_cant": "unbounded histories and 2^32 samples", "anchors": ["src/wolfip.c:tcp_rto_update_from_sample", "src/wolfip.c:tcp_rto_clamp", "src/wolfip.c:tcp_backoff_rto_ms"]}
{"id": "C18", "title": "Acknowledgement never frees unacknowledged data", "statement": "A cumulative ACK releases from the send buffer exactly the sent segments wholly covered by it, never one the peer has not acknowledged, and never acknowledges data not sent.", "quantifier": "all send buffer contents and ACK numbers", "why_tests_cant": "wrap and partial acks", "anchors": ["src/wolfip.c:tcp_ack"]}
{"id": "C19", "title": "TCP connection state changes follow the RFC 9293 diagram", "statement": "Every state change caused by a received segment, an API call or a timer is an edge of the RFC 9293 state diagram (plus documented resets to CLOSED/LISTEN); no segment with an unacceptable sequence number or invalid ACK changes the connection state.", "quantifier": "all states, all segments, all API calls", "why_tests_cant": "cross product of states and segments", "anchors": ["src/wolfip.c:tcp_input", "src/wolfip.c:wolfIP_sock_close", "src/wolfip.c:wolfIP_sock_connect", "src/wolfip.c:tcp_rto_cb"]}
{"id": "C20", "title": "ARP cache changes only in answer to our own requests", "statement": "A neighbour entry is created or changed only by an ARP reply matching an outstanding, unexpired request for that address on that interface; other frames never change the address mapping; there is at most one entry per (address, interface); eviction removes the least recently used entry; lookups never return an entry older than the ageing timeout.", "quantifier": "all sequences of ARP frames, lookups, requests and clock readings", "why_tests_cant": "adversarial histories", "anchors": ["src/wolfip.c:arp_recv", "src/wolfip.c:arp_store_neighbor", "src/wolfip.c:arp_neighbor_index", "src/wolfip.c:arp_pending_record", "src/wolfip.c:arp_pending_match_and_clear", "src/wolfip.c:wolfIP_arp_lookup_ex"]}
{"id": "C21", "title": "DHCP option walk is total and bounded", "statement": "For every received DHCP message the option walk terminates, reads only bytes inside the message, and yields exactly the options of the options, file and sname fields selected by the overload option.", "quantifier": "all messages of all lengths", "why_tests_cant": "adversarial inputs", "anchors": ["src/wolfip.c:dhcp_opt_stream_init", "src/wolfip.c:dhcp_opt_stream_next", "src/wolfip.c:dhcp_opt_stream_next_region"]}
{"id": "C22", "title": "DHCP client configures an address only from a matching lease", "statement": "The interface address is set only by an ACK carrying our transaction id from the server we selected, with a usable address; timers satisfy T1 <= T2 <= lease end; on NAK, expiry or conflict the address is withdrawn.", "quantifier": "all sequences of server messages and timer events", "why_tests_cant": "adversarial histories", "anchors": ["src/wolfip.c:dhcp_poll", "src/wolfip.c:dhcp_parse_ack", "src/wolfip.c:dhcp_parse_offer", "src/wolfip.c:dhcp_timer_cb", "src/wolfip.c:dhcp_schedule_lease_timer", "src/wolfip.c:dhcp_dad_conflict"]}
{"id": "C23", "title": "DNS name decoding terminates and stays in bounds", "statement": "Name skipping and copying terminate on every packet, including pointer loops, never read outside the packet nor write outside the output buffer, and return the decoded dotted name for well-formed names.", "quantifier": "all packets and offsets", "why_tests_cant": "adversarial compression pointers", "anchors": ["src/wolfip.c:dns_skip_name", "src/wolfip.c:dns_copy_name", "src/wolfip.c:dns_format_ptr_name"]}
{"id": "C24", "title": "DNS answers are delivered at most once and only for the outstanding question", "statement": "A lookup callback is invoked only with data from a response whose id and question match the outstanding query, and at most once per query; after abort or timeout it is never invoked.", "quantifier": "all sequences of responses, timeouts, queries", "why_tests_cant": "adversarial histories", "anchors": ["src/wolfip.c:dns_callback", "src/wolfip.c:dns_question_matches", "src/wolfip.c:dns_send_query", "src/wolfip.c:dns_timeout_cb", "src/wolfip.c:dns_abort_query"]}
{"id": "C25", "title": "UDP demultiplexing delivers only to matching sockets", "statement": "A valid datagram is queued to exactly the sockets bound to its destination port and address (and, if connected, to its source); malformed or bad-checksum datagrams are delivered nowhere; port-unreachable is sent only for unicast datagrams to a local address with no matching socket.", "quantifier": "all datagrams and socket tables", "why_tests_cant": "cross product", "anchors": ["src/wolfip.c:udp_try_recv"]}
{"id": "C26", "title": "Socket descriptors and bound ports are unambiguous", "statement": "Descriptors of live sockets are distinct and decode to their own slot; two sockets of the same protocol can never be bound to the same port with overlapping addresses; operations on foreign or out-of-range descriptors fail without effect.", "quantifier": "all histories of socket/bind/close", "why_tests_cant": "history dependent", "anchors": ["src/wolfip.c:wolfIP_sock_socket", "src/wolfip.c:wolfIP_sock_bind", "src/wolfip.c:bind_port_in_use", "src/wolfip.c:wolfIP_socket_from_fd", "wolfip.h:SOCKET_UNMARK"]}
{"id": "C27", "title": "Forwarding decrements TTL, never loops back and never forwards expired packets", "statement": "A forwarded packet leaves with TTL one lower, all other IP fields unchanged and a valid header checksum; packets with TTL <= 1 are never forwarded; a packet is never forwarded out of the interface it came from by subnet match.", "quantifier": "all packets and configurations", "why_tests_cant": "cross product", "anchors": ["src/wolfip.c:ip_recv", "src/wolfip.c:wolfIP_forward_interface", "src/wolfip.c:wolfIP_forward_packet", "src/wolfip.c:wolfIP_forward_prepare"]}
{"id": "C28", "title": "VLAN table integrity", "statement": "Live VLAN sub-interfaces have pairwise distinct (parent, VID), valid VID/PCP/DEI, and number at most WOLFIP_VLAN_MAX; get returns what create was given; delete removes only the named one; tag insertion then tag removal restores the frame.", "quantifier": "all histories of create/delete/get; all frames", "why_tests_cant": "history dependent", "anchors": ["src/wolfip.c:wolfIP_vlan_create", "src/wolfip.c:wolfIP_vlan_delete", "src/wolfip.c:wolfIP_vlan_get", "src/wolfip.c:wolfIP_ll_send_frame", "src/wolfip.c:wolfIP_recv_on"]}
{"id": "C29", "title": "ESP anti-replay window", "statement": "No ESP sequence number is accepted twice; a number older than the window is rejected; a number newer than every accepted one is accepted; a not yet seen number inside the window is accepted; failed authentication leaves the window unchanged.", "quantifier": "all arrival sequences of 32-bit sequence numbers", "why_tests_cant": "unbounded histories", "anchors": ["src/wolfesp.c:esp_replay_check", "src/wolfesp.c:esp_replay_commit"]}
{"id": "C30", "title": "wolfGuard counter window", "statement": "No data-packet counter is accepted twice on a key; counters at least a window older than the newest are rejected; unseen counters within the window or newer are accepted below the message limit.", "quantifier": "all arrival sequences of 64-bit counters", "why_tests_cant": "unbounded histories", "anchors": ["src/wolfguard/wg_packet.c:wg_counter_validate"]}
{"id": "C31", "title": "wolfGuard cryptokey routing is longest-prefix match", "statement": "Allowed-IP lookup returns the peer of the most specific inserted prefix containing the address, or none; insert replaces the peer of an existing prefix; removal removes exactly one peer's prefixes.", "quantifier": "all histories of insert/remove and all addresses", "why_tests_cant": "2^32 addresses times tables", "anchors": ["src/wolfguard/wg_allowedips.c:wg_allowedips_insert", "src/wolfguard/wg_allowedips.c:wg_allowedips_lookup", "src/wolfguard/wg_allowedips.c:wg_allowedips_remove_by_peer"]}
{"id": "C32", "title": "TFTP transfers reproduce the file", "statement": "Under any loss, duplication or reordering of packets, the bytes delivered to the sink are a prefix of the source file, and equal to it when the transfer reports success; block number wrap is handled.", "quantifier": "all files, all network schedules", "why_tests_cant": "all schedules", "anchors": ["src/tftp/wolftftp.c:wolftftp_client_accept_data", "src/tftp/wolftftp.c:wolftftp_server_accept_wrq_data", "src/tftp/wolftftp.c:wolftftp_server_send_window"]}
{"id": "C33", "title": "TFTP request parsing is safe", "statement": "Parsing any request terminates, reads only inside the packet, accepts only NUL-terminated strings, never accepts a file name that escapes the directory, and options negotiated are within the configured limits; a built request parses back to the same fields.", "quantifier": "all byte strings", "why_tests_cant": "adversarial inputs", "anchors": ["src/tftp/wolftftp.c:wolftftp_parse_request", "src/tftp/wolftftp.c:wolftftp_filename_is_safe", "src/tftp/wolftftp.c:wolftftp_parse_u32", "src/tftp/wolftftp.c:wolftftp_build_request", "src/tftp/wolftftp.c:wolftftp_parse_oack"]}
{"id": "C34", "title": "WPA keys are installed only by an authenticated, fresh handshake message", "statement": "Pairwise/group keys are handed to the driver only after a message with valid MIC, matching nonce and strictly newer replay counter; a replayed message never reinstalls a key.", "quantifier": "all sequences of EAPOL frames", "why_tests_cant": "adversarial histories", "anchors": ["src/supplicant/supplicant.c:supp_rx_key", "src/supplicant/supplicant.c:supp_handle_m1", "src/supplicant/supplicant.c:supp_handle_m3", "src/supplicant/supplicant.c:supp_handle_group_m1"]}
{"id": "C35", "title": "EAPOL-Key frame codec round trip and bounds", "statement": "Parsing never reads outside the frame and rejects inconsistent lengths; building then parsing returns the same fields.", "quantifier": "all frames", "why_tests_cant": "unbounded input", "anchors": ["src/supplicant/eapol.c:eapol_key_parse", "src/supplicant/eapol.c:eapol_key_build"]}
{"id": "C36", "title": "EAP-TLS fragmentation is lossless", "statement": "A TLS flight cut into fragments by the sender and reassembled by the receiver is the same byte string, whatever the fragment size; oversized or inconsistent fragments are rejected without overflow.", "quantifier": "all messages, all fragment sizes", "why_tests_cant": "unbounded", "anchors": ["src/supplicant/eap_tls.c:eap_tls_rx_fragment", "src/supplicant/eap_tls.c:eap_tls_tx_fragment"]}
{"id": "C37", "title": "HTTP URL coding is safe and inverse", "statement": "Percent-decoding never grows the string nor reads past it, and decoding an encoded string returns the original; encoding never writes past the given maximum.", "quantifier": "all byte strings", "why_tests_cant": "unbounded", "anchors": ["src/http/httpd.c:http_url_decode", "src/http/httpd.c:http_url_encode", "src/http/httpd.c:http_hex_value"]}
{"id": "C38", "title": "Loopback device is a bounded FIFO", "statement": "Packets sent to the loopback interface are received exactly once, unmodified, in order; when full the sender is told to retry and nothing is lost.", "quantifier": "all histories of send/poll", "why_tests_cant": "history dependent", "anchors": ["src/wolfip.c:wolfIP_loopback_send", "src/wolfip.c:wolfIP_loopback_poll"]}
{"id": "C39", "title": "Multicast membership is reference counted", "statement": "An interface is a member of a group iff some open socket has joined it; join/leave reports are emitted exactly on the first join and last leave.", "quantifier": "all histories of join/leave/close", "why_tests_cant": "history dependent", "anchors": ["src/wolfip.c:udp_mcast_join", "src/wolfip.c:udp_mcast_drop", "src/wolfip.c:udp_mcast_drop_all"]}
{"id": "C40", "title": "Interface MTU and derived MSS bounds", "statement": "Whatever MTU the driver reports or the user sets, the effective frame size stays within the link limits and the TCP segment produced (headers + options + payload) never exceeds the interface IP MTU nor the peer's MSS.", "quantifier": "all mtu values, VLAN nesting, peer MSS values", "why_tests_cant": "2^32 values", "anchors": ["src/wolfip.c:wolfIP_ll_frame_mtu", "src/wolfip.c:wolfIP_ip_mtu", "src/wolfip.c:tcp_tx_payload_cap", "src/wolfip.c:wolfIP_mtu_set"]}
{"id": "C41", "title": "ESP outbound sequence numbers never repeat", "statement": "Under one outbound SA the k-th packet sent carries sequence number k; when the 32-bit space is exhausted the sender refuses instead of wrapping; with the persistence callbacks this continues across restarts.", "quantifier": "all histories of sends, receives and restarts", "why_tests_cant": "histories of up to 2^32 packets and arbitrary restart points", "anchors": ["src/wolfesp.c:esp_transport_wrap", "src/wolfesp.c:esp_state_save", "src/wolfesp.c:esp_state_restore"]}
{"id": "C42", "title": "What TCP puts on the wire is the application's byte stream", "statement": "Every TCP segment transmitted - first transmission, retransmission or zero-window probe - carries exactly the bytes the application passed to send() at the stream position its sequence number denotes; send() returning n means exactly the first n bytes were taken.", "quantifier": "all interleavings of send, acknowledgement, timeout, flush, close and window updates", "why_tests_cant": "unbounded histories, sequence wrap, retransmission after partial acks", "anchors": ["src/wolfip.c:wolfIP_sock_sendto", "src/wolfip.c:flush_tcp_tx", "src/wolfip.c:tcp_persist_cb", "src/wolfip.c:tcp_ack"]}
{"id": "C43", "title": "TCP data is kept until acknowledged", "statement": "Every byte accepted by send() and not yet acknowledged by the peer is still held for retransmission.", "quantifier": "all histories", "why_tests_cant": "depends on the interleaving of ACK generation and data transmission", "anchors": ["src/wolfip.c:flush_tcp_tx", "src/wolfip.c:tcp_ack", "src/wolfip.c:tcp_send_empty"]}
{"id": "C44", "title": "TCP flow control", "statement": "New data is sent only within the peer's advertised window (and the congestion window) beyond the highest acknowledged byte.", "quantifier": "all histories", "why_tests_cant": "depends on loss patterns", "anchors": ["src/wolfip.c:flush_tcp_tx", "src/wolfip.c:tcp_resync_inflight", "src/wolfip.c:tcp_mark_unsacked_for_retransmit"]}
{"id": "C45", "title": "TCP retransmission liveness", "statement": "While transmitted data (or a FIN) is unacknowledged a timer is running, and when it expires the next transmission opportunity retransmits the first unacknowledged data until the documented number of attempts.", "quantifier": "all states and timeouts", "why_tests_cant": "a liveness property over all loss patterns", "anchors": ["src/wolfip.c:tcp_rto_cb", "src/wolfip.c:tcp_resync_inflight", "src/wolfip.c:flush_tcp_tx", "src/wolfip.c:tcp_ack"]}
{"id": "C46", "title": "RTT samples obey Karn's rule", "statement": "A round-trip sample not taken from a timestamp echo is the age of a segment transmitted exactly once and covered by the acknowledgement.", "quantifier": "all histories", "why_tests_cant": "depends on retransmission history", "anchors": ["src/wolfip.c:tcp_ack", "src/wolfip.c:flush_tcp_tx"]}
{"id": "C47", "title": "A listening port recovers", "statement": "A socket on which listen() succeeded returns to accepting connections when the connection it holds is completed, reset or abandoned by the peer, whatever the peer sends and whenever accept() is called.", "quantifier": "all histories of segments, timeouts and calls", "why_tests_cant": "adversarial timing between peer segments and accept()", "anchors": ["src/wolfip.c:tcp_listener_revert_to_listen", "src/wolfip.c:wolfIP_sock_accept", "src/wolfip.c:tcp_rto_cb", "src/wolfip.c:tcp_input"]}
{"id": "C48", "title": "PAWS and TS.Recent", "statement": "With timestamps negotiated, a segment older than the last recorded timestamp never changes the connection, and the recorded timestamp follows the newest in-order segment.", "quantifier": "all connections and segments", "why_tests_cant": "32-bit modular comparison over histories", "anchors": ["src/wolfip.c:tcp_paws_check", "src/wolfip.c:tcp_process_ts"]}
{"id": "C49", "title": "Half-open and half-closed connections do not live for ever", "statement": "A connection waiting for the handshake or for the peer's FIN always has a running timer; nine expiries end a handshake, one ends FIN_WAIT_2; a connection waiting for the acknowledgement of its FIN keeps retransmitting it.", "quantifier": "all reachable socket tables", "why_tests_cant": "a liveness property over all histories", "anchors": ["src/wolfip.c:tcp_rto_cb", "src/wolfip.c:tcp_ctrl_rto_start", "src/wolfip.c:tcp_fin_wait_2_timeout_start"]}
{"id": "C50", "title": "TCP connections are isolated from each other's segments", "statement": "A segment changes no socket other than those whose local port and, if connected, whose 4-tuple it carries; a segment that is unacceptable to the connection it addresses changes nothing of it.", "quantifier": "all socket tables and segments", "why_tests_cant": "every other connection at once", "anchors": ["src/wolfip.c:tcp_input"]}
{"id": "C51", "title": "TCP resets are sent only as RFC 9293 prescribes", "statement": "A reset never answers a reset; its sequence and acknowledgement numbers are those of RFC 9293 3.5.2; it is sent for every segment no socket matches, and otherwise only for an acknowledgement of something never sent before synchronisation.", "quantifier": "all socket tables and segments", "why_tests_cant": "state and segment cross product", "anchors": ["src/wolfip.c:tcp_send_reset_reply", "src/wolfip.c:tcp_input"]}
{"id": "C52", "title": "TCP handshake and close progress", "statement": "A valid SYN to a listener, SYN-ACK, final ACK, FIN, acknowledgement of a FIN or exact reset is never ignored: it moves the connection to the state of the RFC 9293 diagram and updates RCV.NXT.", "quantifier": "all reachable socket tables and all such segments", "why_tests_cant": "must hold whatever else the table contains", "anchors": ["src/wolfip.c:tcp_input", "src/wolfip.c:tcp_ack"]}
{"id": "C53", "title": "No two TCP connections share a 4-tuple", "statement": "At no time do two live sockets have the same local and remote address and port.", "quantifier": "all histories", "why_tests_cant": "depends on random port choices", "anchors": ["src/wolfip.c:wolfIP_sock_connect", "src/wolfip.c:wolfIP_sock_accept"]}
{"id": "C54", "title": "DHCP client messages are well formed and addressed as RFC 2131 asks", "statement": "Every datagram the client sends is a BOOTREQUEST with its current transaction id and hardware address; DISCOVER and selecting REQUEST are broadcast with client address 0, the latter naming the selected server and the offered address; a renewing REQUEST goes to the server, a rebinding one is broadcast, both with the leased address and without options 50 and 54; DECLINE names the address in conflict. ARP probes ask for the address being tested.", "quantifier": "all histories of events and failures", "why_tests_cant": "history dependent", "anchors": ["src/wolfip.c:dhcp_send_request", "src/wolfip.c:dhcp_send_discover", "src/wolfip.c:dhcp_send_decline"]}
{"id": "C55", "title": "DHCP client is never stuck", "statement": "Unless it is off, the client always has exactly one timer pending, due within the time its state prescribes, so that it retransmits, renews, rebinds or gives up without further calls of the application; after dhcp_client_init a lost DISCOVER is retransmitted.", "quantifier": "all histories of events and failures", "why_tests_cant": "liveness over histories", "anchors": ["src/wolfip.c:dhcp_timer_cb", "src/wolfip.c:dhcp_schedule_timer_at", "src/wolfip.c:dhcp_client_init"]}
{"id": "C56", "title": "IPv4 input accepts exactly well-formed packets and hands them up unchanged", "statement": "A received frame reaches TCP/UDP/ICMP/IGMP only if its IPv4 header is complete, checksummed, unfragmented, without source routing or malformed options, from a plausible source; it then arrives without its options and otherwise byte for byte; a packet for this host that satisfies this always arrives; every other packet has no effect; no frame content leads to an out-of-bounds access.", "quantifier": "all frames, configurations and histories", "why_tests_cant": "all byte strings", "anchors": ["src/wolfip.c:ip_recv"]}
{"id": "C57", "title": "Relayable packets are relayed", "statement": "A relayable packet is relayed at once or waits for ARP; the answer to a pending ARP request releases the waiting packet to the answering host; waiting packets do not block others for ever.", "quantifier": "all histories of packets, ARP replies and time", "why_tests_cant": "needs unbounded histories", "anchors": ["src/wolfip.c:ip_recv", "src/wolfip.c:arp_queue_packet", "src/wolfip.c:arp_flush_pending"]}
{"id": "C58", "title": "A WPA handshake completes or ends", "statement": "Given a master key, a valid message 1 is answered with message 2 and a valid message 3 with the keys handed to the driver, message 4 and the authenticated state; a valid newer group message is installed and acknowledged; ten seconds after the last successful kick a tick leaves no handshake pending, and message 2 is resent at most three times between other events.", "quantifier": "all contexts reachable by any history, all valid frames, all clock values", "why_tests_cant": "history dependent liveness", "anchors": ["src/supplicant/supplicant.c:supp_handle_m1", "src/supplicant/supplicant.c:supp_handle_m3", "src/supplicant/supplicant.c:wolfip_supplicant_tick", "src/supplicant/supplicant.c:wolfip_supplicant_kick"]}
{"id": "C59", "title": "WPA handshakes run on the configured master key", "statement": "The master key of every handshake is the one the configuration in force dictates: the configured PSK, PBKDF2 of the configured passphrase and SSID (even when taken from the PMKSA cache), the MSK of a TLS handshake completed since, or a PMK installed or confirmed by SAE since.", "quantifier": "all histories of init, frames, cache operations and reconnects", "why_tests_cant": "history dependent: the cache outlives init", "anchors": ["src/supplicant/supplicant.c:wolfip_supplicant_init", "src/supplicant/supplicant.c:wolfip_supplicant_pmksa_reconnect", "src/supplicant/supplicant.c:supp_handle_eap_success", "src/supplicant/supplicant.c:wolfip_supplicant_rx_auth_frame"]}
{"id": "C60", "title": "TFTP server sessions are isolated and bounded", "statement": "The server has at most four sessions, at most one per peer, each with its own port and file; a packet from one peer causes sends only to that peer and touches only files opened for that peer, and leaves every other peer's session as it was; any packet is handled without an access out of bounds.", "quantifier": "all histories of packets from any peers, polls and callback results", "why_tests_cant": "interleavings of several peers", "anchors": ["src/tftp/wolftftp.c:wolftftp_server_receive", "src/tftp/wolftftp.c:wolftftp_server_start_request", "src/tftp/wolftftp.c:wolftftp_server_poll"]}
{"id": "C61", "title": "TFTP server file handles", "statement": "Files are read, written, hashed, verified and closed only between their successful open and their close, reads only through handles opened for reading and writes only through handles opened for writing; every open file belongs to exactly one session; a session whose peer is silent is dropped, and its file closed, within max_retries+2 polls.", "quantifier": "all histories of packets, polls and callback results", "why_tests_cant": "unbounded histories", "anchors": ["src/tftp/wolftftp.c:wolftftp_server_finish", "src/tftp/wolftftp.c:wolftftp_server_poll", "src/tftp/wolftftp.c:wolftftp_server_accept_wrq_data"]}
{"id": "C62", "title": "Datagram sending is exact and ordered", "statement": "sendto() either queues one well-formed datagram (or ICMP message) carrying exactly the caller's bytes from the socket's address and port to the destination and returns their number, or queues nothing and returns an error for a stated reason; polling transmits each socket's queue in order, every frame once, unaltered but for the link header, addressed to the resolved neighbour, and keeps what cannot be sent; a looped-back multicast reaches exactly the local sockets that asked for it; options take effect as set.", "quantifier": "all histories, payloads, configurations, driver and ARP answers", "why_tests_cant": "order and exactness over unbounded histories of sends, refusals and buffer positions", "anchors": ["src/wolfip.c:wolfIP_sock_sendto", "src/wolfip.c:wolfIP_poll", "src/wolfip.c:ip_output_add_header", "src/wolfip.c:wolfIP_sock_setsockopt"]}
{"id": "C63", "title": "ICMP echo and ICMP sockets", "statement": "A valid echo request to one of the host's unicast addresses is answered with a reply carrying the same identifier, sequence and data to the requester; none is sent otherwise; an echo reply or other message reaches exactly the ICMP sockets whose address, identifier and peer agree, and recvfrom returns them whole, oldest first.", "quantifier": "all frames, configurations and histories", "why_tests_cant": "all byte strings and socket tables", "anchors": ["src/wolfip.c:icmp_input", "src/wolfip.c:icmp_try_recv", "src/wolfip.c:wolfIP_sock_recvfrom"]}
{"id": "C64", "title": "HTTP requests are parsed exactly", "statement": "Whatever bytes a client sends, the server reads and writes only inside its arrays, and: a well-formed GET or POST within the size limits is answered with the page registered first under its decoded path (404 if none), a handler receiving exactly the method, path, query, headers and body that were sent; bytes that are not such a request - including any whose declared framing (Content-Length, Transfer-Encoding) disagrees with the bytes present - get 400 and reach no handler; no byte string can be read as a request in two ways; at most sixteen pages are registered, later registrations failing without effect.", "quantifier": "all byte strings up to the buffer size, all registration histories, all previous buffer contents", "why_tests_cant": "the space of byte strings and of header/length interactions is unbounded for tests", "anchors": ["src/http/httpd.c:parse_http_request", "src/http/httpd.c:http_header_value", "src/http/httpd.c:http_recv_cb", "src/http/httpd.c:httpd_register_handler", "src/http/httpd.c:http_find_url"]}
{"id": "C65", "title": "HTTP request arguments", "statement": "In a handler, httpd_get_request_arg stores the value of the first argument with that name, from the query of a GET or the body of a POST, NUL-terminated in the caller's buffer and returns 0; if there is none or it does not fit it returns -1 and leaves the buffer alone; it never accesses memory outside the request or the buffer.", "quantifier": "all requests, names and buffer sizes", "why_tests_cant": "all strings", "anchors": ["src/http/httpd.c:httpd_get_request_arg"]}
{"id": "C66", "title": "TCP end to end", "statement": "Connect two hosts running this stack through a network that loses, duplicates and reorders packets at will: the bytes recv() has returned plus those it could return are always a prefix of the bytes send() accepted, and every accepted byte that has not arrived is still queued at the sender.", "quantifier": "all executions: sends, timers, transmissions, deliveries, reads in any order", "why_tests_cant": "every schedule of an adversarial network and two hosts", "anchors": ["src/wolfip.c:tcp_input", "src/wolfip.c:tcp_ack", "src/wolfip.c:flush_tcp_tx", "src/wolfip.c:tcp_rto_cb", "src/wolfip.c:tcp_recv"]}
{"id": "C67", "title": "TCP recovers lost data", "statement": "Whatever the network lost so far: if a byte that was transmitted has not arrived, the connection is established and not given up, then reading, one acknowledgement, at most one retransmission timeout, one transmission and one delivery make the receiver's stream longer.", "quantifier": "all states reachable by the two hosts and the network", "why_tests_cant": "quantifies over every history and asserts a continuation", "anchors": ["src/wolfip.c:tcp_rto_cb", "src/wolfip.c:flush_tcp_tx", "src/wolfip.c:tcp_ack", "src/wolfip.c:tcp_recv"]}
{"id": "C68", "title": "wolfGuard never reuses a nonce", "statement": "As long as no two sessions derive the same keys, no two transport messages a device ever sends are encrypted under the same key and counter.", "quantifier": "all histories of configuration, outgoing packets, polls and received datagrams, all primitives and random values", "why_tests_cant": "two uses of a nonce may be separated by any number of rekeys, replays and timer events", "anchors": ["src/wolfguard/wg_packet.c:wg_packet_send", "src/wolfguard/wg_packet.c:wg_packet_send_keepalive", "src/wolfguard/wg_noise.c:wg_noise_begin_session"]}
{"id": "C69", "title": "wolfGuard session limits", "statement": "A device encrypts to a peer, and accepts from it, only under a key of a session established with that same peer less than 180 s before; counters stay below 2^64-1026, and packets (not keepalives) below 2^60.", "quantifier": "all histories", "why_tests_cant": "depends on every earlier handshake, timer and confirmation", "anchors": ["src/wolfguard/wg_packet.c:wg_packet_send", "src/wolfguard/wg_packet.c:wg_handle_data", "src/wolfguard/wg_packet.c:wg_packet_send_keepalive", "src/wolfguard/wg_timers.c:wg_timers_tick"]}
{"id": "C70", "title": "wolfGuard injects only authentic packets, once", "statement": "A packet enters the stack from the tunnel only when a data message arrives that decrypts to it under a live session of a peer, and its source address belongs to that peer by longest-prefix match over the allowed IPs configured so far; no message is accepted twice; an outgoing packet goes to the peer that owns its destination.", "quantifier": "all histories and datagrams", "why_tests_cant": "all byte strings and histories", "anchors": ["src/wolfguard/wg_packet.c:wg_handle_data", "src/wolfguard/wolfguard.c:wolfguard_output", "src/wolfguard/wg_allowedips.c:wg_allowedips_lookup"]}
{"id": "C71", "title": "wolfGuard packets wait for the session", "statement": "A packet routed to a peer without a usable session waits, at most 16 per peer; each packet is encrypted at most once, only to its peer, padded (a waiting one cut to 1536 bytes) and otherwise unaltered; the response that completes a handshake sends everything waiting for that peer at once, oldest first, numbered from 0, and one empty message if nothing waits.", "quantifier": "all histories, packets, primitives and random values", "why_tests_cant": "packets wait across any number of handshake attempts, losses and timer events", "anchors": ["src/wolfguard/wg_packet.c:wg_packet_send", "src/wolfguard/wg_packet.c:wg_stage_packet", "src/wolfguard/wg_packet.c:wg_packet_send_staged", "src/wolfguard/wg_packet.c:wg_handle_response"]}
{"id": "C72", "title": "wolfGuard handshakes agree and deliver", "statement": "If two devices know each other's public key and the same pre-shared key, the initiation one created last, arriving at the other (not under load, generator working), is answered, and the answer creates at both a session with the same pair of keys, sending keys of one being receiving keys of the other; every packet that was waiting is then sent, and the other side decrypts and accepts each exactly once, however the network reorders or repeats the datagrams.", "quantifier": "all histories of both devices, all times, primitives satisfying the laws of Diffie-Hellman and authenticated encryption, all arrival orders", "why_tests_cant": "both sides' states depend on unbounded histories; arrival orders are unbounded", "anchors": ["src/wolfguard/wg_noise.c:wg_noise_create_initiation", "src/wolfguard/wg_noise.c:wg_noise_consume_initiation", "src/wolfguard/wg_noise.c:wg_noise_create_response", "src/wolfguard/wg_noise.c:wg_noise_consume_response", "src/wolfguard/wg_packet.c:wg_handle_data"]}
{"id": "C73", "title": "wolfGuard handshakes are fresh", "statement": "Whatever arrives, in whatever order and however often, the initiations a device accepts from one peer carry strictly increasing timestamps and are at least five seconds apart; an initiation that was accepted once changes no peer and is never answered again, except, under load, by a cookie reply to its source.", "quantifier": "all histories, all datagrams, all later times", "why_tests_cant": "a replay may come after any history", "anchors": ["src/wolfguard/wg_noise.c:wg_noise_consume_initiation", "src/wolfguard/wg_packet.c:wg_handle_initiation"]}
{"id": "C74", "title": "wolfGuard under load", "statement": "A handshake message whose first MAC is wrong (its sender does not know the device's public key) changes nothing and is not answered. A device is under load only if at least eight datagrams arrived between its last two polls. Under load, a handshake message without a valid cookie for its source address changes no peer and causes no key exchange: at most one datagram goes back to its source, holding the cookie for that address sealed for a sender that knows the device's public key and the message. A peer that takes that cookie gets through: its next initiation, made within two minutes and arriving from the same address while the device's cookie secret is at most two minutes old, is answered although the device is under load.", "quantifier": "all histories of both devices, all datagrams, sources, times and random choices", "why_tests_cant": "load, cookie secret and handshake state depend on unbounded histories", "anchors": ["src/wolfguard/wg_cookie.c:wg_cookie_validate", "src/wolfguard/wg_cookie.c:wg_cookie_create_reply", "src/wolfguard/wg_cookie.c:wg_cookie_consume_reply", "src/wolfguard/wg_cookie.c:wg_cookie_add_macs", "src/wolfguard/wg_packet.c:wg_handle_initiation", "src/wolfguard/wg_packet.c:wg_handle_cookie", "src/wolfguard/wolfguard.c:wolfguard_poll"]}
{"id": "C75", "title": "wolfGuard sends home", "statement": "A wolfGuard device puts nothing on the wire but packets sealed for a peer, initiations, responses and cookie replies. What is for a peer goes to the address and port that peer was configured with, or, once something was authenticated as coming from it (a new data packet, an initiation, the response completing a session), to where the last such datagram came from; responses and cookie replies go to the sender of the datagram being handled. A datagram that is not authenticated moves no peer and makes the device send at most one datagram, back to its sender and shorter than it.", "quantifier": "all histories of calls and datagrams (keys, peers, times, replays, forgeries), all primitives", "why_tests_cant": "the endpoint depends on the whole history; forged datagrams are arbitrary", "anchors": ["src/wolfguard/wg_packet.c:wg_packet_send", "src/wolfguard/wg_packet.c:wg_packet_send_keepalive", "src/wolfguard/wg_packet.c:wg_handle_data", "src/wolfguard/wg_packet.c:wg_handle_initiation", "src/wolfguard/wg_packet.c:wg_handle_response", "src/wolfguard/wg_timers.c:wg_send_handshake_initiation", "src/wolfguard/wg_cookie.c:wg_cookie_create_reply"]}
{"id": "C76", "title": "ESP round trip", "statement": "A datagram one host sends through an ESP association is handed to the transport protocols of a host holding the same association exactly as it would have been without ESP, whatever the suite and the link padding; and in a whole conversation over a network that loses, reorders and duplicates packets, a packet is delivered if and only if it was not delivered before and is within 64 numbers of the newest one delivered.", "quantifier": "all datagrams (with options), suites, tables, random values, arrival sequences, and all primitives in which decryption inverts encryption", "why_tests_cant": "all byte strings, all orders of arrival", "anchors": ["src/wolfesp.c:esp_transport_wrap", "src/wolfesp.c:esp_transport_unwrap", "src/wolfip.c:esp_send"]}
{"id": "C77", "title": "ESP accepts only authentic packets", "statement": "Whatever frame arrives for a host, what goes up is either a packet that is not ESP, or exactly the payload (without padding) of an ESP packet that is authentic under the first inbound association with its SPI and addresses and whose number the replay window accepts; any other frame changes no association. With integrity protection on every association a frame delivered once is never delivered again, whatever arrives before or in between.", "quantifier": "all frames, tables, histories of received frames", "why_tests_cant": "forged and replayed frames are arbitrary bytes after arbitrary histories", "anchors": ["src/wolfesp.c:esp_transport_unwrap", "src/wolfesp.c:esp_check_icv_hmac", "src/wolfesp.c:esp_replay_check", "src/wolfip.c:ip_recv"]}
{"id": "C78", "title": "ESP numbers and nonces never repeat", "statement": "In whatever a host sends, interleaved with any other traffic and any failures, the packets of one association carry strictly increasing sequence numbers that never wrap, and under the GCM suites different IVs, hence different nonces for its key.", "quantifier": "all histories of sends of any length", "why_tests_cant": "a repetition may come 2^32 packets later", "anchors": ["src/wolfesp.c:esp_transport_wrap", "src/wolfesp.c:esp_rfc4106_gen_iv"]}
{"id": "C79", "title": "ESP associations are sound and nothing covered leaves in clear", "statement": "From empty tables, through any history of creating, restoring and deleting associations, receiving and sending, no step writes outside a buffer or misbehaves, and every association in use has a known suite with matching key and ICV lengths. On Ethernet devices a datagram leaves unprotected only if no outbound association covers its addresses; otherwise nothing leaves, or an ESP packet authentic under the first covering association whose plaintext is exactly the datagram's payload and protocol.", "quantifier": "all histories of API calls, frames, datagrams up to 1522 bytes", "why_tests_cant": "table contents, failures and lengths combine without bound", "anchors": ["src/wolfesp.c:wolfIP_esp_sa_new_gcm", "src/wolfesp.c:wolfIP_esp_sa_new_hmac", "src/wolfesp.c:wolfIP_esp_sa_new_cbc_hmac", "src/wolfesp.c:wolfIP_esp_sa_new_des3_hmac", "src/wolfesp.c:wolfIP_esp_sa_del", "src/wolfesp.c:esp_transport_wrap", "src/wolfip.c:esp_send"]}
{"id": "C80", "title": "Raw sockets receive exactly what they ask for", "statement": "An IPv4 packet that reaches the raw socket tap is queued, whole and without link header or padding, on every open raw socket whose protocol, bound address and interface (each possibly any) match it, if the queue accepts it, and changes nothing else. recvfrom returns the oldest queued packet and its source address, or discards it if the buffer is too small. Over any history during which the socket stays open, what was handed out and what is queued is a subsequence, in order, of what was queued and the matching packets that arrived, and all of it if there was always room and every buffer was long enough.", "quantifier": "all histories of calls, arrivals and polls, all packets, configurations changing at will", "why_tests_cant": "loss, order and duplication depend on the whole history and the ring buffer's position", "anchors": ["src/wolfip.c:raw_try_recv", "src/wolfip.c:wolfIP_sock_recvfrom"]}
{"id": "C81", "title": "Packet sockets receive exactly what they ask for", "statement": "A frame that reaches the packet tap is queued whole, with the interface it came in on, on every open packet socket whose type and interface match it and that has room, and changes nothing else. recvfrom returns the oldest queued frame with its interface, type and sender, or discards it if the buffer is too small. Over any history during which the socket stays open, what was handed out and what is queued is a subsequence, in order, of what was queued and the matching frames that arrived, and all of it if nothing was refused for lack of room.", "quantifier": "all histories of calls, arrivals and polls, all frames of at least 14 bytes", "why_tests_cant": "as for raw sockets", "anchors": ["src/wolfip.c:packet_try_recv", "src/wolfip.c:wolfIP_sock_recvfrom"]}
{"id": "C82", "title": "Raw sockets send what was asked, in order", "statement": "sendto either refuses and queues nothing, or accepts the data and queues exactly one packet: the data behind a correct header from the socket's own, interface's or primary address to the destination, or with IP_HDRINCL the given packet, changed at most in destination and checksum. Each poll gives the queued packets in order to the interfaces the routing table names (with SO_DONTROUTE: the socket's), each under the interface's address to the neighbour ARP knows for it (or everybody, or the loopback interface), with a correct header checksum unless the header was supplied; what is not sent stays in order, and nothing stays if ARP knows every neighbour and the filter is silent. Over any history what left and what is queued is, in order, what was queued and what sendto accepted.", "quantifier": "all histories of calls and polls, all data, destinations, tables, ARP and driver answers", "why_tests_cant": "the queue's contents and the ARP answers depend on the whole history", "anchors": ["src/wolfip.c:wolfIP_sock_sendto", "src/wolfip.c:raw_route_for_ip", "src/wolfip.c:wolfIP_poll"]}
{"id": "C83", "title": "Packet sockets send what was asked, in order", "statement": "sendto either refuses and queues nothing, or accepts the frame and queues exactly it, with the interface's own address as source and the given destination and type. Each poll hands every queued frame, unchanged and in order, to the interface the socket sent to last; over any history what left and what is queued is, in order, what was queued and what sendto accepted.", "quantifier": "all histories of calls and polls, all frames, addresses and driver answers", "why_tests_cant": "as for raw sockets", "anchors": ["src/wolfip.c:wolfIP_sock_sendto", "src/wolfip.c:wolfIP_poll"]}
{"id": "C84", "title": "Raw and packet sockets are safe and independent", "statement": "From the initial state, through any history of creating, binding, connecting, configuring, using and closing raw and packet sockets, receiving frames and polling, no operation reads or writes outside a buffer or misbehaves otherwise; a driver is only given, and takes, frames that fit its interface; an operation on one socket leaves the queues of every other as they are.", "quantifier": "all histories of admissible operations", "why_tests_cant": "ring positions, lengths and slot reuse combine without bound", "anchors": ["src/wolfip.c:raw_try_recv", "src/wolfip.c:packet_try_recv", "src/wolfip.c:wolfIP_sock_sendto", "src/wolfip.c:wolfIP_sock_recvfrom", "src/wolfip.c:wolfIP_poll"]}
{"id": "C85", "title": "DNS lookups end", "statement": "Whatever the history of lookups, received datagrams, errors and timer expiries, provided the timers the client asks for are granted, after four more expiries of its timer the client accepts the next lookup of any valid name and sends its query: no unanswered lookup blocks the resolver for ever. A reverse lookup that is outstanding is answered by any message answering it, with the first readable host name in it.", "quantifier": "all histories of calls, datagrams and timer expiries, all names, all messages", "why_tests_cant": "the state after an arbitrary history, arbitrary bytes in the answers", "anchors": ["src/wolfip.c:dns_timeout_cb", "src/wolfip.c:dns_abort_query", "src/wolfip.c:dns_send_query", "src/wolfip.c:dns_callback"]}
