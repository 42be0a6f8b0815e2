import json
P=[]
def p(title, statement, quant, why, anchors):
    P.append(dict(id="C%02d"%(len(P)+1), title=title, statement=statement, quantifier=quant, why_tests_cant=why, anchors=anchors))
W="src/wolfip.c"
p("Datagram buffer is a lossless FIFO queue",
  "Every datagram/segment a socket buffer has accepted is later handed out exactly once, unmodified, in acceptance order, whatever the interleaving of accepts and removals and however often the circular buffer wraps.",
  "all buffer sizes, all histories of push/peek/next/pop with arbitrary payload lengths and contents",
  "loss needs one particular alignment of head, tail and wrap marker; tests sample a few lengths out of an unbounded set of histories",
  [W+":fifo_push",W+":fifo_pop",W+":fifo_peek",W+":fifo_next",W+":fifo_align_tail",W+":fifo_align_head_pos"])
p("Datagram buffer never touches memory outside its storage",
  "No accept/inspect/remove operation on a socket buffer reads or writes a byte outside the size bytes of storage given at socket creation.",
  "all buffer sizes, all operation histories, all payload lengths",
  "an out of bounds access appears only at specific wrap positions; tests with ASAN only see the positions they reach",
  [W+":fifo_push",W+":fifo_pop",W+":fifo_peek",W+":fifo_next"])
p("Writability prediction agrees with the actual send",
  "The stack reports that a frame of length L can be queued if and only if queueing it now succeeds, and the payload size chosen for a partial TCP send is the largest one that fits (0 iff not even one byte fits).",
  "all buffer states, all lengths, all caps",
  "agreement of two separately written placement algorithms (and monotonicity needed by binary search) over all states cannot be sampled",
  [W+":fifo_can_push_len",W+":fifo_max_push_payload",W+":fifo_push",W+":tx_has_writable_space"])
p("TCP receive buffer delivers the exact byte stream",
  "Bytes handed to the application by recv are exactly the in-order concatenation of the segments accepted, each byte once, across ring wrap and across 32-bit sequence number wrap; stale, overlapping or non-contiguous data never alters what the application reads.",
  "all ring sizes, all initial sequence numbers, all sequences of insert/pop calls of any length",
  "wrap of ring and of sequence space at arbitrary offsets gives an unbounded family of cases",
  [W+":queue_insert",W+":queue_pop",W+":queue_len",W+":queue_space",W+":queue_init"])
p("TCP receive buffer memory safety and capacity",
  "A receive buffer of n bytes of storage never holds more than n-1 bytes, free + used is always n-1, an insert that fits is never refused, and no access falls outside the storage.",
  "all ring sizes and histories", "off-by-one at wrap is only visible for exact head/tail combinations",
  [W+":queue_insert",W+":queue_pop",W+":queue_space",W+":queue_len"])
p("Sequence number comparison is wrap-safe",
  "Comparing two TCP sequence numbers gives the order of the stream offsets they stand for whenever the offsets differ by less than 2^31, wherever in the 32-bit space they lie; increment followed by difference returns the increment.",
  "all 2^64 pairs of sequence numbers", "2^64 pairs", [W+":tcp_seq_diff",W+":tcp_seq_leq",W+":tcp_seq_lt",W+":tcp_seq_inc"])
p("Timers fire in deadline order, exactly once, and cancelled timers never fire",
  "For every history of arming, cancelling and expiring timers: the timer delivered next is one with the smallest deadline; arming keeps all other pending timers; cancelling removes exactly that timer and no other; a timer is reported due iff its deadline has been reached; the pending set never exceeds its capacity and arming reports failure only when it is full.",
  "all histories of insert/cancel/pop, all deadlines and capacities",
  "heap order bugs surface only for particular tree shapes and deadline patterns",
  [W+":timers_binheap_insert",W+":timers_binheap_pop",W+":timer_binheap_cancel",W+":timers_heapify",W+":is_timer_expired"])
p("Internet checksum: what the stack emits verifies, and corruption of a word is detected",
  "A header or datagram whose checksum field was filled by the stack passes the stack's verification; verification accepts exactly the byte strings whose ones'-complement sum is zero; changing one 16-bit word to a value different modulo 65535 makes verification fail.",
  "all headers, all payloads of any length (odd and even)", "unbounded input space",
  [W+":transport_checksum",W+":transport_verify_checksum",W+":iphdr_set_checksum",W+":iphdr_verify_checksum",W+":icmp_checksum",W+":ip_checksum_buf"])
p("Route lookup is longest-prefix match with deterministic tie break",
  "Route lookup returns: self delivery for a local address; otherwise the interface/next hop of a matching connected subnet or static route such that no other match is more specific; ties prefer the connected subnet, then the older route; with no match the first interface with a gateway is used.",
  "all destination addresses, all interface configurations, all route tables",
  "2^32 destinations times all tables", [W+":wolfIP_route_lookup_internal",W+":wolfIP_route_match_prefix",W+":wolfIP_prefix_mask",W+":wolfIP_mask_prefix_len",W+":wolfIP_route_lookup"])
p("Route table behaves as a finite map",
  "After any history of route_add/route_delete, the table is the finite map keyed by (interface, masked prefix, length) that the successful calls describe: at most one entry per key, add replaces the gateway, delete removes only that key, add fails with ENOMEM only when the table is full, and count/get enumerate exactly the live entries.",
  "all histories of add/delete/get/count", "history dependent; slot reuse", [W+":wolfIP_route_add",W+":wolfIP_route_delete",W+":wolfIP_route_get",W+":wolfIP_route_count"])
p("Prefix length and netmask conversions are inverse",
  "A netmask is given a prefix length iff it is contiguous, and the mask rebuilt from that length is the original mask; prefix matching compares exactly the leading prefix_len bits.",
  "all 2^32 masks, all lengths", "2^32 masks, 2^64 address pairs", [W+":wolfIP_mask_prefix_len",W+":wolfIP_prefix_mask",W+":wolfIP_route_match_prefix"])
p("Dotted-quad text round trip",
  "Formatting an IPv4 address and parsing the text gives the address back; the text never needs more than 16 bytes including the terminator; parsing never reads past the terminator.",
  "all 2^32 addresses; all strings", "2^32 addresses", ["wolfip.h:iptoa","wolfip.h:atoip4","wolfip.h:atou"])
p("TCP segment acceptability follows RFC 9293",
  "A received segment is processed only if it passes the RFC 9293 acceptability test relative to the receive window the stack itself advertises, including zero-window and zero-length cases and sequence wrap.",
  "all segments, windows and sequence numbers", "2^32 positions times lengths", [W+":tcp_segment_acceptable",W+":tcp_adv_win"])
p("TCP option parsing is total, bounded and correct",
  "For every byte string in the option area parsing terminates, reads only bytes inside the segment, and the MSS, window-scale, timestamp and SACK values reported are those of a well-formed option present in the segment; options of a well-formed list are all found.",
  "all option byte strings of any length", "adversarial inputs", [W+":tcp_parse_options",W+":tcp_data_offset_bytes",W+":tcp_build_ack_options"])
p("Out-of-order segments never corrupt or reorder the byte stream",
  "Whatever order, duplication or overlap segments arrive in, the bytes that become readable are a prefix of the peer's stream, each byte at its sequence position; a hole is never skipped.",
  "all arrival orders, overlaps, duplications of segments of one stream", "factorial/infinite arrival orders", [W+":tcp_store_ooo_segment",W+":tcp_consume_ooo",W+":tcp_recv"])
p("SACK blocks sent are truthful",
  "Every SACK block advertised describes bytes that have really arrived and lie at or above the cumulative ACK; blocks are disjoint and at most four; the first one covers the segment being answered; a byte once SACKed stays SACKed until it is acknowledged.",
  "all out-of-order buffer contents", "many combinations with wrap", [W+":tcp_rebuild_rx_sack",W+":tcp_merge_sack_blocks",W+":tcp_sort_sack_blocks"])
p("Retransmission timeout stays within RFC 6298 bounds",
  "For every history of RTT samples the retransmission timeout stays between 1 s and 60 s; back-off never shrinks the wait and never exceeds 64 s.",
  "all sample histories, all retry counts", "unbounded histories and 2^32 samples", [W+":tcp_rto_update_from_sample",W+":tcp_rto_clamp",W+":tcp_backoff_rto_ms"])
p("Acknowledgement never frees unacknowledged data",
  "A cumulative ACK releases from the send buffer exactly the sent segments wholly covered by it, never one the peer has not acknowledged, and never acknowledges data not sent.",
  "all send buffer contents and ACK numbers", "wrap and partial acks", [W+":tcp_ack"])
p("TCP connection state changes follow the RFC 9293 diagram",
  "Every state change caused by a received segment, an API call or a timer is an edge of the RFC 9293 state diagram (plus documented resets to CLOSED/LISTEN); no segment with an unacceptable sequence number or invalid ACK changes the connection state.",
  "all states, all segments, all API calls", "cross product of states and segments", [W+":tcp_input",W+":wolfIP_sock_close",W+":wolfIP_sock_connect",W+":tcp_rto_cb"])
p("ARP cache changes only in answer to our own requests",
  "A neighbour entry is created or changed only by an ARP reply matching an outstanding, unexpired request for that address on that interface; other frames never change the address mapping; there is at most one entry per (address, interface); eviction removes the least recently used entry; lookups never return an entry older than the ageing timeout.",
  "all sequences of ARP frames, lookups, requests and clock readings", "adversarial histories", [W+":arp_recv",W+":arp_store_neighbor",W+":arp_neighbor_index",W+":arp_pending_record",W+":arp_pending_match_and_clear",W+":wolfIP_arp_lookup_ex"])
p("DHCP option walk is total and bounded",
  "For every received DHCP message the option walk terminates, reads only bytes inside the message, and yields exactly the options of the options, file and sname fields selected by the overload option.",
  "all messages of all lengths", "adversarial inputs", [W+":dhcp_opt_stream_init",W+":dhcp_opt_stream_next",W+":dhcp_opt_stream_next_region"])
p("DHCP client configures an address only from a matching lease",
  "The interface address is set only by an ACK carrying our transaction id from the server we selected, with a usable address; timers satisfy T1 <= T2 <= lease end; on NAK, expiry or conflict the address is withdrawn.",
  "all sequences of server messages and timer events", "adversarial histories", [W+":dhcp_poll",W+":dhcp_parse_ack",W+":dhcp_parse_offer",W+":dhcp_timer_cb",W+":dhcp_schedule_lease_timer",W+":dhcp_dad_conflict"])
p("DNS name decoding terminates and stays in bounds",
  "Name skipping and copying terminate on every packet, including pointer loops, never read outside the packet nor write outside the output buffer, and return the decoded dotted name for well-formed names.",
  "all packets and offsets", "adversarial compression pointers", [W+":dns_skip_name",W+":dns_copy_name",W+":dns_format_ptr_name"])
p("DNS answers are delivered at most once and only for the outstanding question",
  "A lookup callback is invoked only with data from a response whose id and question match the outstanding query, and at most once per query; after abort or timeout it is never invoked.",
  "all sequences of responses, timeouts, queries", "adversarial histories", [W+":dns_callback",W+":dns_question_matches",W+":dns_send_query",W+":dns_timeout_cb",W+":dns_abort_query"])
p("UDP demultiplexing delivers only to matching sockets",
  "A valid datagram is queued to exactly the sockets bound to its destination port and address (and, if connected, to its source); malformed or bad-checksum datagrams are delivered nowhere; port-unreachable is sent only for unicast datagrams to a local address with no matching socket.",
  "all datagrams and socket tables", "cross product", [W+":udp_try_recv"])
p("Socket descriptors and bound ports are unambiguous",
  "Descriptors of live sockets are distinct and decode to their own slot; two sockets of the same protocol can never be bound to the same port with overlapping addresses; operations on foreign or out-of-range descriptors fail without effect.",
  "all histories of socket/bind/close", "history dependent", [W+":wolfIP_sock_socket",W+":wolfIP_sock_bind",W+":bind_port_in_use",W+":wolfIP_socket_from_fd","wolfip.h:SOCKET_UNMARK"])
p("Forwarding decrements TTL, never loops back and never forwards expired packets",
  "A forwarded packet leaves with TTL one lower, all other IP fields unchanged and a valid header checksum; packets with TTL <= 1 are never forwarded; a packet is never forwarded out of the interface it came from by subnet match.",
  "all packets and configurations", "cross product", [W+":ip_recv",W+":wolfIP_forward_interface",W+":wolfIP_forward_packet",W+":wolfIP_forward_prepare"])
p("VLAN table integrity",
  "Live VLAN sub-interfaces have pairwise distinct (parent, VID), valid VID/PCP/DEI, and number at most WOLFIP_VLAN_MAX; get returns what create was given; delete removes only the named one; tag insertion then tag removal restores the frame.",
  "all histories of create/delete/get; all frames", "history dependent", [W+":wolfIP_vlan_create",W+":wolfIP_vlan_delete",W+":wolfIP_vlan_get",W+":wolfIP_ll_send_frame",W+":wolfIP_recv_on"])
p("ESP anti-replay window",
  "No ESP sequence number is accepted twice; a number older than the window is rejected; a number newer than every accepted one is accepted; a not yet seen number inside the window is accepted; failed authentication leaves the window unchanged.",
  "all arrival sequences of 32-bit sequence numbers", "unbounded histories", ["src/wolfesp.c:esp_replay_check","src/wolfesp.c:esp_replay_commit"])
p("wolfGuard counter window",
  "No data-packet counter is accepted twice on a key; counters at least a window older than the newest are rejected; unseen counters within the window or newer are accepted below the message limit.",
  "all arrival sequences of 64-bit counters", "unbounded histories", ["src/wolfguard/wg_packet.c:wg_counter_validate"])
p("wolfGuard cryptokey routing is longest-prefix match",
  "Allowed-IP lookup returns the peer of the most specific inserted prefix containing the address, or none; insert replaces the peer of an existing prefix; removal removes exactly one peer's prefixes.",
  "all histories of insert/remove and all addresses", "2^32 addresses times tables", ["src/wolfguard/wg_allowedips.c:wg_allowedips_insert","src/wolfguard/wg_allowedips.c:wg_allowedips_lookup","src/wolfguard/wg_allowedips.c:wg_allowedips_remove_by_peer"])
p("TFTP transfers reproduce the file",
  "Under any loss, duplication or reordering of packets, the bytes delivered to the sink are a prefix of the source file, and equal to it when the transfer reports success; block number wrap is handled.",
  "all files, all network schedules", "all schedules", ["src/tftp/wolftftp.c:wolftftp_client_accept_data","src/tftp/wolftftp.c:wolftftp_server_accept_wrq_data","src/tftp/wolftftp.c:wolftftp_server_send_window"])
p("TFTP request parsing is safe",
  "Parsing any request terminates, reads only inside the packet, accepts only NUL-terminated strings, never accepts a file name that escapes the directory, and options negotiated are within the configured limits; a built request parses back to the same fields.",
  "all byte strings", "adversarial inputs", ["src/tftp/wolftftp.c:wolftftp_parse_request","src/tftp/wolftftp.c:wolftftp_filename_is_safe","src/tftp/wolftftp.c:wolftftp_parse_u32","src/tftp/wolftftp.c:wolftftp_build_request","src/tftp/wolftftp.c:wolftftp_parse_oack"])
p("WPA keys are installed only by an authenticated, fresh handshake message",
  "Pairwise/group keys are handed to the driver only after a message with valid MIC, matching nonce and strictly newer replay counter; a replayed message never reinstalls a key.",
  "all sequences of EAPOL frames", "adversarial histories", ["src/supplicant/supplicant.c:supp_rx_key","src/supplicant/supplicant.c:supp_handle_m1","src/supplicant/supplicant.c:supp_handle_m3","src/supplicant/supplicant.c:supp_handle_group_m1"])
p("EAPOL-Key frame codec round trip and bounds",
  "Parsing never reads outside the frame and rejects inconsistent lengths; building then parsing returns the same fields.",
  "all frames", "unbounded input", ["src/supplicant/eapol.c:eapol_key_parse","src/supplicant/eapol.c:eapol_key_build"])
p("EAP-TLS fragmentation is lossless",
  "A TLS flight cut into fragments by the sender and reassembled by the receiver is the same byte string, whatever the fragment size; oversized or inconsistent fragments are rejected without overflow.",
  "all messages, all fragment sizes", "unbounded", ["src/supplicant/eap_tls.c:eap_tls_rx_fragment","src/supplicant/eap_tls.c:eap_tls_tx_fragment"])
p("HTTP URL coding is safe and inverse",
  "Percent-decoding never grows the string nor reads past it, and decoding an encoded string returns the original; encoding never writes past the given maximum.",
  "all byte strings", "unbounded", ["src/http/httpd.c:http_url_decode","src/http/httpd.c:http_url_encode","src/http/httpd.c:http_hex_value"])
p("Loopback device is a bounded FIFO",
  "Packets sent to the loopback interface are received exactly once, unmodified, in order; when full the sender is told to retry and nothing is lost.",
  "all histories of send/poll", "history dependent", [W+":wolfIP_loopback_send",W+":wolfIP_loopback_poll"])
p("Multicast membership is reference counted",
  "An interface is a member of a group iff some open socket has joined it; join/leave reports are emitted exactly on the first join and last leave.",
  "all histories of join/leave/close", "history dependent", [W+":udp_mcast_join",W+":udp_mcast_drop",W+":udp_mcast_drop_all"])
p("Interface MTU and derived MSS bounds",
  "Whatever MTU the driver reports or the user sets, the effective frame size stays within the link limits and the TCP segment produced (headers + options + payload) never exceeds the interface IP MTU nor the peer's MSS.",
  "all mtu values, VLAN nesting, peer MSS values", "2^32 values", [W+":wolfIP_ll_frame_mtu",W+":wolfIP_ip_mtu",W+":tcp_tx_payload_cap",W+":wolfIP_mtu_set"])
p("ESP outbound sequence numbers never repeat",
  "Under one outbound SA the k-th packet sent carries sequence number k; when the 32-bit space is exhausted the sender refuses instead of wrapping; with the persistence callbacks this continues across restarts.",
  "all histories of sends, receives and restarts", "histories of up to 2^32 packets and arbitrary restart points",
  ["src/wolfesp.c:esp_transport_wrap","src/wolfesp.c:esp_state_save","src/wolfesp.c:esp_state_restore"])
p("What TCP puts on the wire is the application's byte stream",
  "Every TCP segment transmitted - first transmission, retransmission or zero-window probe - carries exactly the bytes the application passed to send() at the stream position its sequence number denotes; send() returning n means exactly the first n bytes were taken.",
  "all interleavings of send, acknowledgement, timeout, flush, close and window updates", "unbounded histories, sequence wrap, retransmission after partial acks", [W+":wolfIP_sock_sendto",W+":flush_tcp_tx",W+":tcp_persist_cb",W+":tcp_ack"])
p("TCP data is kept until acknowledged",
  "Every byte accepted by send() and not yet acknowledged by the peer is still held for retransmission.",
  "all histories", "depends on the interleaving of ACK generation and data transmission", [W+":flush_tcp_tx",W+":tcp_ack",W+":tcp_send_empty"])
p("TCP flow control",
  "New data is sent only within the peer's advertised window (and the congestion window) beyond the highest acknowledged byte.",
  "all histories", "depends on loss patterns", [W+":flush_tcp_tx",W+":tcp_resync_inflight",W+":tcp_mark_unsacked_for_retransmit"])
p("TCP retransmission liveness",
  "While transmitted data (or a FIN) is unacknowledged a timer is running, and when it expires the next transmission opportunity retransmits the first unacknowledged data until the documented number of attempts.",
  "all states and timeouts", "a liveness property over all loss patterns", [W+":tcp_rto_cb",W+":tcp_resync_inflight",W+":flush_tcp_tx",W+":tcp_ack"])
p("RTT samples obey Karn's rule",
  "A round-trip sample not taken from a timestamp echo is the age of a segment transmitted exactly once and covered by the acknowledgement.",
  "all histories", "depends on retransmission history", [W+":tcp_ack",W+":flush_tcp_tx"])
p("A listening port recovers",
  "A socket on which listen() succeeded returns to accepting connections when the connection it holds is completed, reset or abandoned by the peer, whatever the peer sends and whenever accept() is called.",
  "all histories of segments, timeouts and calls", "adversarial timing between peer segments and accept()", [W+":tcp_listener_revert_to_listen",W+":wolfIP_sock_accept",W+":tcp_rto_cb",W+":tcp_input"])
p("PAWS and TS.Recent",
  "With timestamps negotiated, a segment older than the last recorded timestamp never changes the connection, and the recorded timestamp follows the newest in-order segment.",
  "all connections and segments", "32-bit modular comparison over histories", [W+":tcp_paws_check",W+":tcp_process_ts"])
p("Half-open and half-closed connections do not live for ever",
  "A connection waiting for the handshake or for the peer's FIN always has a running timer; nine expiries end a handshake, one ends FIN_WAIT_2; a connection waiting for the acknowledgement of its FIN keeps retransmitting it.",
  "all reachable socket tables", "a liveness property over all histories", [W+":tcp_rto_cb",W+":tcp_ctrl_rto_start",W+":tcp_fin_wait_2_timeout_start"])
p("TCP connections are isolated from each other's segments",
  "A segment changes no socket other than those whose local port and, if connected, whose 4-tuple it carries; a segment that is unacceptable to the connection it addresses changes nothing of it.",
  "all socket tables and segments", "every other connection at once", [W+":tcp_input"])
p("TCP resets are sent only as RFC 9293 prescribes",
  "A reset never answers a reset; its sequence and acknowledgement numbers are those of RFC 9293 3.5.2; it is sent for every segment no socket matches, and otherwise only for an acknowledgement of something never sent before synchronisation.",
  "all socket tables and segments", "state and segment cross product", [W+":tcp_send_reset_reply",W+":tcp_input"])
p("TCP handshake and close progress",
  "A valid SYN to a listener, SYN-ACK, final ACK, FIN, acknowledgement of a FIN or exact reset is never ignored: it moves the connection to the state of the RFC 9293 diagram and updates RCV.NXT.",
  "all reachable socket tables and all such segments", "must hold whatever else the table contains", [W+":tcp_input",W+":tcp_ack"])
p("No two TCP connections share a 4-tuple",
  "At no time do two live sockets have the same local and remote address and port.",
  "all histories", "depends on random port choices", [W+":wolfIP_sock_connect",W+":wolfIP_sock_accept"])
p("DHCP client messages are well formed and addressed as RFC 2131 asks",
  "Every datagram the client sends is a BOOTREQUEST with its current transaction id and hardware address; DISCOVER and selecting REQUEST are broadcast with client address 0, the latter naming the selected server and the offered address; a renewing REQUEST goes to the server, a rebinding one is broadcast, both with the leased address and without options 50 and 54; DECLINE names the address in conflict. ARP probes ask for the address being tested.",
  "all histories of events and failures", "history dependent",
  ["src/wolfip.c:dhcp_send_request", "src/wolfip.c:dhcp_send_discover", "src/wolfip.c:dhcp_send_decline"])
p("DHCP client is never stuck",
  "Unless it is off, the client always has exactly one timer pending, due within the time its state prescribes, so that it retransmits, renews, rebinds or gives up without further calls of the application; after dhcp_client_init a lost DISCOVER is retransmitted.",
  "all histories of events and failures", "liveness over histories",
  ["src/wolfip.c:dhcp_timer_cb", "src/wolfip.c:dhcp_schedule_timer_at", "src/wolfip.c:dhcp_client_init"])
p("IPv4 input accepts exactly well-formed packets and hands them up unchanged", "A received frame reaches TCP/UDP/ICMP/IGMP only if its IPv4 header is complete, checksummed, unfragmented, without source routing or malformed options, from a plausible source; it then arrives without its options and otherwise byte for byte; a packet for this host that satisfies this always arrives; every other packet has no effect; no frame content leads to an out-of-bounds access.", "all frames, configurations and histories", "all byte strings", ["src/wolfip.c:ip_recv"])
p("Relayable packets are relayed", "A relayable packet is relayed at once or waits for ARP; the answer to a pending ARP request releases the waiting packet to the answering host; waiting packets do not block others for ever.", "all histories of packets, ARP replies and time", "needs unbounded histories", ["src/wolfip.c:ip_recv", "src/wolfip.c:arp_queue_packet", "src/wolfip.c:arp_flush_pending"])
S="src/supplicant/supplicant.c"
p("A WPA handshake completes or ends", "Given a master key, a valid message 1 is answered with message 2 and a valid message 3 with the keys handed to the driver, message 4 and the authenticated state; a valid newer group message is installed and acknowledged; ten seconds after the last successful kick a tick leaves no handshake pending, and message 2 is resent at most three times between other events.",
  "all contexts reachable by any history, all valid frames, all clock values", "history dependent liveness", [S+":supp_handle_m1", S+":supp_handle_m3", S+":wolfip_supplicant_tick", S+":wolfip_supplicant_kick"])
p("WPA handshakes run on the configured master key", "The master key of every handshake is the one the configuration in force dictates: the configured PSK, PBKDF2 of the configured passphrase and SSID (even when taken from the PMKSA cache), the MSK of a TLS handshake completed since, or a PMK installed or confirmed by SAE since.",
  "all histories of init, frames, cache operations and reconnects", "history dependent: the cache outlives init", [S+":wolfip_supplicant_init", S+":wolfip_supplicant_pmksa_reconnect", S+":supp_handle_eap_success", S+":wolfip_supplicant_rx_auth_frame"])
p("TFTP server sessions are isolated and bounded",
  "The server has at most four sessions, at most one per peer, each with its own port and file; a packet from one peer causes sends only to that peer and touches only files opened for that peer, and leaves every other peer's session as it was; any packet is handled without an access out of bounds.",
  "all histories of packets from any peers, polls and callback results", "interleavings of several peers", ["src/tftp/wolftftp.c:wolftftp_server_receive","src/tftp/wolftftp.c:wolftftp_server_start_request","src/tftp/wolftftp.c:wolftftp_server_poll"])
p("TFTP server file handles",
  "Files are read, written, hashed, verified and closed only between their successful open and their close, reads only through handles opened for reading and writes only through handles opened for writing; every open file belongs to exactly one session; a session whose peer is silent is dropped, and its file closed, within max_retries+2 polls.",
  "all histories of packets, polls and callback results", "unbounded histories", ["src/tftp/wolftftp.c:wolftftp_server_finish","src/tftp/wolftftp.c:wolftftp_server_poll","src/tftp/wolftftp.c:wolftftp_server_accept_wrq_data"])
p("Datagram sending is exact and ordered",
  "sendto() either queues one well-formed datagram (or ICMP message) carrying exactly the caller's bytes from the socket's address and port to the destination and returns their number, or queues nothing and returns an error for a stated reason; polling transmits each socket's queue in order, every frame once, unaltered but for the link header, addressed to the resolved neighbour, and keeps what cannot be sent; a looped-back multicast reaches exactly the local sockets that asked for it; options take effect as set.",
  "all histories, payloads, configurations, driver and ARP answers", "order and exactness over unbounded histories of sends, refusals and buffer positions",
  ["src/wolfip.c:wolfIP_sock_sendto", "src/wolfip.c:wolfIP_poll", "src/wolfip.c:ip_output_add_header", "src/wolfip.c:wolfIP_sock_setsockopt"])
p("ICMP echo and ICMP sockets",
  "A valid echo request to one of the host's unicast addresses is answered with a reply carrying the same identifier, sequence and data to the requester; none is sent otherwise; an echo reply or other message reaches exactly the ICMP sockets whose address, identifier and peer agree, and recvfrom returns them whole, oldest first.",
  "all frames, configurations and histories", "all byte strings and socket tables", ["src/wolfip.c:icmp_input", "src/wolfip.c:icmp_try_recv", "src/wolfip.c:wolfIP_sock_recvfrom"])
H="src/http/httpd.c"
p("HTTP requests are parsed exactly",
  "Whatever bytes a client sends, the server reads and writes only inside its arrays, and: a well-formed GET or POST within the size limits is answered with the page registered first under its decoded path (404 if none), a handler receiving exactly the method, path, query, headers and body that were sent; bytes that are not such a request - including any whose declared framing (Content-Length, Transfer-Encoding) disagrees with the bytes present - get 400 and reach no handler; no byte string can be read as a request in two ways; at most sixteen pages are registered, later registrations failing without effect.",
  "all byte strings up to the buffer size, all registration histories, all previous buffer contents", "the space of byte strings and of header/length interactions is unbounded for tests", [H+":parse_http_request", H+":http_header_value", H+":http_recv_cb", H+":httpd_register_handler", H+":http_find_url"])
p("HTTP request arguments",
  "In a handler, httpd_get_request_arg stores the value of the first argument with that name, from the query of a GET or the body of a POST, NUL-terminated in the caller's buffer and returns 0; if there is none or it does not fit it returns -1 and leaves the buffer alone; it never accesses memory outside the request or the buffer.",
  "all requests, names and buffer sizes", "all strings", [H+":httpd_get_request_arg"])
p("TCP end to end",
  "Connect two hosts running this stack through a network that loses, duplicates and reorders packets at will: the bytes recv() has returned plus those it could return are always a prefix of the bytes send() accepted, and every accepted byte that has not arrived is still queued at the sender.",
  "all executions: sends, timers, transmissions, deliveries, reads in any order", "every schedule of an adversarial network and two hosts", ["src/wolfip.c:tcp_input","src/wolfip.c:tcp_ack","src/wolfip.c:flush_tcp_tx","src/wolfip.c:tcp_rto_cb","src/wolfip.c:tcp_recv"])
p("TCP recovers lost data",
  "Whatever the network lost so far: if a byte that was transmitted has not arrived, the connection is established and not given up, then reading, one acknowledgement, at most one retransmission timeout, one transmission and one delivery make the receiver's stream longer.",
  "all states reachable by the two hosts and the network", "quantifies over every history and asserts a continuation", ["src/wolfip.c:tcp_rto_cb","src/wolfip.c:flush_tcp_tx","src/wolfip.c:tcp_ack","src/wolfip.c:tcp_recv"])
W="src/wolfguard/wg_packet.c"; N="src/wolfguard/wg_noise.c"; T="src/wolfguard/wg_timers.c"; K="src/wolfguard/wg_cookie.c"; G="src/wolfguard/wolfguard.c"
p("wolfGuard never reuses a nonce",
  "As long as no two sessions derive the same keys, no two transport messages a device ever sends are encrypted under the same key and counter.",
  "all histories of configuration, outgoing packets, polls and received datagrams, all primitives and random values", "two uses of a nonce may be separated by any number of rekeys, replays and timer events", [W+":wg_packet_send", W+":wg_packet_send_keepalive", N+":wg_noise_begin_session"])
p("wolfGuard session limits",
  "A device encrypts to a peer, and accepts from it, only under a key of a session established with that same peer less than 180 s before; counters stay below 2^64-1026, and packets (not keepalives) below 2^60.",
  "all histories", "depends on every earlier handshake, timer and confirmation", [W+":wg_packet_send", W+":wg_handle_data", W+":wg_packet_send_keepalive", T+":wg_timers_tick"])
p("wolfGuard injects only authentic packets, once",
  "A packet enters the stack from the tunnel only when a data message arrives that decrypts to it under a live session of a peer, and its source address belongs to that peer by longest-prefix match over the allowed IPs configured so far; no message is accepted twice; an outgoing packet goes to the peer that owns its destination.",
  "all histories and datagrams", "all byte strings and histories", [W+":wg_handle_data", G+":wolfguard_output", "src/wolfguard/wg_allowedips.c:wg_allowedips_lookup"])
p("wolfGuard packets wait for the session",
  "A packet routed to a peer without a usable session waits, at most 16 per peer; each packet is encrypted at most once, only to its peer, padded (a waiting one cut to 1536 bytes) and otherwise unaltered; the response that completes a handshake sends everything waiting for that peer at once, oldest first, numbered from 0, and one empty message if nothing waits.",
  "all histories, packets, primitives and random values", "packets wait across any number of handshake attempts, losses and timer events", [W+":wg_packet_send", W+":wg_stage_packet", W+":wg_packet_send_staged", W+":wg_handle_response"])
p("wolfGuard handshakes agree and deliver",
  "If two devices know each other's public key and the same pre-shared key, the initiation one created last, arriving at the other (not under load, generator working), is answered, and the answer creates at both a session with the same pair of keys, sending keys of one being receiving keys of the other; every packet that was waiting is then sent, and the other side decrypts and accepts each exactly once, however the network reorders or repeats the datagrams.",
  "all histories of both devices, all times, primitives satisfying the laws of Diffie-Hellman and authenticated encryption, all arrival orders", "both sides' states depend on unbounded histories; arrival orders are unbounded", [N+":wg_noise_create_initiation", N+":wg_noise_consume_initiation", N+":wg_noise_create_response", N+":wg_noise_consume_response", W+":wg_handle_data"])
p("wolfGuard handshakes are fresh",
  "Whatever arrives, in whatever order and however often, the initiations a device accepts from one peer carry strictly increasing timestamps and are at least five seconds apart; an initiation that was accepted once changes no peer and is never answered again, except, under load, by a cookie reply to its source.",
  "all histories, all datagrams, all later times", "a replay may come after any history", [N+":wg_noise_consume_initiation", W+":wg_handle_initiation"])
p("wolfGuard under load",
  "A handshake message whose first MAC is wrong (its sender does not know the device's public key) changes nothing and is not answered. A device is under load only if at least eight datagrams arrived between its last two polls. Under load, a handshake message without a valid cookie for its source address changes no peer and causes no key exchange: at most one datagram goes back to its source, holding the cookie for that address sealed for a sender that knows the device's public key and the message. A peer that takes that cookie gets through: its next initiation, made within two minutes and arriving from the same address while the device's cookie secret is at most two minutes old, is answered although the device is under load.",
  "all histories of both devices, all datagrams, sources, times and random choices", "load, cookie secret and handshake state depend on unbounded histories", [K+":wg_cookie_validate", K+":wg_cookie_create_reply", K+":wg_cookie_consume_reply", K+":wg_cookie_add_macs", W+":wg_handle_initiation", W+":wg_handle_cookie", G+":wolfguard_poll"])
p("wolfGuard sends home",
  "A wolfGuard device puts nothing on the wire but packets sealed for a peer, initiations, responses and cookie replies. What is for a peer goes to the address and port that peer was configured with, or, once something was authenticated as coming from it (a new data packet, an initiation, the response completing a session), to where the last such datagram came from; responses and cookie replies go to the sender of the datagram being handled. A datagram that is not authenticated moves no peer and makes the device send at most one datagram, back to its sender and shorter than it.",
  "all histories of calls and datagrams (keys, peers, times, replays, forgeries), all primitives", "the endpoint depends on the whole history; forged datagrams are arbitrary", [W+":wg_packet_send", W+":wg_packet_send_keepalive", W+":wg_handle_data", W+":wg_handle_initiation", W+":wg_handle_response", T+":wg_send_handshake_initiation", K+":wg_cookie_create_reply"])
E="src/wolfesp.c"; IP="src/wolfip.c:esp_send"
p("ESP round trip",
  "A datagram one host sends through an ESP association is handed to the transport protocols of a host holding the same association exactly as it would have been without ESP, whatever the suite and the link padding; and in a whole conversation over a network that loses, reorders and duplicates packets, a packet is delivered if and only if it was not delivered before and is within 64 numbers of the newest one delivered.",
  "all datagrams (with options), suites, tables, random values, arrival sequences, and all primitives in which decryption inverts encryption", "all byte strings, all orders of arrival", [E+":esp_transport_wrap", E+":esp_transport_unwrap", IP])
p("ESP accepts only authentic packets",
  "Whatever frame arrives for a host, what goes up is either a packet that is not ESP, or exactly the payload (without padding) of an ESP packet that is authentic under the first inbound association with its SPI and addresses and whose number the replay window accepts; any other frame changes no association. With integrity protection on every association a frame delivered once is never delivered again, whatever arrives before or in between.",
  "all frames, tables, histories of received frames", "forged and replayed frames are arbitrary bytes after arbitrary histories", [E+":esp_transport_unwrap", E+":esp_check_icv_hmac", E+":esp_replay_check", "src/wolfip.c:ip_recv"])
p("ESP numbers and nonces never repeat",
  "In whatever a host sends, interleaved with any other traffic and any failures, the packets of one association carry strictly increasing sequence numbers that never wrap, and under the GCM suites different IVs, hence different nonces for its key.",
  "all histories of sends of any length", "a repetition may come 2^32 packets later", [E+":esp_transport_wrap", E+":esp_rfc4106_gen_iv"])
p("ESP associations are sound and nothing covered leaves in clear",
  "From empty tables, through any history of creating, restoring and deleting associations, receiving and sending, no step writes outside a buffer or misbehaves, and every association in use has a known suite with matching key and ICV lengths. On Ethernet devices a datagram leaves unprotected only if no outbound association covers its addresses; otherwise nothing leaves, or an ESP packet authentic under the first covering association whose plaintext is exactly the datagram's payload and protocol.",
  "all histories of API calls, frames, datagrams up to 1522 bytes", "table contents, failures and lengths combine without bound", [E+":wolfIP_esp_sa_new_gcm", E+":wolfIP_esp_sa_new_hmac", E+":wolfIP_esp_sa_new_cbc_hmac", E+":wolfIP_esp_sa_new_des3_hmac", E+":wolfIP_esp_sa_del", E+":esp_transport_wrap", IP])
R="src/wolfip.c"
p("Raw sockets receive exactly what they ask for",
  "An IPv4 packet that reaches the raw socket tap is queued, whole and without link header or padding, on every open raw socket whose protocol, bound address and interface (each possibly any) match it, if the queue accepts it, and changes nothing else. recvfrom returns the oldest queued packet and its source address, or discards it if the buffer is too small. Over any history during which the socket stays open, what was handed out and what is queued is a subsequence, in order, of what was queued and the matching packets that arrived, and all of it if there was always room and every buffer was long enough.",
  "all histories of calls, arrivals and polls, all packets, configurations changing at will", "loss, order and duplication depend on the whole history and the ring buffer's position", [R+":raw_try_recv", R+":wolfIP_sock_recvfrom"])
p("Packet sockets receive exactly what they ask for",
  "A frame that reaches the packet tap is queued whole, with the interface it came in on, on every open packet socket whose type and interface match it and that has room, and changes nothing else. recvfrom returns the oldest queued frame with its interface, type and sender, or discards it if the buffer is too small. Over any history during which the socket stays open, what was handed out and what is queued is a subsequence, in order, of what was queued and the matching frames that arrived, and all of it if nothing was refused for lack of room.",
  "all histories of calls, arrivals and polls, all frames of at least 14 bytes", "as for raw sockets", [R+":packet_try_recv", R+":wolfIP_sock_recvfrom"])
p("Raw sockets send what was asked, in order",
  "sendto either refuses and queues nothing, or accepts the data and queues exactly one packet: the data behind a correct header from the socket's own, interface's or primary address to the destination, or with IP_HDRINCL the given packet, changed at most in destination and checksum. Each poll gives the queued packets in order to the interfaces the routing table names (with SO_DONTROUTE: the socket's), each under the interface's address to the neighbour ARP knows for it (or everybody, or the loopback interface), with a correct header checksum unless the header was supplied; what is not sent stays in order, and nothing stays if ARP knows every neighbour and the filter is silent. Over any history what left and what is queued is, in order, what was queued and what sendto accepted.",
  "all histories of calls and polls, all data, destinations, tables, ARP and driver answers", "the queue's contents and the ARP answers depend on the whole history", [R+":wolfIP_sock_sendto", R+":raw_route_for_ip", R+":wolfIP_poll"])
p("Packet sockets send what was asked, in order",
  "sendto either refuses and queues nothing, or accepts the frame and queues exactly it, with the interface's own address as source and the given destination and type. Each poll hands every queued frame, unchanged and in order, to the interface the socket sent to last; over any history what left and what is queued is, in order, what was queued and what sendto accepted.",
  "all histories of calls and polls, all frames, addresses and driver answers", "as for raw sockets", [R+":wolfIP_sock_sendto", R+":wolfIP_poll"])
p("Raw and packet sockets are safe and independent",
  "From the initial state, through any history of creating, binding, connecting, configuring, using and closing raw and packet sockets, receiving frames and polling, no operation reads or writes outside a buffer or misbehaves otherwise; a driver is only given, and takes, frames that fit its interface; an operation on one socket leaves the queues of every other as they are.",
  "all histories of admissible operations", "ring positions, lengths and slot reuse combine without bound", [R+":raw_try_recv", R+":packet_try_recv", R+":wolfIP_sock_sendto", R+":wolfIP_sock_recvfrom", R+":wolfIP_poll"])
p("DNS lookups end",
  "Whatever the history of lookups, received datagrams, errors and timer expiries, provided the timers the client asks for are granted, after four more expiries of its timer the client accepts the next lookup of any valid name and sends its query: no unanswered lookup blocks the resolver for ever. A reverse lookup that is outstanding is answered by any message answering it, with the first readable host name in it.",
  "all histories of calls, datagrams and timer expiries, all names, all messages", "the state after an arbitrary history, arbitrary bytes in the answers", [R+":dns_timeout_cb", R+":dns_abort_query", R+":dns_send_query", R+":dns_callback"])
with open("/verif/properties.jsonl","w") as f:
    for x in P: f.write(json.dumps(x)+"\n")
print(len(P))
