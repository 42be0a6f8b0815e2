# Formal model of wolfIP in Coq — design

## Method

* Models are executable Gallina functions over `Z` (C unsigned integers, with the C
  wrap-around written explicitly wherever the code relies on it or could hit it),
  `list Z` (byte buffers) and records.  One model file per code unit; every definition
  cites the source lines it models and says where it simplifies.
* Accesses to modelled buffers go through checked primitives (`Base.mread`,
  `Base.mwrite`, `HttpUrl.rd1`, ...) that return `None` for an access out of bounds:
  undefined behaviour is a distinct outcome, and the `_total`, `_safe`, `_defined`
  theorems say it is never produced.
* Each unit has `X.v` (model only), `XSpec.v` where the specification is more than a few
  lines (vocabulary over packets, histories and API results; it mentions the model's
  state type only through observable attributes), proof files, and `XProps.v` with the
  theorem statements, `Print Assumptions` and `Example`s (`X…Examples.v` for the big
  units) that show concrete non-trivial cases meeting the hypotheses.
* The environment (driver, clock, random numbers, packet filter, application callbacks,
  cryptographic primitives, ARP answers during a flush) is an arbitrary input of each
  step: theorems quantify over every choice.
* Histories: an inductive set of reachable states or an executable `run` over a list of
  arbitrary operations; properties are invariants or refinements of a plain
  specification (list queue, finite map, set of accepted numbers, byte stream, ...).
* What the code violates is stated and refuted by a concrete history (`…_refuted`), and
  the strongest true restriction is proved (as `…_partial` when it is weaker than the
  property).

## Plan per property

| Property | Model | How it is proved |
|---|---|---|
| C01, C02, C03 packet FIFO | `Fifo` | invariant on descriptors in byte memory; refinement to a list of packets over all histories (`FifoProofs`, `FifoPush`, `FifoMore`, `FifoHist`) |
| C04, C05 receive ring | `Queue` | refinement to a byte stream with holes |
| C06 sequence arithmetic | `Seq` | arithmetic modulo 2^32 |
| C07 timers | `Timers` | heap invariant + permutation; refinement to a set of pending timers |
| C08 checksums | `Checksum` | algebra modulo 65535 on the number a byte string denotes |
| C09, C10, C11 routes, masks | `Route` | maximum over matching entries; refinement to a finite map; bit lemmas |
| C12 dotted quads | `AddrText` | round trip, bounds |
| C13, C15, C16 TCP receiver | `TcpRecv`, `TcpSack` | RFC 9293 acceptability; stream invariant over all segment histories |
| C14 TCP options | `TcpOpt` | exact parser/builder specification and round trip |
| C17 RTO | `Rto` | interval invariants, RFC 6298 formulas over integers |
| C18, C42–C46 TCP sender | `TcpSend`, `TcpSendTimer` | invariant linking the FIFO, the sent stream and the peer's window over all histories |
| C19, C47–C53 TCP state machine | `TcpState` | case analysis against the RFC 9293 diagram (`TcpStateSpec`), table invariants over histories |
| C20 ARP | `Arp` | invariant over histories of frames, lookups and ticks |
| C21 DHCP options | `DhcpOpt` | exact walk = specification, totality |
| C22, C54, C55 DHCP client | `Dhcp` | state machine invariants over histories |
| C23, C24 DNS | `Dns` | refinement of an RFC 1035 relation / of a one-query automaton |
| C25, C26, C39, C62, C63 datagram sockets, multicast, ICMP | `Udp` | per-operation exact effects, table and membership invariants, stream of deliveries over histories |
| C27, C56, C57 IPv4 input and forwarding | `Forward` | exact acceptance, byte-level relation of relayed packet, histories with ARP |
| C28 VLAN | `Vlan` | finite map refinement, tag round trip |
| C29, C41 ESP window | `EspReplay` | refinement to the set of accepted numbers (`ReplaySpec`) |
| C30 wolfGuard window | `WgCounter` | same |
| C31 allowed IPs | `WgAllowedIps` | longest prefix match over a finite map |
| C32, C33, C60, C61 TFTP | `TftpCodec`, `Tftp` | exact parser; network-schedule induction with an honest peer; file-handle and session invariants over all histories |
| C34, C58, C59 WPA supplicant | `Supplicant` | trace invariants for every choice of the cryptographic functions |
| C35 EAPOL/EAP/RSN codecs | `Eapol` | exact parsers and builders, round trips |
| C36 EAP-TLS fragments | `EapTls` | reassembly/fragmentation exact, round trip |
| C37 URL coding | `HttpUrl` | exactness and inverse |
| C38 loopback | `Loopback` | bounded queue refinement |
| C40 MTU/MSS | `Mtu` | arithmetic, bounds |
| C64, C65 HTTP requests | `HttpReq`, `HttpReqSpec` | the request parser accepts exactly the specified byte strings, in one reading, and stays in its buffers; argument lookup exact |
| C66, C67 TCP end to end | `TcpEnd` | sender (`TcpSend`) and receiver (`TcpRecv`) composed with an adversarial network: invariant over all executions; a continuation that repairs any loss |
| C68-C70 wolfGuard device | `WgDevice`, `WgDeviceInv`, `WgDeviceRun`, `WgDeviceKeys`, `WgToy`, `WgDeviceProps` | the whole device (handshake, sessions, staging, timers, cookies, API) over an arbitrary record of primitives and arbitrary random values; every call is a sequence of elementary key-slot changes, an invariant over them; a toy instance of the primitives shows the hypotheses are met |
| C71 wolfGuard waiting packets | `WgStaging` | multiset accounting: encrypted + waiting <= handed over, invariant over the same steps; the flush after a response computed exactly |
| C72 wolfGuard handshake | `WgConf`, `WgHandshake`, `WgAgree` | invariant tying each peer's handshake state to the configured keys and the last initiation; the two sides' transcripts computed equal from `c_dh` commutativity and AEAD inversion; delivery by induction over the arrivals |
| C73 wolfGuard freshness | `WgHello` | invariant: each peer's stored timestamp and time are those of its last accepted initiation, accepted ones ordered; the replay theorem adds the configuration invariant of `WgConf` |
| C74 wolfGuard under load | `WgLoad`, `WgCookieTrip` | effect of one call on cookie checker, load flag and counter; invariants over histories for the load flag and the secret's age; a peer's cookie kept by every later call and used by every initiation (`qact`, carried with the configuration invariant); `responder_step` under load |
| C75 wolfGuard sends home | `WgHome` | functions on one peer keep its endpoint and send only to it (`hact`); received datagrams are classified (nothing, one cookie reply, something authenticated); invariant: each peer's endpoint is the one the history (`homes`) gives it |
| C76 ESP round trip | `Esp`, `EspSpec`, `EspWire`, `EspProofs`, `EspTrip`, `EspProps` | header rewriting on symbolic headers; `open_ (seal x) = x` for each suite from the laws of the primitives; one step of a conversation composed with the replay window's invariant (C29), then induction over arrivals |
| C77 ESP accepts only authentic packets | `EspAuth`, `EspOnce` | inversion of reception down to the first matching association; bookkeeping of the numbers each association accepted, along any history |
| C78 ESP numbers and nonces | `EspNonce` | every step lets every association only advance its number (`evolves`); IV = constant xor number is injective |
| C79 ESP associations and policy | `EspSafe`, `EspToy` | totality of each step under the table invariant, which every API call keeps; inversion of sending; toy primitives and runs for all five suites, and the two refutations |
| C80 raw socket reception | `Raw`, `RawSpec`, `RawInv`, `RawStep`, `RawHist`, `RawProps`, `RawExamples` | each operation seen from one slot (`effects`), under an invariant on the queues (C01's); a generic lemma (`flow`) lifts "what goes in comes out" from one operation to histories |
| C81 packet socket reception | same | same |
| C82 raw socket transmission | `RawSend`, `RawFlush`, and those | induction on the queue's length for the flush; packets compared up to link header and header checksum |
| C83 packet socket transmission | same | same |
| C84 raw and packet sockets: safety, independence | same | totality of each step under the invariant |
| C85 DNS lookups end; reverse answers | `Dns` (`DnsEndProps`) | invariant: idle, or timer armed with at most three repetitions behind; each expiry advances it; first readable PTR record found by induction on the answer section |

The theorems per property, with what is missing where a claim is partial, are in
`MANIFEST.json` (generated by `tools/gen_manifest.py`).

## Trusted base

* Coq 8.16.1's kernel (including its virtual machine, used by `vm_compute` in examples,
  refutations and a few decision lemmas).
* `Print Assumptions` reports "Closed under the global context" for every theorem in the
  manifest: no axiom is used, neither of the standard library nor our own.  Only the
  standard library, `lia` and (through `ZifyBool`) `ssreflect`'s loading of
  `Coq.ssr.ssrunder` are imported.  No functors, module types, `Admitted`, `Axiom`,
  section-less `Variable`; no kernel check is switched off.
* The faithfulness of the models to `/repo`, which was read as text and never executed.
* A little-endian target with 32-bit `int`; compile-time configuration: `ETHERNET`, `IP_MULTICAST`, forwarding
  and VLAN on, default sizes (TXBUF 32768, RXBUF 20480, 4 TCP / 2 UDP / 2 ICMP sockets,
  16 routes, MAX_TIMERS 12).  Sizes are parameters of the theorems where that was natural.

## What is modelled

`/repo/src/wolfip.c`: packet FIFO (206–551), receive ring (560–1050), MTU helpers
(1535–1640), link send with VLAN tagging (1726–1786), routes and masks (1801–2150),
checksums (1877–1892, 4349–4450), ICMP port unreachable (2373–2460), timers (2508–2628),
UDP and ICMP sockets (2632–2862), TCP (option codec, receiver, sender, timers, state
machine, accept/connect/close/listen, resets: 2957–6139 and 11290–11452), IGMP
(4473–4655), IP output header (4770–4820), forwarding (4666–4763), sockets API
(6139–8125 for the parts above), ICMP input (8211–8318), DHCP (8327–9456), ARP
(9461–9832), VLAN (9893–10060), IP input (10131–10437), link input demultiplexing
(10446–10518), DNS (10609–11158), the flush loops of `wolfIP_poll` (11290–11665), raw and packet sockets (2161–2185, 2788–3036,
and their branches of the sockets API).
`/repo/wolfip.h`: byte order, dotted quads, descriptors.  `/repo/src/wolfesp.c`: replay
window, sequence numbers, state hooks, association tables and their API, encapsulation and
decapsulation for all suites, `esp_send` and reception in `ip_recv`.  `/repo/src/wolfguard`:
counter window, allowed IPs, inner checks, Noise handshake, cookies, timers, staging, the
device's poll and output.  `/repo/src/tftp/wolftftp.c`: all of it.  `/repo/src/supplicant`:
`eapol.c`, `eap.c`, `rsn_ie.c`, `eap_tls.c` and the I/O callbacks of the engine,
`supplicant.c` (4-way and group handshake, EAP dispatch, SAE as an oracle, PMKSA).
`/repo/src/http/httpd.c`: URL coding, page table, request parsing and dispatch, argument lookup
(not: accept/close of clients, TLS, the text of the responses).

## What is not modelled

Drivers and ports (`/repo/src/port`), socket event callbacks
(`register_callback`, `handle_socket_callbacks`), recv TTL, the insides of the cryptographic
primitives (wolfCrypt; AEAD, HMAC, DH, hash, random generator are parameters with stated
laws), SAE and PEAP/MSCHAPv2 internals, TLS, wolfSSL glue, IP fragmentation (the stack drops
fragments), IPv6 (none), concurrency (the stack is single-threaded; each API call or poll
is one atomic step of a history).  Interaction between units is modelled where a property
needs it (FIFO inside sockets, ARP inside forwarding, ring inside TCP); the data paths of
TCP sender and receiver are composed with a network in `TcpEnd` (no FIN); handshake and
close are in the state machine model only.

## Findings (each proved as a `…_refuted` theorem unless marked *unproved*)

* FIFO (C01): a push can land on a position that makes the queue look empty: with the
  default sizes 13 frames of 1514 bytes and one of 546, then a further push, lose 14 packets.
* Routes (C09): a static route added first on a lower interface beats an equally long
  connected subnet.  VLAN deletion does not purge static routes *(unproved)*.
* Raw sockets (C80, C82): a packet to a multicast group (as to a subnet's broadcast address) waits
  for an ARP answer that never comes and blocks all packets behind it; `sendto` narrows what
  the socket receives to the interface used; with `IP_HDRINCL` the announced header length is
  not checked against the packet, and the checksum sent covers uninitialised stack memory.
* Packet sockets (C81, C83): frames queued for one interface leave on another if the socket is
  used for that one before the next poll; binding to the first interface binds to all.
* MTU (C40): the timestamp option is not subtracted from the peer's MSS / path MTU.
* TCP receiver: a SACK block may start at the cumulative ACK; bytes acknowledged but
  unread are unreadable in CLOSING/TIME_WAIT/LAST_ACK *(unproved)*.
* TCP sender: an empty segment sent behind data in flight pops the queue head; an ACK for
  data never sent frees segments; the RTO callback ignores CLOSE_WAIT; a FIN lost after
  its data was acknowledged is never resent; fast retransmit exceeds the peer's window.
* TCP state machine: off-window segments set the peer window; LAST_ACK completes on any
  ACK; a second FIN advances RCV.NXT; a listener can stay in CLOSE_WAIT; a bound CLOSED
  socket is destroyed by a RST with sequence 0; a final ACK draws a RST when the child's
  slot precedes the listener's; duplicate 4-tuples through unchecked random ports;
  TS.Recent compares byte-swapped values.
* ARP (C20): a lookup of 0.0.0.0 matches an empty slot.
* DHCP: overloaded fields are walked in the wrong order and not after END; an OFFER with
  server id 0 lets any server's ACK through; options before option 53 are ignored;
  duplicate address detection without a sendable probe never ends; `dhcp_bound` is false
  for about 3 s at each renewal; ARP conflicts on another interface abort it.
* DNS (C85): a TC/RCODE response aborts a query without a look at its question; if arming the
  timer fails (timer heap full) the query stays outstanding and blocks every later lookup.
* Forwarding: a connected /8 beats a static /24; multicast and 0.0.0.0 sources are relayed;
  the ARP wait queue never ages and keeps one packet per next hop; too-big DF packets are
  dropped silently.
* Datagram sockets (`UdpExamples`): an unbound sendto draws a port that may be taken;
  connect moves a socket onto another's address and port; sendto re-targets a connected
  socket, even when it fails; bind, connect and joins work on descriptors never opened and
  outlive socket(); such a join leaks the membership; 0x10200 names the same socket as
  0x200; connect decodes descriptors in another order than every other call; a leave fails
  after renumbering; an MTU that just holds the headers refuses an empty datagram.
* ESP: the persisted 64-bit replay bitmap goes through `uint32_t` (C29); datagrams leave in
  clear on non-Ethernet devices whatever the associations (C79); cleartext is accepted from
  peers with inbound associations (C77); an association may be created without ICV, and has
  then no replay protection; a driver's EAGAIN is swallowed after encapsulation *(unproved)*.
* wolfGuard: waiting packets are overtaken; a packet that finds the session just expired
  waits without a handshake (C71).  *Unproved:* an allowed-ip length above 32 acts as more
  specific than /32; waiting packets above 1536 bytes are cut, direct ones dropped; a failed
  static DH erases the PSK; an initiation created while the clock reads 0 is neither
  retransmitted nor rate-limited; zeroing of old keys resets a handshake in flight.
* TFTP: an end configured for blocks above 512 bytes does not fall back to 512 without
  negotiation (truncated file reported complete); an OACK may enlarge blksize; a
  duplicate ACK advances the server; no dallying; lost final ACK never repeated.
* Supplicant: forged EAPOL-Key or EAP frames end handshakes and sessions; M3 without the
  Secure bit is accepted; a 1-byte GTK is accepted; keys stay after a failed M4;
  AUTHENTICATED without an install hook; PMKSA reconnect ignores the authentication mode.
* HTTP: an encoded NUL cuts the path (`/a%00.secret` gets `/a`); any byte may follow the CR of
  the request line and the final empty line may be missing; a body of exactly 1024 bytes is
  dropped without an answer; requests split over two receive calls get 400.
* EAP-TLS: a message shorter than declared is accepted; a rejected fragment pins the
  declared length; Start does not restart reassembly; duplicates are appended twice.

## Tests against wrong programs

`tools/mutbase.sh` clones and builds the last commit in `/tmp`, `tools/mutate.py` applies
each seeded bug to a model file there, rebuilds everything that depends on it and records
in `seeded/LOG.jsonl` which theorems failed.
