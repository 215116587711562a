# Formal model of miraclecast in Rocq (Coq 8.16.1)

## Layout

For each modelled unit `X` there are up to four files in `rocq/theories/`:

* `X_Model.v`  – executable Gallina model of the C functions; each definition
  cites file and lines in `/repo`. No proofs.
* `X_Spec.v`   – the small specification the property is stated against, independent of
  the helper functions of the model (where the statement needs more than a few lines).
* `X_Proofs.v` – lemmas. Long proofs are split into several files (`RtspMsg2_Proofs.v`, …).
* `P_X.v`      – property theorems only, each closed by `exact` (refutations by
  computation), followed by `Print Assumptions`, with `Example`s showing that the
  hypotheses can be met in a case that is not trivial.

Conventions: bytes are `N` below 256; sizes are unbounded unless the property is about
wrap-around, in which case the wrap is written out (`wrap64`); undefined behaviour and
loops that do not end are outcomes of their own (`UB`/`Undef`, `Endless`); external calls
(malloc, send, recv, time, rand) are oracles passed as arguments or events.
Components that react to events (buses, servers, groups) are transition systems; a run is
any list of events, so the theorems hold for every interleaving.

Where the faithful model violates a property, the theorem is named `…_refuted` and gives a
concrete witness; what does hold is proved next to it with suffix `_partial`, with the
missing part named in MANIFEST.json.

Theorems were tested against wrong programs: `seeded/LOG.jsonl` lists edits of the models
and the theorems that then fail.

## Units

| unit | code modelled | properties | how it is proved | simplifications |
|---|---|---|---|---|
| Align | shl_macro.h SHL_ALIGN_POWER2 | C03, C04 | arithmetic on `N.log2` | 64-bit size_t |
| Alloc | shl_util.c shl_greedy_realloc* | C49, C50 | case analysis over 64-bit arithmetic | realloc may fail at will |
| Atoi | shl_util.c shl_atoi_*, shl_macro.h SHL_*_MULT | C05 – C07, C47 | induction over the digits | — |
| Qstr | shl_util.c shl_qstr_* | C08, C09, C48 | induction over the text with the automaton state; bounded stores | allocation succeeds |
| Split | shl_util.c shl_strsplit*, shl__path_startswith | C10, C51 | induction against a declarative field specification | allocation succeeds |
| Ratelimit | shl_util.c shl_ratelimit_test, shl_util.h | C11, C52 | invariant over event sequences | the clock is monotonic |
| Dlist | shl_dlist.h | C12 | separation-style predicate over a heap | — |
| Ring | shl_ring.c | C01, C02 | refinement to a byte queue, induction over operations | malloc oracle per operation |
| Htable | shl_htable.c, shl_htable.h | C13 – C15, C53 | invariant "no empty slot on the probe path", counts, refinement to a bag | the callbacks are pure |
| RtspMsg | rtsp.c 110-1398, 1697-2056 | C18, C19, C22, C61, C63, C221 | round-trip inductions over headers and arguments, use of a header array that may move | allocation succeeds |
| RtspParser, RtspWire | rtsp.c 2058-2562 | C16 – C18, C20, C21, C62 | simulation: chunked = unchunked; parser automaton over built messages | ring replaced by the queue of C01 |
| RtspBus | rtsp.c 2564-3274 (queues, calls, timeouts, cancelling) | C23 – C27, C64, C90, C91, C202 | transition system with a table of calls; inductive step relation and invariants | time is not modelled: an armed timer may fire at any moment; allocation succeeds |
| WpasMsg | wpas.c 115-832 | C30, C31, C65 – C68, C89 | round-trip inductions, tokenizer lemmas of Qstr | allocation succeeds |
| WpasBus | wpas.c 838-1530 | C28, C29, C201 | transition system, step relation, invariants over runs | as RtspBus; matches and reference counts in units Match and Ref |
| Match | wpas.c 838-866, 1605-1648; rtsp.c 2620-2651, 3132-3190 | C71 – C73 | induction over the script of the callbacks | allocation succeeds; no message is delivered from inside a callback |
| Ref | rtsp.c 350-372, 563-605, 2680-2752, 2941-3019; wpas.c 118-237, 877-891, 1153-1213 | C75, C76 | references of users as ghost state, exact result of the recursive release, invariant | allocation succeeds; counters do not wrap; waiting messages are found in the table (C64) |
| Checksum | dhcp/common.c dhcp_checksum | C35 | arithmetic modulo 65535 | — |
| DhcpOpt | dhcp/common.c 42-160, 238-369 | C32 – C34, C77 | induction over the option list, explicit bounds | — |
| DhcpRaw | dhcp/common.c 522-587, client.c 1274-1340 | C78 – C80 | frame taken apart field by field, checksum theory of C35 | system calls of the sender succeed; the socket filter is not modelled |
| DhcpVal | dhcp/client.c 1783-1879, 2190-2227, common.c 42-72 | C81 | loop invariant: text so far and terminator; lengths of decimal numbers | allocation succeeds; the hash table of the values is not modelled |
| DhcpClient | dhcp/client.c 276-293, 440-514, 1494-1781, 2229-2401, 2575-2605, 2668-2843 | C82 C83 C84 C85 C86 C87 C88, C99 C100 C101 | invariant of the timers and the lease over every history; potential for the number of DISCOVERs | IPv4 only; timers are exact; sending works; a packet is what the client reads of it; callbacks do nothing, stop or start |
| LinkLocal | dhcp/client.c 276-293, 516-590, 1342-1459, 1511-1572, 2229-2278, 2607-2666, 2757-2761, 2820-2843 | C92 C93 C94 C95 C96 C97 C98 | stages of the protocol tied to a reading of the history, over every history; time bounds for timers in time | timers are exact; sending works; random addresses are any link-local ones (C53); callbacks do nothing, stop or start; warnings of GLib about removing a source twice are not seen |
| DhcpServer | dhcp/server.c 74-298, 421-762 | C36 – C39, C57 – C60 | invariant over packet histories (lease heap, list, index) | little-endian machine; sockets and timers are events |
| Ipv4ll | dhcp/ipv4ll.c 41-72 | C46, C54 | arithmetic; rand() is an oracle | — |
| Wfd | ctl/wfd.c, ctl-sink.c 214-233 | C40, C55 | lowest-set-bit characterisation | — |
| Sink | ctl/ctl-sink.c 26-378, ctl-sink.h 82-90 | C102 C103 C104 C105 C106 C107 | exact bytes queued and state after each message; induction over sessions | memory and the event loop work; the table of extensions in the order of its keys; printing left out; sscanf as in glibc with 64-bit longs |
| SinkConn | ctl/ctl-sink.c 380-627, rtsp.c 2850-2899 and 2919-3019 for the descriptor | C108 C109 C110 | invariants over histories with arbitrary callbacks | descriptors are the lowest free number; the bus is its descriptor, a state and a queue |
| SinkCtl | ctl/sinkctl.c 258-268, 363-492, 575-868 (callbacks, timers, player, end), ctl-wifi.c 35-53, 93-101, 228-248, 335-358, 681-735, 787-835, 1142-1157 | C111 C112 C113 C114 C115 C116 | invariants over all inputs; the invariant of SinkConn carried through; automaton for the session | D-Bus messages are inputs, calls to the daemon succeed; numbers for pointers |
| Uibc | uibc/miracle-uibcctl.c 163-368, 591-624 | C41, C42, C56 | layout equations, recorded stores | scaling ratios 1, as in the only caller; sscanf is a parameter |
| Setup | wifid-supplicant.c 1529-1923, 2346-2384 | C45, C69, C74 | counter machine, induction over replies | requests can be allocated and queued |
| Super | wifid-supplicant.c 1864-1923, 2118-2776, wpas.c 1097-1106 | C117, C118, C119, C120, C121, C122, C123 | invariant over events with the setup requests of Setup and the limits of Ratelimit | requests can be allocated and queued; process numbers are not reused; names are made as a whole |
| Comm | util.h 135-145, dhcp/dhcp.c 98-139, 281-377, 670-697, dhcp/server.c 622-625, wifid-supplicant.c 130-141, 231-338 | C124, C125, C126, C127 | texts by induction; composition of the writer and the reader of the messages | allocation succeeds, messages are not lost; sscanf with %2hhx as in glibc |
| Mirror | wifid-dbus.c 31-65, 109-340, 456-900, wifid-link.c 56-134, 206-410, wifid-peer.c, wifid-supplicant.c 614-704, 850-932, 1530-1548, 1864-1923, ctl-wifi.c 35-248, 305-523, 747-962, 1153-1293 | C128, C129, C130, C131, C132 | simulation of the daemon by what its signals say; invariant between a program with late signals and one without | allocation succeeds; signals arrive in order; object paths stand for their labels; a change of a property and its signal are one step |
| Cli | ctl-cli.c 144-255, 328-632, sinkctl.c 109-355, 438-449, 748-775, 845-874, wifictl.c 70-426, 476-494, 521-547, ctl-wifi.c 250-312, 525-755, 1219-1400 | C133, C134, C135, C136, C137, C138, C139, C140, C141 | invariant of the picture over commands and signals; each command against an inductive meaning, in both directions; completion against a filter | what is printed is a list of lines without columns and colours; history, prompt and readline are left out; the answers of wifid are an argument; what sinkctl does for peers is in SinkCtl; allocation succeeds |
| Settings | sinkctl.c 71-83, 493-560, 876-1058, wifictl.c 582-656, wifid.c 45-53, 99-119, 520-655, wifid-link.c 152-191, wifid-supplicant.c 2424-2450, 2628-2643, shl_log.c 279-320, res/miracle-gst, miracle-vlc, miracle-omxplayer, uibc-viewer, gstplayer (options) | C142, C143, C144, C145, C146, C147 | options by induction from the last one; command line built by one program and read by the other | getopt_long, getopts, strtoul and the key file of glib are modelled by what their manuals say; no file name expansion in the scripts; --res is kept as text |
| Link | wifid.c 84-189, wifid-link.c 56-140, 214-375, wifid-supplicant.c 1735-1738, 1658-1690, 2657-2752 (paths, configuration) | C148, C149, C150, C151, C152, C153, C154, C155 | each step changes one link; invariants of each link | processes start and end at the will of the environment; no allocation fails; requests without callback arrive; the devices found at start are events like others |
| Dhcp6 | common.c 162-236, 402-414, client.c 1461-1474, 1881-2188, 2229-2573 (DHCPv6) | C156, C157, C158, C159, C160, C161 | every message split into options and a rest; loops by induction on options, sub-options, labels | memory can be allocated; reading what was not received is undefined; texts of addresses are their bytes; the extra look at the server of a CONFIRM is left out |
| Mkdir | shl_util.c 309-362, 774-882 | C162, C163, C164, C165, C166 | the loop on text equals one on names; induction on the names | a file system is a map from places to directories and files, without links; stat and mkdir as in their manuals, other refusals are an argument; allocation succeeds |
| Groups | wifid-supplicant.c groups and peers | C43, C44, C70 | heap of live objects, exact result of freeing a group, invariant over events | malloc returns any unused address; user counts do not wrap |
| Prov | wifid-supplicant.c, wifid-peer.c, wifid-dbus.c: finding peers, provisioning, connecting, failures | C167 – C172, C183, C184 | state of one link with ids for allocated peers, invariant over events, per-device view of the history | peers in one link; groups are seen through the events that a peer joins, is up or leaves; names and WFD subelements are in Wire |
| Dhcp6Send | client.c 216-274, 295-407, 592-1117, 2664-2762, 2987-2998, 3079-3121 (DHCPv6 sending) | C173 – C179 | invariant of the table of options over any calls; messages by induction on requests and table | memory can be allocated but for 0 bytes; the order of the table is any permutation; texts of addresses are their bytes or refused |
| UibcMain | uibc/miracle-uibcctl.c 3-83, 106-160, 370-588, res/gstplayer 134-164 | C180, C181, C182 | induction over lines; numbers of base 16 | scaling ratios 1; sscanf as in glibc; the socket is connected; a gesture is read with the word after the array as a parameter; what is printed is left out |
| DhcpMain | dhcp/dhcp.c 73-82, 278-743, 773-948, dhcp/server.c 800-825, 880-896, wifid-supplicant.c 354-495 | C185, C186, C187, C188, C189, C190, C191 | induction over texts; the units Settings, Groups, DhcpServer, DhcpClient and Comm are composed | ip, finding the interface, signals and sockets succeed or fail as given; events after the loop was told to quit are not seen; inet_pton as in glibc |
| Wire | wifid-supplicant.c 848-1527 (what is read of messages), 1947-2017 (commands) | C192, C193, C194, C195, C196 | texts of events as an inductive relation; tokenizer on words and quoted texts; composed with WpasMsg, Comm and Prov | texts of events as in the sources of wpa_supplicant; memory can be allocated |
| DhcpTalk | dhcp/client.c 176-208, 409-514, 1461-1490, 1600-1616, 2290-2365, 2989-3077, common.c 589-633 | C197, C198, C199, C200 | packets as header and list of options (DhcpOpt); composed with DhcpServer and DhcpClient | memory for options is not short; options of a packet are all read when it arrives; packets are not lost |
| Map | shl_htable.h 124-366, shl_htable.c 421-474, wifid-peer.c 37-100, wifid-link.c 36-150, wifid.c 60-72 (the tables) | C203 | refinement of unit Htable to a map; memory of keys that is reused | members of the objects other than the key; the copy of the key is always made; no cached hashes |
| Log | shl_log.c 39-278, ctl-cli.c 90-122 | C204, C205, C206, C207 | decimal numbers read back; lists of bytes | localtime and the locale are given; writing succeeds; one thread; the text of a message is a function of errno |
| WpasSock | wpas.c 40, 215-233, 327-372, 901-1160 | C208, C209, C210, C211 | invariant over histories with steps of other programs; addresses read back | paths are compared as texts (no links, no working directory); a socket is bound once; the kernel as in unix(7) |
| Spawn | wifid-supplicant.c 213-218, 354-495 (descriptors), 2397-2421, 2456-2497, 2499-2550 (fork) | C212, C213, C214, C215 | invariant over histories of groups and programs; PATH as a list joined with colons | one channel per group; process numbers are not used again; socketpair, close and dup2 as in POSIX |
| Host | util.h 36-65, dhcp.c 249-271, uibc/miracle-uibcctl.c 17-46, 87-104, 249-290 | C216, C217, C218, C219, C220 | induction over paths and rows; numbers of base 2 read back | g_key_file_load_from_file drops what was loaded before; ioctl as in Linux without alternative names; memory can be allocated |
| Paths | wifid-dbus.c 32-66, 316-365, 722-747, 826-895, wifid.c 60-83, wifid-link.c 36-55 | C222, C223, C224, C225 | lookup as an equivalence; induction over links and peers with the room left in the array | paths stand for labels; hash tables are lists in the order in which they are walked (unit Map is about the table) |
| Reap | wifid.c 189-208, wifid-supplicant.c 204-210, 566, 2366-2382, 2538, 2724-2737 (child sources) | C121 | invariants over histories of processes and one pending signal | one SIGCHLD is pending at a time (signal(7)); sd-event waits for all processes with a child source that ended; process numbers are not used again |
| Wifid | wifid.c 189-208, 240-486, 644-688, wifid-dbus.c 897-956 | C226, C227, C228 | induction over calls, signals and devices; links as in unit Link | the order of the calls, not their arguments; devices that are there are read as udev events are; manager_free is not modelled |
| PeerSig | wifid-peer.c 194-222, wifid-dbus.c 387-454, ctl-wifi.c 1006-1069, wifictl.c 442-460, sinkctl.c 648-669, 687-694 | C229, C230 | refinement of unit Mirror; cases of messages | signals arrive in order; match rules of ctl_wifi_init (1071-1101) pass what they name |
| IpRun | dhcp.c 142-247 | C231 | cases of endings; status word of wait(2) | file descriptors other than stdout are left out |
| RtspRead | rtsp.c 1469-1481, 1574-1694 | C232, C233 | induction over types against an inductive meaning of reading, in both directions | messages as in RtspMsg; sscanf is an argument |
| ArpPkt | ipv4ll.c 73-142; client.c 538-539, 567-570, 1396-1413 | C234, C235 | stores into memory against fields read highest byte first | little-endian machine; results of socket, bind and sendto are arguments |
| SrvLife | dhcp/server.c 297-315, 352-416, 660-668, 765-798, 836-877; dhcp.c 426-430 | C236, C237, C238 | invariant over all histories of calls and events | sources of GLib are numbers; a channel is closed with its source; leases and options are left out |

## Code that is not modelled

* `src/shared`: in rtsp.c the socket, and in rtsp.c and wpas.c the
  event-loop set-up and what is logged.
* `src/dhcp`: the timers of DHCPv6, the ARP socket (ipv4ll.c).
* `src/wifi`: D-Bus methods beyond what is shown,
  what the forked process does before it executes wpa_supplicant.
* `src/ctl`: the terminal; in ctl-wifi.c how messages are put together and taken apart.
* sd-event, sd-bus, glib, the kernel.

## Findings

Each is a `…_refuted` theorem with a concrete witness.

* **C04** (Power-of-two rounding is total as documented): the arguments the comment singles out (0 and values above 2^63) are undefined behaviour; the partial theorem says they are exactly the bad ones.
* **C06** (Strict number parser: overflow is always reported): 2^64 in decimal parses successfully as 2^64-6 (last digit dropped, no error). The partial theorem says exactly which overflows are reported and what is returned for the others.
* **C09** (Quoted string join/tokenize round trip for every list): empty strings and unquoted apostrophes are lost. With C08 the partial theorem shows the round trip holds for exactly the lists of C08.
* **C100** (Renewals are not sent in a burst): the delay has 32 bits of milliseconds, a lease of 265 days is renewed twice within a second. Proved for leases of less than 2^24 seconds.
* **C101** (The address renewed and released is the address reported): the address of the offer is kept although another one was acknowledged. Proved for servers that acknowledge the address requested.
* **C102** (OPTIONS is answered and returned): not true as RFC 2326 has it: the list of methods is sent as one quoted string, since it contains spaces. Proved: the exact bytes sent and that nothing else changes.
* **C103** (GET_PARAMETER is answered with the parameters asked for): an extension of more than 511 bytes with its name overflows the buffer; an extension named wfd_content_protection is answered twice. Proved for extensions that fit, with unique names.
* **C105** (The session is started with the identifier the source has given): the status of the reply is not looked at, PLAY follows an error reply with a Session header too. Proved: what is sent for every reply.
* **C106** (The input back channel follows the capability): a capability that breaks off before the number switches the channel on without a port (the result EOF of sscanf counts as success); port=none does not switch it off again. Proved: the effect of none, of a named port and of no port at all.
* **C107** (Every request is answered once, in order): requests with other methods (TEARDOWN) get no reply. Proved for runs of the three known methods; others change nothing.
* **C109** (The callbacks of a sink tell the life of every connection): a user that closes the sink in the connected callback, with a hang-up in the same event, is told of a disconnect of a closed sink, and the next connection is dropped silently. Proved for users that leave the sink alone in that callback.
* **C110** (A sink closes its descriptors, exactly once): the bus owns the descriptor and closes it, and sink_close closes it again; the second close hits whatever a disconnected callback has opened, also the socket of a new attempt. Proved: nothing leaks; nothing foreign is closed if the callbacks open nothing; exact for connections that were never established.
* **C111** (miracle-sinkctl keeps no pointer to what is gone): a peer that stops being a display is forgotten by the callbacks but stays the running peer; after it is freed the next timer reads it, and no other peer is served any more; a new peer whose message breaks off is freed without a callback; at the end the sink is freed before the peers, whose callback closes it. Proved for histories without these three events.
* **C113** (miracle-sinkctl tries to connect at the given times): after a refused connection the next attempt is made at once and without limit (any number of attempts at the same instant). Proved: the timetable and order of everything else, for histories as in C111; the address for all.
* **C115** (miracle-sinkctl scans when it waits for peers, and not after its end): at the end scanning is asked for again if a peer was running, and not switched off if the daemon has not yet confirmed it. Proved: everything before the end, for histories as in C111; the end without peers and with confirmed scanning.
* **C116** (One player at a time, and only the player is killed): sink_pid is kept when the player ends by itself: the signal goes to whoever has the number then, and no other player is started. Proved: one player at a time; signals to our own processes if players do not end by themselves.
* **C117** (The supervision of wpa_supplicant does not get stuck): a setup request that is unanswered when its process ends is never taken off setup_cnt; the next process answers everything, but the link is not ready and nothing is pending. Proved: progress without such requests; with one, the link is never ready again.
* **C121** (Processes that ended are waited for): a process that is stopped, or whose connection ends first, loses its child source and is left to manager_signal_fn, which waits only for the process that the signal names; if two of them end before SIGCHLD is read, as when a link with a group is stopped, one is never waited for (C121_merged_refuted). Proved: all are waited for if SIGCHLD is read between two ends, and those with a child source always; no running process is taken away.
* **C122** (Connections to ended processes are freed): supplicant_status_fn overwrites its message without releasing it; the messages hold the connection, which is never freed and whose descriptor stays open after a stop. Proved: freed if no process has P2P.
* **C123** (A failure counts once): if the global socket serves for the device too, its end counts twice and the second failure within ten seconds is answered with a pause of 30 s. Proved: the exact count of every event.
* **C125** (Messages of miracle-dhcp are taken as they were meant): not true for station addresses: sta_mac is kept as wpa_supplicant wrote it and compared with the canonical text, so one written with capitals is not found. Proved: everything else, for peers whose addresses are canonical.
* **C126** (wifid knows the current lease): a lease for the same address and mask with another router is not passed on; with a lease without router the owner is never reported. Proved: the local address always; the remote address if every lease has a router and it changes only with the address.
* **C127** (wifid reports the peers of its own group): joining reports nothing, so a peer whose address is told before it joins is reported only with the next message. Proved: reported with the message if it has joined, and with any later message.
* **C130** (Every property is kept up to date): Managed is never signalled, so other programs keep the old value; the end of wpa_supplicant while scanning is not signalled, so a program believes it still scans and does not ask again; addresses that change while connected are not signalled. Proved: right as long as none of these happens.
* **C131** (The answer with all objects is read in any order): if a peer comes before its link the whole answer is given up, since ctl_wifi_parse_peer does not skip its properties. Proved: any order with links first, such as that of manager_dbus_enumerate; which order sd-bus uses is not modelled.
* **C136** (Nothing is asked of wifid that was not said): set-managed takes every word but no as yes (off manages the link); connect with three arguments passes on any provisioning method; p2p-scan with two links takes the last. Proved: for all other lines.
* **C137** (Names of links and peers): with nothing before the @ the first peer of the link is taken, since the empty text counts as number 0; disconnect @wlan0 disconnects it. Proved: links; all other names of peers.
* **C139** (Completion knows which argument is typed): with four or more words in front completion_fns, an array of 3, is read past its end. Proved: right up to three words.
* **C140** (The sink runs on managed links only): a bound link that appears is run on though new links are not managed; wifid refuses, the program believes it runs and run does nothing any more. Proved: for commands.
* **C141** (Scans end with the program): a scan that was accepted but not signalled yet is not stopped, since ctl_link_set_p2p_scanning compares with the old value. Proved: exactly the remembered scans that were signalled are stopped; all accepted scans are remembered.
* **C142** (Options count before the configuration file, and that before the defaults): parse_argv resets the port and the player, so rstp-port and external-player of the file have no effect; options in autocmd count before those of the command line. Proved: what every setting is, for every command line.
* **C143** (Words that are no log level are refused): a word that is neither name nor number gives level 0, so that only fatal messages are shown. Proved: names in any case, decimal numbers.
* **C146** (The player does what the settings say): an external player with UIBC gets the address first, where getopts stops, so it has no port; gstplayer (with UIBC) always plays sound. Proved: without UIBC, for values without blanks; with UIBC port, address and scaling.
* **C147** (The configuration of wpa_supplicant): a friendly name with a line break writes keys of its own; go-intent of the file wraps at 2^32. Proved: for values of one line; the intent is at most 15.
* **C149** (Only the chosen interface): a link that is renamed stays and stays managed. Proved: without renames.
* **C150** (Events of udev are safe): strcmp of NULL for an event without INTERFACE of a known link with --interface. Proved: if all events are named, or without --interface.
* **C151** (Managed as asked for): any udev event of the device manages the link again, or with RELY_UDEV and --lazy-managed unmanages it. Proved: until the next udev event of the device; what options and tags say for new links.
* **C153** (wpa_supplicant has the names of the link): what is set after the setup request was sent and before the setup ends is never sent. Proved: for all other times.
* **C154** (The name of the machine): the name of the machine reaches no link. Proved: names and subelements are those a user set.
* **C155** (The control path of wpa_supplicant): after a rename a restarted wpa_supplicant gets the new name, the paths keep the old one. Proved: without renames.
* **C156** (DHCPv6 options are found): if one to three bytes are left, a header is read past what was received. Proved: exact result for every message otherwise, and that every message of bytes is covered.
* **C157** (DHCPv6 addresses and prefixes): of several addresses only the last is kept; the expiry of prefixes is always 0. Proved: the exact result for every well-formed association.
* **C158** (DHCPv6 identity associations stay inside their option): max_len is never reduced and the times are read whatever the length. Proved: for well-formed associations.
* **C159** (DHCPv6 lists of servers and names): unterminated names are read on, labels of 255 bytes leave dns_name. Proved: for well-formed lists, and for all requested lists of a message.
* **C160** (DHCPv6 messages of others are ignored): identifiers are compared as prefixes; a failed read dereferences NULL; a refused message sets the server of a rebinding client. Proved: everything that was checked, for every message; refused messages leave leases and values alone.
* **C161** (DHCPv6 messages are heard): a Rapid Commit option without data is refused. Proved: all others are heard, with the status and the requested server and name lists.
* **C164** (The prefix bounds what is made): .. in the path leads out of the prefix; the prefix itself is made if it is the path. Proved: for paths without dots only directories on the way below the prefix, and the path itself, are made.
* **C166** (Many strings are joined): with 2^64 - 1 bytes malloc gets 0, since the end is not counted in the check. Proved: for every other length.
* **C168** (Known peers are the devices around): P2P-DEVICE-FOUND makes a peer of its first argument, the interface address; if that differs from p2p_dev_addr, P2P-DEVICE-LOST never removes it. Proved: for devices with one address.
* **C17** (RTSP parser bookkeeping never goes wrong): The count and the consistency check are proved. the byte after an empty data packet belongs to no message; for streams of well-formed items it is proved (C18_received_partial).
* **C170** (One attempt at a time): after the user disconnected, other devices are still refused; after a scan was started another attempt is accepted while the first goes on. Proved: the recorded attempt is the last request that was sent, unless the device was lost or disconnected, a failure was reported, a scan was started or wpa_supplicant stopped since.
* **C171** (Failures are told once): a failure after a scan was started is told to nobody; a failure of another device's negotiation is told of the peer that is connected. Proved: told exactly for the recorded attempt, which it ends; no more failures than requests for each device.
* **C172** (What peers ask for is told): dev_passwd_id of P2P-GO-NEG-REQUEST is ignored: push button after an earlier PIN is told as the PIN. Proved: provisioning events are told as they are, requests to negotiate with the last method asked for.
* **C173** (Identity associations carry what was asked for): T1 and T2 are sent as 0 if no address is added; an address that is not valid ends the list and leaves zero bytes, which read as options of code 0; 2341 addresses wrap the length. Proved: exact in all other cases.
* **C174** (Prefix delegations carry what was asked for): if no identity was set before, IA_PD carries IAID 0 while the others carry one from the hardware address. Proved: exact for up to 49 prefixes with the identity that was set, refused for more.
* **C175** (The option request holds the codes that were given): no codes give ENOMEM, 32768 codes an empty option. Proved: exact for 1 to 32767 codes.
* **C176** (DHCPv6 messages are well-formed and complete): if the client id is requested but there is none, the options requested before it, such as the elapsed time, are missing; options are left out though 1500 bytes would hold them (the last four are not used). Proved: always well-formed, no option twice, never outside of the buffer; complete within 1496 bytes if there is a client id.
* **C177** (Messages that are sent again keep their transaction): the time wraps: after 497 days it is told as 4 hundredths. Proved: same id for any calls in between; the time is right to one hundredth for 248 days.
* **C178** (Identifiers are made as RFC 3315 says): hardware types above 255 are cut (801 is sent as 33); unknown types give success without a DUID; if the hardware address cannot be read uninitialised bytes are used. Proved: exact for hardware types below 256.
* **C179** (The one that asked is told): with callbacks for CONFIRM and RENEW a CONFIRM is sent and its reply is told to the one for RENEW. Proved for one callback.
* **C18** (RTSP message survives the wire): not true beyond 61 headers with a body (the receiver uses a freed header array); proved for up to 61 headers, bodies below 2^32 bytes and texts without control characters and quotation marks.
* **C180** (Every line of input becomes its message): moves (type 2) are dropped; a line of more than 254 bytes is read as several; a short write loses the rest of the message. Proved: exact for any number of lines of touches and keys up to 254 bytes; always ends.
* **C181** (Clicks and keys of the viewer arrive as they are): a key code of more than four digits (all keys outside Latin-1 and the function keys) is cut to its first four digits, so the euro sign becomes 0x1002. Proved: clicks and codes below 65536 arrive exactly, in order; of larger codes the first four digits.
* **C182** (Gestures give messages): not true for every text: the loop reads past the array of fields, which has no null at its end, and the packet is never put into the message, so that a write from a null pointer is the best that can happen. Not reachable from main.
* **C188** (Local groups have networks of their own): every link starts at subnet 50, so that the first groups of two links get 192.168.50.1 and the same range. Proved for the groups of a link.
* **C189** (The interface has an address exactly while it may be used): no callback for a lost lease is registered; the address stays until the client gives up half a minute later or gets another one. Proved: everything else of the statement.
* **C190** (The exit status of miracle-dhcp tells failures): without a lease, or if the address cannot be set, the status is 0. Proved: the status is not 0 exactly if starting failed.
* **C191** (The server does not lease its own address): with --local 100 the first client is offered the address of the server. Proved if the own address is not in the range, as with the words of wifid.
* **C193** (The name and WFD subelements of a peer are those of the device): a name with an apostrophe (Bob's TV) is cut and hides the words behind it, also that the device knows WFD; a name can pretend WFD subelements, which stay after the reply. Proved: exact for names without apostrophe and backslash, and for all replies.
* **C194** (Answers that name no device make no peer): UNKNOWN COMMAND makes a peer 00:00:00:00:00:00, which is shown on D-Bus. Proved for FAIL and for replies that start with an address.
* **C195** (The name and subelements that are set are those that wpa_supplicant gets): the name My TV is sent as "My TV" with the quotes. Proved: a name arrives exactly if and only if it has no blank, double quote or backslash; subelements arrive if they are a word.
* **C196** (The words of a command stay words): a PIN with blanks adds options to P2P_CONNECT. Proved for all histories in which PINs and addresses from outside are words, as they are in events of wpa_supplicant.
* **C197** (The messages of the DHCP client are those of RFC 2131): requesting all 256 codes sends an empty list, a code above 255 requests another option, many of them are written after the packet on the stack, and a clock set back gives 65535 seconds. Proved for option codes 1 to 254 and a clock that does not go back.
* **C198** (The DHCP client and server of the program understand each other): the server reads the own address of the client with its bytes reversed. Proved: everything else. Option codes 1 to 254; the server sends at most the three options it knows.
* **C200** (A client can extend and give back its lease): for every address whose bytes do not read the same in both directions requests to extend get no answer and releases have no effect (C200_ignored), and messages for the server alone are sent to its address with the bytes reversed (C200_unicast). Proved for the other addresses, if the request reaches the server.
* **C202** (RTSP calls time out only while the bus is attached): with two calls of the same cookie the timeout of one takes the other out of the table, and rtsp_detach_event then leaves the timer of the other. Proved for histories whose waiting calls have different cookies.
* **C205** (A log message is one line): newlines of a text are written as they are, and what follows one is read as a message of its own (wpas.c:749 logs replies with newlines). Proved: the text is the only source of further newlines.
* **C206** (Elapsed time of log lines): a clock set back by two microseconds is shown as 0.999998 seconds. Proved if the clock does not go back before the start.
* **C207** (Date and time of log lines): %03d in the format of strftime prints the day of the month before the milliseconds, and in the last half millisecond of a second the stamp is a second too early. Proved: date, time, day of the month and nearest millisecond at all other times.
* **C209** (Clients reach the server of their name): the empty text names the abstract socket of @abstract:. Proved for all other texts; abstract names of more than 86 bytes are refused though 106 would fit.
* **C21** (RTSP interleaved data packets of any size stay in sync): packets of 65536 bytes and more are announced with their length modulo 65536; after an empty packet one byte is lost. Proved for 1 to 65535 bytes.
* **C210** (Servers take free names only): whatever cannot be connected to is removed, also a file that is no socket and the socket of a server of another type; closing removes the socket of a later server. Proved for free names, dead sockets and servers that take connections.
* **C211** (Messages can be sent to the peers set): wpas_message_set_peer does not set the family of the address, so sending always fails with EINVAL; an escaped abstract name is taken for a path. Proved: path bytes are kept, and replies go back to the client.
* **C212** (wpa_supplicant is found in PATH): a directory in PATH that may not be searched ends the search with EACCES though a later one has the program; a directory named wpa_supplicant is taken for the program. Proved without those two; what is found is characterised for every PATH.
* **C214** (Programs have no channels of others): socketpair without SOCK_CLOEXEC: programs started while there are groups inherit wifid's ends of their channels. Proved: with no group it holds, and exactly what is inherited.
* **C215** (Channels do not depend on the standard descriptors): with the standard output closed the channel can get the number 1, and dup2(2, 1) replaces it. Proved if 0, 1 and 2 are open.
* **C217** (Interfaces are found by their whole name): a name of 16 bytes passes the check and the kernel ignores the last one; the kernel also ignores what follows a colon. Proved for all other names. Alternative names of interfaces are left out.
* **C218** (miracle-uibcctl connects where it is told): an unknown host ends with status 0; ports above 65535 are cut and words are port 0. Proved for ports below 65536 in decimal.
* **C219** (Dumps show the bytes): every byte has nine digits. Proved with nine; hexdump, which nothing calls, is right.
* **C220** (int2binary stays in its memory): for 0 and 1 with padding 0 or less one byte too much is written; 2^31 is no int. Proved for all other arguments. The only caller has padding 8.
* **C221** (Raw values of RTSP headers): values with line ends are taken and make several lines. Everything else is proved for all texts.
* **C224** (The path of an address finds a peer): the first shown link that knows the address decides, even if it does not show the peer while another link does. Proved if no earlier link knows the address. wifid itself makes no such paths.
* **C225** (wifid lists its objects): if the path of an object cannot be made then a variable without a value is returned. Proved if all paths can be made; the array is large enough even if the counters are wrong.
* **C227** (Devices that are there at the start become links): a device that cannot be opened any more ends the list, and no later device becomes a link. Proved if no device vanishes, and for the devices before one that does.
* **C228** (wifid takes the name of the machine): for an empty name the log message takes friendly_name, which is NULL at the start, as a text (glibc writes (null)). Proved for all other answers, and for log levels at which the message is not written.
* **C233** (Skipping over values and going back): rtsp_message_skip passes NULL as the name of a header, so that types with '<' always fail with EINVAL. Proved for all other types; a skip that fails stays in the header or the body.
* **C235** (Only ARP packets of other machines that name the address count as conflicts): the number of bytes read, the hardware and protocol types and the sender's hardware address are not looked at, so that part of a packet, a packet for another protocol and the client's own probe (sent back by the network) count. Proved: which byte strings count, missing bytes being zeros.
* **C237** (A DHCP server that was started listens): listener_event gives up the socket on an error but leaves started set, so that g_dhcp_server_start then returns 0 without listening. Proved without such errors; stopping the server first always helps.
* **C238** (A DHCP server removes only sources that exist): listener_watch is unsigned and initialised with -1; stopping or freeing a server that was never started removes source 4294967295, once. Proved for all servers that were started before.
* **C24** (RTSP call completes at most once): a call hit by a reply or timeout while still queued stays waiting and can complete again. Proved: at most twice, and at most once when never hit while queued (distinct cookies among waiting messages)
* **C25** (Cancelled RTSP calls never complete): a call cancelled while still queued can time out later. Proved: after cancelling a call whose writing has begun no callback runs, else at most one
* **C26** (RTSP calls are accepted without an explicit cookie): a message without cookie is always rejected with EINVAL. Proved: sealable requests with an own cookie are accepted
* **C28** (Supplicant control channel: one request at a time, answered in order): not true when a client sends a request with wpas_send, which does not wait for the reply. Proved in full for requests made with wpas_call_async (the only ones the daemon makes); the order of writing is proved for all runs
* **C29** (Cancelled supplicant requests never call back): not true for the second half when wpas_send was used before. Proved: a cancelled request is never written or called back later (all runs), its cookie cancels exactly it, and without wpas_send its reply is given to nobody
* **C30** (Supplicant messages survive sealing and parsing): not true as stated: replies are split at newlines only. Proved: replies are their lines, events read back as the tokens they were built from, requests of plain tokens have single blanks between them
* **C31** (Sealed supplicant events carry their full text): the announced length of every event lacks the length of the level prefix; the exact difference is proved
* **C34** (DHCP option lookup terminates on every packet): an option overrunning the option area hangs the lookup, so does an overload option inside the file field; an empty overload option at the end reads past the packet. Holds for well-formed packets.
* **C37** (DHCP server chooses free addresses inside the range): an expired lease is handed on although its address ends in .0; range and exclusivity are proved, and .0/.255 is never picked afresh.
* **C38** (DHCP: an acknowledged address is not given to a second client): a request of a client without lease takes over an unexpired lease; a new discover of the holder makes its lease expired. Positive statement for histories without these packets.
* **C39** (DHCP offers are reserved): the offer time is stored as an absolute time, so every offer is expired at once. Positive statement as for C38.
* **C42** (UIBC encoder writes only inside its buffer): every touch packet is written one byte too far; a wrong pointer count reads past the fields; a trailing comma overflows the field array; a number that is no int is undefined in atoi. For complete descriptions the one byte is the only store outside.
* **C44** (P2P groups are freed exactly once): tearing down a local group with stations frees it twice; a group refers to its owner after the owner was freed; a group whose owner leaves is never freed. Proved: these are the only undefined steps, exactly when the first happens, no peer refers to a freed group, tearing down removes exactly the group, the last station leaving frees it, stopping frees everything
* **C45** (Supplicant restart becomes ready again): the counter of open setup requests is not reset on failure, so a link whose process failed during setup never becomes ready. Proved: with all requests answered the link is ready iff no request was left unanswered at an earlier failure, never before, and finitely many replies answer all
* **C47** (Strict number parser rejects an empty digit run): a string without digits parses successfully as 0; the stop position tells.
* **C50** (Growing reallocation of typed arrays): the byte size is computed without overflow check; holds when it fits.
* **C52** (Statically defined rate limiter limits): the static initialiser puts the burst into the wrong field; such a limiter admits everything.
* **C53** (Hash table works for every element pointers): a pointer whose bits are a subset of the common bits of the others can be stored as an empty or deleted entry and is lost; C13 gives the positive statement for pointers with a common highest bit.
* **C57** (DHCP: a client gets an address while there is one): not true for times from 2^31 on (32-bit comparison); proved below.
* **C58** (DHCP reply contents): not true for the server identifier (bytes reversed on little-endian machines); everything else proved.
* **C59** (DHCP server reads only the received packet): address options without data are read past the packet; proved for well-formed packets with address options of 3 bytes or more.
* **C60** (DHCP: a client can renew its own lease): not true for renewal by the header field (byte order); proved for the requested-address option.
* **C61** (RTSP messages with any number of headers): more than 64 headers move the header array and leave pointers into the old one. Proved up to 61.
* **C62** (RTSP parser is memory safe on any stream): 62 headers and a body sent by the peer. Proved unless a message has more than 60 headers.
* **C63** (RTSP message from a buffer reads only the buffer): one byte after the buffer is read when a text body ends with its line end.
* **C64** (RTSP replies to repeated CSeq values are memory safe): three replies with one CSeq lead to use after free. Proved: safe when waiting messages have different cookies (apart from sealing, see C61)
* **C66** (Parsing any supplicant datagram is defined): an event level outside int is undefined (atoi). Proved for the server side, and for the client side with fewer than ten digits
* **C69** (P2P support is that of the running supplicant): the flag is never reset on a restart. Proved while no earlier process had P2P
* **C70** (Connected peers are in a group): a peer that left the group it owns is reported connected again by a later DHCP line. Proved if owners are members of their groups at DHCP lines
* **C72** (A removed match callback is not called): not true within one delivery: a callback removed by an earlier one is still called for the same message. Proved: a registration no longer in force is never called again
* **C73** (Removing a match takes back the latest registration): not true for two removals of one pair within one delivery: both take back the same registration. Proved outside of deliveries, and within if no pair is removed twice
* **C74** (Wi-Fi display support is that of the running supplicant): the flag is never reset on a restart. Proved while no earlier process had P2P
* **C76** (Releasing the last reference frees bus and messages): a bus released while a call is not yet written is never freed, nor is one whose queued message is released after the bus. Proved: in exactly these cases it is not freed
* **C79** (The client accepts exactly valid packets): valid packets whose UDP checksum is transmitted as 0xffff are dropped. Proved: what is accepted is valid; every valid packet with other checksums is accepted.
* **C80** (No frame is fatal to the client): an IP packet whose total length is below 28 makes memcpy copy almost 2^64 bytes; a datagram shorter than 240 bytes makes the receiver compare uninitialised bytes. Proved: every other frame is handled.
* **C81** (Values of received DHCP options): an option shorter than its type makes the client read an uninitialised string; an incomplete address at the end becomes an empty value. Proved: exactly which options do, all others are decoded right; message type is never decoded.
* **C82** (A stopped DHCP client has no timers): starting a running client, or stopping it in the callback of the lease, leaves timers behind; timers that have run are removed again. Proved: none is left if callbacks do not call the client and it is started only when it does not run.
* **C83** (A lease never outlives its time): after a NAK while rebinding the loss of the address is never reported. Proved for all other histories.
* **C84** (Leases are renewed): while renewing every packet is ignored (its options are searched with length 0). Proved: while rebinding an acknowledgement extends the lease.
* **C85** (The DHCP handshake): a client that reported no lease and is started again without a stop does not answer offers; nor after a socket error. Proved: after a stop, whatever happened before.
* **C86** (No DHCP reply is fatal): an offer without server identifier, or an acknowledgement without one to a client asking for its last address, reads a null pointer; starting in the no-lease callback recurses for ever. Proved: all other steps are defined and end.
* **C87** (The client goes on or says that it gave up): if a socket cannot be made when the lease ends the client neither goes on nor reports; after the report of no lease a late offer makes it go on. Proved: with sockets, a timer is pending or the last act was the report.
* **C88** (The client gives up after six DISCOVERs): after seven NAKs hundreds are sent. Proved for up to six NAKs since the last stop.
* **C89** (Verdicts of supplicant replies): a good reply behind an interface prefix is not recognised; a reply that is not sealed makes strcmp read a null pointer. Proved: received datagrams count as good exactly if their whole text is OK and a newline; requests and events never.
* **C92** (Link-local addresses are claimed properly): if the ARP socket cannot be opened, or fails, the client goes on and claims the address without listening. Proved for working sockets.
* **C94** (The link-local client gives up after ten conflicts): requests for a held address, which any host sends, count as conflicts, so a loss can end in giving up; the count survives stop and start, so a client that gave up gives up again at the first conflict. Proved for clients that never held an address, counting over all starts.
* **C95** (Only conflicts make the link-local client drop the address it tries): a host that asks for the address makes the client drop it. Proved: packets that do not name the address change nothing.
* **C96** (A stopped link-local client is silent): stopped in the callback for a lost address the client goes on and claims another. Proved for stops outside callbacks and in the callback for an available address.
* **C98** (The address of the link-local client): after a stop the old address is still returned. Proved: the address held is returned; C93_lost: none after a loss.

Seen while reading, not stated as theorems:

* server.c: after an error on its socket g_dhcp_server_start succeeds without listening (C237); listener_watch begins as 4294967295, which g_dhcp_server_stop removes (C238).
* client.c: ipv4ll_recv_arp_packet counts cut packets, packets for other protocols and the client's own packets as conflicts (C235).
* rtsp.c: rtsp_message_skip cannot skip a header (C233).
* wifid.c: manager_signal_fn waits for one process for each SIGCHLD, so that of two that end together one stays a zombie (C121); a device that vanishes during the start hides the later ones (C227); an empty name of the machine is logged with a NULL pointer as text (C228).
* wifid-dbus.c: peer_dbus_find without an index gives up at the first link that knows the address (C224); manager_dbus_enumerate returns a variable without a value if a path cannot be made (C225).
* rtsp.c: raw values and tokens may contain line ends, which make further headers (C221).
* dhcp.c: if_name_to_index takes names of 16 bytes (C217). miracle-uibcctl.c: status 0 for unknown hosts (C218); int2binary(0, 0) writes behind its memory (C220).
* wifid-supplicant.c: supplicant_find stops at a directory that may not be searched (C212); socketpair without SOCK_CLOEXEC lets programs inherit the channels of other groups (C214).
* wpas.c: wpas_message_set_peer leaves the family unset (C211); wpas_create removes files that are no sockets (C210).
* shl_log.c, ctl-cli.c: "%03d" given to strftime prints the day of the month, and the second that rounding carries is added to a variable that is not used (C207); times before the start are shown wrong (C206); multi-line replies of wpa_supplicant are logged as several lines (C205).
* rtsp.c: with two waiting calls of the same CSeq, rtsp_detach_event can leave a timer in the event loop (C202).
* dhcp/client.c, server.c: set_request takes any int and writes without a check for room (C197); the own client cannot extend or release a lease of the own server, for two reasons each enough (C200).
* wifid-supplicant.c, wpas.c: an apostrophe in the name of a device cuts the name and hides its WFD subelements, and a name can pretend them (C193); any reply but FAIL makes a peer, 00:00:00:00:00:00 if it has no address (C194); values with blanks, quotes and backslashes are sent quoted although wpa_supplicant knows no quotes (C195), and a PIN with blanks adds options (C196).
* dhcp.c: the option -s takes a word and does nothing; the host name that is sent is the text "<hostname>"; subnets clash across links (C188), the address outlives the lease (C189), exit status 0 without a lease (C190), the own address may be leased (C191).
* dhcp/client.c (DHCPv6): T1/T2 dropped, list cut at an invalid address, lengths wrap (C173, C175); IA_PD with IAID 0 (C174); options lost without a DUID (C176); elapsed time wraps (C177); uninitialised DUID and IAID (C178); the wrong callback is told (C179).
* wifid-supplicant.c: peers are made under the interface address of P2P-DEVICE-FOUND (C168); a disconnect keeps the recorded attempt and a scan drops it (C170, C171); dev_passwd_id is ignored (C172).
* rtsp.c: a HUP never runs the callbacks of pending calls; a CSeq that overflows is a parse error;
  an incoming request without CSeq gets a cookie of the local counter.
* wpas.c: a good reply behind an IFNAME= prefix is not recognised (C89); a failed seal in wpas_call_async leaves the peer set, later calls fail with EINVAL;
  a HUP never runs pending callbacks; calls are accepted on a dead bus.
* dhcp/server.c: the search for a free address wraps around for an end address of 255.255.255.255.
* dhcp/client.c: refusals are counted over the whole run of a client, leases do not reset
  the count.
* dhcp/client.c: ipv4ll_start seeds with mac_address[4] twice, so only 256 seeds exist; removing the
  timeout after the address was announced removes a source that no longer exists; a second start
  leaks assigned_ip.
* shl_util.c: shl__split_push and shl__qstr_push do not check the result of malloc.
* ctl-sink.c: a file descriptor is closed twice on an error path; PLAY, PAUSE and TEARDOWN triggers
  are acknowledged and ignored.
* ctl-wifi.c: ctl_link_set_wfd_subelements compares with wfd_subelements that may be null.
* ctl-sink.c: uibc_config and uibc_setting are never freed.
* dhcp.c: manager_free removes its signal source twice; no lease_lost callback is registered, so the
  address stays after its lease expires.
* wifid-supplicant.c: the pending peer is not cleared on a successful connection.
* wifid-supplicant.c: supplicant_open compares a negative result with a positive ECONNREFUSED; the
  result of strdup in supplicant_find is not checked.
* wifid-link.c: link_supplicant_started returns at once because links are always public, so the
  friendly name of the manager is never applied; link_free leaks driver_param; link_set_go_intent
  tests an unsigned value for being negative; link_renamed keeps the old names of the sockets.
* wifid-dbus.c: manager_dbus_enumerate returns an uninitialised value if a path cannot be made.
* ctl-wifi.c: a peer that is connected when it is first seen is reported connected before it is reported new.
* miracle-uibcctl.c: every message leaks its packet; str_split leaks a copy of its argument, and bad events the fields.
* wpas.c: wpas_new tests its argument ctrl_path instead of the copy it has just made.

## Trusted base

* The Coq 8.16.1 kernel and the `vm_compute` machine (used in examples and refutations).
* That the models are a faithful reading of the C code; every definition cites the lines it
  stands for, and the simplifications are named in the table above and in the model files.
* No axioms are declared, no kernel check is switched off, no plugin is used. Of the standard
  library only axiom-free parts are used; loading `ZifyBool`/ssreflect parts makes `coqchk`
  list the module parameters of `Coq.ssr.ssrunder`, which no theorem depends on.

### Assumptions of the theorems

Output of `Print Assumptions` for each property theorem (from the build):

| theorem | assumptions |
|---|---|
| `C03_align_least_power_of_two` | Closed under the global context |
| `C04_align_total_refuted` | Closed under the global context |
| `C04_align_ub_exactly_partial` | Closed under the global context |
| `C234_probe` | Closed under the global context |
| `C234_announce` | Closed under the global context |
| `C234_heard` | Closed under the global context |
| `C234_socket` | Closed under the global context |
| `C235_short_refuted` | Closed under the global context |
| `C235_protocol_refuted` | Closed under the global context |
| `C235_own_refuted` | Closed under the global context |
| `C235_reads_partial` | Closed under the global context |
| `C235_names_partial` | Closed under the global context |
| `C05_number_exact` | Closed under the global context |
| `C05_run_exists` | Closed under the global context |
| `C05_run_unique` | Closed under the global context |
| `C05_invalid_base` | Closed under the global context |
| `C06_overflow_reported_refuted` | Closed under the global context |
| `C06_overflow_reported_partial` | Closed under the global context |
| `C07_narrow_never_truncates` | Closed under the global context |
| `C47_empty_run_rejected_refuted` | Closed under the global context |
| `C47_empty_run_detectable_partial` | Closed under the global context |
| `C35_checksum_is_complement` | Closed under the global context |
| `C35_ones_sum_unique` | Closed under the global context |
| `C35_checksum_verifies` | Closed under the global context |
| `C35_checksum_any_byte_order` | Closed under the global context |
| `C133_unknown_word` | Closed under the global context |
| `C133_wrong_count` | Closed under the global context |
| `C133_known_word` | Closed under the global context |
| `C133_help` | Closed under the global context |
| `C134_sessions` | Closed under the global context |
| `C134_wifid_signals` | Closed under the global context |
| `C134_start` | Closed under the global context |
| `C134_quit` | Closed under the global context |
| `C134_ends` | Closed under the global context |
| `C135_commands` | Closed under the global context |
| `C136_managed_refuted` | Closed under the global context |
| `C136_connect_refuted` | Closed under the global context |
| `C136_scan_refuted` | Closed under the global context |
| `C136_nothing_else_partial` | Closed under the global context |
| `C137_links` | Closed under the global context |
| `C137_bare_refuted` | Closed under the global context |
| `C137_peers_partial` | Closed under the global context |
| `C138_completes` | Closed under the global context |
| `C139_argument_refuted` | Closed under the global context |
| `C139_argument_partial` | Closed under the global context |
| `C139_past_refuted` | Closed under the global context |
| `C139_no_space_partial` | Closed under the global context |
| `C140_bound_refuted` | Closed under the global context |
| `C140_commands_partial` | Closed under the global context |
| `C141_scan_left_refuted` | Closed under the global context |
| `C141_stopped_partial` | Closed under the global context |
| `C141_remembered` | Closed under the global context |
| `C124_form` | Closed under the global context |
| `C124_reads` | Closed under the global context |
| `C124_idem` | Closed under the global context |
| `C124_canon_inj` | Closed under the global context |
| `C124_ntoa` | Closed under the global context |
| `C124_blanks` | Closed under the global context |
| `C124_sign` | Closed under the global context |
| `C125_safe` | Closed under the global context |
| `C125_remote` | Closed under the global context |
| `C125_local` | Closed under the global context |
| `C125_router` | Closed under the global context |
| `C125_other` | Closed under the global context |
| `C125_station_refuted` | Closed under the global context |
| `C126_local` | Closed under the global context |
| `C126_fails` | Closed under the global context |
| `C126_silent` | Closed under the global context |
| `C126_remote_partial` | Closed under the global context |
| `C126_stale_refuted` | Closed under the global context |
| `C126_router_refuted` | Closed under the global context |
| `C127_peer_partial` | Closed under the global context |
| `C127_line_partial` | Closed under the global context |
| `C127_late_refuted` | Closed under the global context |
| `C156_stub_refuted` | Closed under the global context |
| `C156_option_partial` | Closed under the global context |
| `C156_every_partial` | Closed under the global context |
| `C157_addresses_refuted` | Closed under the global context |
| `C157_expire_refuted` | Closed under the global context |
| `C157_address_partial` | Closed under the global context |
| `C157_prefixes_partial` | Closed under the global context |
| `C157_ignored_partial` | Closed under the global context |
| `C158_follows_refuted` | Closed under the global context |
| `C158_undefined_refuted` | Closed under the global context |
| `C158_short_refuted` | Closed under the global context |
| `C158_well_formed_partial` | Closed under the global context |
| `C159_reads_on_refuted` | Closed under the global context |
| `C159_array_refuted` | Closed under the global context |
| `C159_lists_partial` | Closed under the global context |
| `C159_bad_length_partial` | Closed under the global context |
| `C159_request_partial` | Closed under the global context |
| `C160_client_refuted` | Closed under the global context |
| `C160_server_refuted` | Closed under the global context |
| `C160_failed_read_refuted` | Closed under the global context |
| `C160_refused_server_refuted` | Closed under the global context |
| `C160_heard_partial` | Closed under the global context |
| `C161_rapid_refuted` | Closed under the global context |
| `C161_heard_partial` | Closed under the global context |
| `C173_one_partial` | Closed under the global context |
| `C173_temporary` | Closed under the global context |
| `C173_list_partial` | Closed under the global context |
| `C173_times_refuted` | Closed under the global context |
| `C173_invalid_refuted` | Closed under the global context |
| `C173_many_refuted` | Closed under the global context |
| `C174_prefixes_partial` | Closed under the global context |
| `C174_too_many` | Closed under the global context |
| `C174_identity_refuted` | Closed under the global context |
| `C175_codes_partial` | Closed under the global context |
| `C175_none_refuted` | Closed under the global context |
| `C175_many_refuted` | Closed under the global context |
| `C176_proper` | Closed under the global context |
| `C176_message_partial` | Closed under the global context |
| `C176_time_refuted` | Closed under the global context |
| `C176_fits_refuted` | Closed under the global context |
| `C177_same_xid` | Closed under the global context |
| `C177_time_partial` | Closed under the global context |
| `C177_time_refuted` | Closed under the global context |
| `C178_llt_partial` | Closed under the global context |
| `C178_ll_partial` | Closed under the global context |
| `C178_hardware_refuted` | Closed under the global context |
| `C178_type_refuted` | Closed under the global context |
| `C178_no_mac_refuted` | Closed under the global context |
| `C179_one_partial` | Closed under the global context |
| `C179_type_partial` | Closed under the global context |
| `C179_none` | Closed under the global context |
| `C179_two_refuted` | Closed under the global context |
| `C82_stopped_partial` | Closed under the global context |
| `C82_started_twice_refuted` | Closed under the global context |
| `C82_stopped_in_callback_refuted` | Closed under the global context |
| `C82_removed_once_refuted` | Closed under the global context |
| `C83_lease_ends_partial` | Closed under the global context |
| `C83_nak_refuted` | Closed under the global context |
| `C84_renewal_refuted` | Closed under the global context |
| `C84_always_ignored` | Closed under the global context |
| `C84_no_option` | Closed under the global context |
| `C84_rebinding_partial` | Closed under the global context |
| `C85_handshake_partial` | Closed under the global context |
| `C85_start_again_refuted` | Closed under the global context |
| `C85_socket_error_refuted` | Closed under the global context |
| `C86_every_step_ends_partial` | Closed under the global context |
| `C86_no_server_refuted` | Closed under the global context |
| `C86_no_server_reboot_refuted` | Closed under the global context |
| `C86_start_in_callback_refuted` | Closed under the global context |
| `C87_goes_on_partial` | Closed under the global context |
| `C87_no_socket_refuted` | Closed under the global context |
| `C87_silent_refuted` | Closed under the global context |
| `C88_six_discovers_partial` | Closed under the global context |
| `C88_refused_refuted` | Closed under the global context |
| `C185_pton` | Closed under the global context |
| `C185_address` | Closed under the global context |
| `C185_subnet` | Closed under the global context |
| `C186_line` | Closed under the global context |
| `C186_ends` | Closed under the global context |
| `C187_server` | Closed under the global context |
| `C187_client` | Closed under the global context |
| `C187_range` | Closed under the global context |
| `C187_leases` | Closed under the global context |
| `C188_links_refuted` | Closed under the global context |
| `C188_link_partial` | Closed under the global context |
| `C189_expired_refuted` | Closed under the global context |
| `C189_one_partial` | Closed under the global context |
| `C189_empty_partial` | Closed under the global context |
| `C189_told_partial` | Closed under the global context |
| `C189_end_partial` | Closed under the global context |
| `C189_last_partial` | Closed under the global context |
| `C189_untouched_partial` | Closed under the global context |
| `C190_no_lease_refuted` | Closed under the global context |
| `C190_not_set_refuted` | Closed under the global context |
| `C190_status_partial` | Closed under the global context |
| `C190_proper_partial` | Closed under the global context |
| `C191_own_refuted` | Closed under the global context |
| `C191_own_partial` | Closed under the global context |
| `C32_build_packet` | Closed under the global context |
| `C32_end_found` | Closed under the global context |
| `C33_read_back` | Closed under the global context |
| `C34_lookup_terminates_refuted` | Closed under the global context |
| `C34_overload_terminates_refuted` | Closed under the global context |
| `C34_reads_inside_refuted` | Closed under the global context |
| `C34_lookup_well_formed_partial` | Closed under the global context |
| `C34_lookup_overrun_partial` | Closed under the global context |
| `C77_overload_lookup` | Closed under the global context |
| `C78_sent_is_received` | Closed under the global context |
| `C78_sent_is_valid` | Closed under the global context |
| `C79_accepted_is_valid` | Closed under the global context |
| `C79_valid_is_accepted_refuted` | Closed under the global context |
| `C79_valid_is_accepted_partial` | Closed under the global context |
| `C80_short_packet_refuted` | Closed under the global context |
| `C80_no_cookie_refuted` | Closed under the global context |
| `C80_long_packets_partial` | Closed under the global context |
| `C99_not_early` | Closed under the global context |
| `C99_in_time` | Closed under the global context |
| `C100_minute_partial` | Closed under the global context |
| `C100_minute_refuted` | Closed under the global context |
| `C101_address_partial` | Closed under the global context |
| `C101_address_refuted` | Closed under the global context |
| `C36_table` | Closed under the global context |
| `C36_step` | Closed under the global context |
| `C37_picks_host_address_refuted` | Closed under the global context |
| `C37_offer_partial` | Closed under the global context |
| `C38_exclusive_refuted` | Closed under the global context |
| `C38_rediscover_refuted` | Closed under the global context |
| `C39_reserved_refuted` | Closed under the global context |
| `C38_C39_quiet_partial` | Closed under the global context |
| `C57_expired_reused_refuted` | Closed under the global context |
| `C57_discover_answered_partial` | Closed under the global context |
| `C58_server_id_refuted` | Closed under the global context |
| `C58_reply_partial` | Closed under the global context |
| `C59_reads_inside_refuted` | Closed under the global context |
| `C59_decode_partial` | Closed under the global context |
| `C60_renew_refuted` | Closed under the global context |
| `C60_own_address_partial` | Closed under the global context |
| `C197_all_codes_refuted` | Closed under the global context |
| `C197_code_refuted` | Closed under the global context |
| `C197_overflow_refuted` | Closed under the global context |
| `C197_secs_refuted` | Closed under the global context |
| `C197_message_partial` | Closed under the global context |
| `C198_in_use_refuted` | Closed under the global context |
| `C198_server_partial` | Closed under the global context |
| `C198_client_partial` | Closed under the global context |
| `C198_others_partial` | Closed under the global context |
| `C199_offered` | Closed under the global context |
| `C199_lease` | Closed under the global context |
| `C200_ignored` | Closed under the global context |
| `C200_unicast` | Closed under the global context |
| `C200_renew_refuted` | Closed under the global context |
| `C200_extension_partial` | Closed under the global context |
| `C81_addresses_partial` | Closed under the global context |
| `C81_numbers_partial` | Closed under the global context |
| `C81_text_partial` | Closed under the global context |
| `C81_unknown` | Closed under the global context |
| `C81_incomplete_refuted` | Closed under the global context |
| `C81_incomplete` | Closed under the global context |
| `C81_short_refuted` | Closed under the global context |
| `C81_undefined_exact` | Closed under the global context |
| `C12_dlist_refines_sequences` | Closed under the global context |
| `C43_subnets_distinct` | Closed under the global context |
| `C43_start_iff` | Closed under the global context |
| `C44_double_free_refuted` | Closed under the global context |
| `C44_use_after_free_refuted` | Closed under the global context |
| `C44_never_freed_refuted` | Closed under the global context |
| `C44_undefined_iff_partial` | Closed under the global context |
| `C44_no_dangling_partial` | Closed under the global context |
| `C44_torn_twice_partial` | Closed under the global context |
| `C44_teardown_partial` | Closed under the global context |
| `C44_last_station_partial` | Closed under the global context |
| `C44_stopped_partial` | Closed under the global context |
| `C70_connected_refuted` | Closed under the global context |
| `C70_connected_partial` | Closed under the global context |
| `C216_first` | Closed under the global context |
| `C216_none` | Closed under the global context |
| `C217_long_refuted` | Closed under the global context |
| `C217_alias_refuted` | Closed under the global context |
| `C217_index_partial` | Closed under the global context |
| `C217_error_partial` | Closed under the global context |
| `C218_host_refuted` | Closed under the global context |
| `C218_port_refuted` | Closed under the global context |
| `C218_word_refuted` | Closed under the global context |
| `C218_begin_partial` | Closed under the global context |
| `C218_few` | Closed under the global context |
| `C218_host_partial` | Closed under the global context |
| `C219_eight_refuted` | Closed under the global context |
| `C219_never` | Closed under the global context |
| `C219_rows_partial` | Closed under the global context |
| `C219_hex` | Closed under the global context |
| `C220_small_refuted` | Closed under the global context |
| `C220_never` | Closed under the global context |
| `C220_value_partial` | Closed under the global context |
| `C13_htable_is_bag` | Closed under the global context |
| `C14_htable_terminates` | Closed under the global context |
| `C15_htable_visits_all` | Closed under the global context |
| `C53_htable_any_pointers_refuted` | Closed under the global context |
| `C53_htable_common_highest_bit_partial` | Closed under the global context |
| `C231_flush` | Closed under the global context |
| `C231_add` | Closed under the global context |
| `C231_negative` | Closed under the global context |
| `C231_flush_only` | Closed under the global context |
| `C231_add_only` | Closed under the global context |
| `C231_waits` | Closed under the global context |
| `C46_link_local_range` | Closed under the global context |
| `C46_link_local_ends` | Closed under the global context |
| `C46_link_local_never_ends` | Closed under the global context |
| `C46_link_local_every` | Closed under the global context |
| `C54_random_delay` | Closed under the global context |
| `C54_random_delay_undefined` | Closed under the global context |
| `C148_links_exist` | Closed under the global context |
| `C148_links_distinct` | Closed under the global context |
| `C148_no_link_zero` | Closed under the global context |
| `C149_renamed_refuted` | Closed under the global context |
| `C149_unmoved_partial` | Closed under the global context |
| `C150_nameless_refuted` | Closed under the global context |
| `C150_named_partial` | Closed under the global context |
| `C150_free_partial` | Closed under the global context |
| `C151_unwanted_refuted` | Closed under the global context |
| `C151_wanted_refuted` | Closed under the global context |
| `C151_until_udev_partial` | Closed under the global context |
| `C151_only_partial` | Closed under the global context |
| `C151_new_partial` | Closed under the global context |
| `C151_rely_partial` | Closed under the global context |
| `C151_lazy_partial` | Closed under the global context |
| `C152_quiet` | Closed under the global context |
| `C153_name_refuted` | Closed under the global context |
| `C153_sub_refuted` | Closed under the global context |
| `C153_timely_partial` | Closed under the global context |
| `C153_status_partial` | Closed under the global context |
| `C153_display_partial` | Closed under the global context |
| `C153_ready_partial` | Closed under the global context |
| `C153_ready_sub_partial` | Closed under the global context |
| `C154_host_refuted` | Closed under the global context |
| `C154_user_partial` | Closed under the global context |
| `C155_renamed_refuted` | Closed under the global context |
| `C155_unmoved_partial` | Closed under the global context |
| `C92_claimed_partial` | Closed under the global context |
| `C92_no_socket_refuted` | Closed under the global context |
| `C92_socket_error_refuted` | Closed under the global context |
| `C93_kept` | Closed under the global context |
| `C93_defended` | Closed under the global context |
| `C93_lost` | Closed under the global context |
| `C93_lost_rightly` | Closed under the global context |
| `C94_tenth_conflict_partial` | Closed under the global context |
| `C94_requests_refuted` | Closed under the global context |
| `C94_started_again_refuted` | Closed under the global context |
| `C95_others_partial` | Closed under the global context |
| `C95_asked_refuted` | Closed under the global context |
| `C96_stopped_partial` | Closed under the global context |
| `C96_stopped_when_available_partial` | Closed under the global context |
| `C96_stop_refuted` | Closed under the global context |
| `C97_found` | Closed under the global context |
| `C98_address_partial` | Closed under the global context |
| `C98_stopped_refuted` | Closed under the global context |
| `C204_levels` | Closed under the global context |
| `C204_severity` | Closed under the global context |
| `C204_ex` | Closed under the global context |
| `C205_one_line_refuted` | Closed under the global context |
| `C205_one_line_partial` | Closed under the global context |
| `C205_ex` | Closed under the global context |
| `C206_elapsed_refuted` | Closed under the global context |
| `C206_elapsed_partial` | Closed under the global context |
| `C206_cli_partial` | Closed under the global context |
| `C206_ex` | Closed under the global context |
| `C207_date_refuted` | Closed under the global context |
| `C207_date_partial` | Closed under the global context |
| `C207_ex` | Closed under the global context |
| `C203_peers_map` | Closed under the global context |
| `C203_links_map` | Closed under the global context |
| `C71_call_order` | Closed under the global context |
| `C71_nontrivial` | Closed under the global context |
| `C72_removed_called_refuted` | Closed under the global context |
| `C72_never_again_partial` | Closed under the global context |
| `C72_nontrivial` | Closed under the global context |
| `C73_remove_twice_refuted` | Closed under the global context |
| `C73_idle_exact` | Closed under the global context |
| `C73_delivery_partial` | Closed under the global context |
| `C73_nontrivial` | Closed under the global context |
| `C128_right_picture` | Closed under the global context |
| `C128_always` | Closed under the global context |
| `C128_since_the_start` | Closed under the global context |
| `C129_late_signals` | Closed under the global context |
| `C130_managed_refuted` | Closed under the global context |
| `C130_scanning_refuted` | Closed under the global context |
| `C130_addresses_refuted` | Closed under the global context |
| `C130_picture_partial` | Closed under the global context |
| `C131_any_order_refuted` | Closed under the global context |
| `C131_links_first_partial` | Closed under the global context |
| `C131_named_in_order` | Closed under the global context |
| `C132_leaves` | Closed under the global context |
| `C132_order` | Closed under the global context |
| `C162_ends` | Closed under the global context |
| `C162_makes` | Closed under the global context |
| `C162_keeps` | Closed under the global context |
| `C163_complete` | Closed under the global context |
| `C163_blocked` | Closed under the global context |
| `C164_leaves_refuted` | Closed under the global context |
| `C164_itself_refuted` | Closed under the global context |
| `C164_below_partial` | Closed under the global context |
| `C164_outside_partial` | Closed under the global context |
| `C164_missing_partial` | Closed under the global context |
| `C165_strcat` | Closed under the global context |
| `C166_full_refuted` | Closed under the global context |
| `C166_strjoin_partial` | Closed under the global context |
| `C222_own` | Closed under the global context |
| `C222_exact` | Closed under the global context |
| `C223_own` | Closed under the global context |
| `C223_exact` | Closed under the global context |
| `C223_shown` | Closed under the global context |
| `C224_missed_refuted` | Closed under the global context |
| `C224_first_partial` | Closed under the global context |
| `C224_none` | Closed under the global context |
| `C225_memory_refuted` | Closed under the global context |
| `C225_all_partial` | Closed under the global context |
| `C225_safe_partial` | Closed under the global context |
| `C229_told` | Closed under the global context |
| `C229_hidden` | Closed under the global context |
| `C229_only` | Closed under the global context |
| `C229_unknown` | Closed under the global context |
| `C230_wifictl` | Closed under the global context |
| `C230_sinkctl` | Closed under the global context |
| `C230_silent` | Closed under the global context |
| `C167_safe` | Closed under the global context |
| `C167_once` | Closed under the global context |
| `C168_ghost_refuted` | Closed under the global context |
| `C168_known_partial` | Closed under the global context |
| `C169_connect` | Closed under the global context |
| `C169_total` | Closed under the global context |
| `C169_no_object` | Closed under the global context |
| `C170_left_refuted` | Closed under the global context |
| `C170_scan_refuted` | Closed under the global context |
| `C170_tried_partial` | Closed under the global context |
| `C170_one_partial` | Closed under the global context |
| `C171_scan_refuted` | Closed under the global context |
| `C171_connected_refuted` | Closed under the global context |
| `C171_told_partial` | Closed under the global context |
| `C171_only_partial` | Closed under the global context |
| `C171_count_partial` | Closed under the global context |
| `C172_method_refuted` | Closed under the global context |
| `C172_asked_partial` | Closed under the global context |
| `C172_wanted_partial` | Closed under the global context |
| `C183_watched` | Closed under the global context |
| `C184_scans` | Closed under the global context |
| `C08_join_tokenize_round_trip` | Closed under the global context |
| `C08_need_quote_iff` | Closed under the global context |
| `C09_round_trip_every_list_refuted` | Closed under the global context |
| `C09_round_trip_exactly_partial` | Closed under the global context |
| `C48_join_memory_safe` | Closed under the global context |
| `C48_decode_in_place_safe` | Closed under the global context |
| `C49_greedy_realloc` | Closed under the global context |
| `C50_greedy_realloc_typed_refuted` | Closed under the global context |
| `C50_greedy_realloc_typed_partial` | Closed under the global context |
| `C50_zeroed_partial` | Closed under the global context |
| `C11_ratelimit_windows` | Closed under the global context |
| `C11_ratelimit_sliding_bound` | Closed under the global context |
| `C11_ratelimit_disabled` | Closed under the global context |
| `C11_ratelimit_reset` | Closed under the global context |
| `C52_static_definition_equals_init_refuted` | Closed under the global context |
| `C52_static_definition_partial` | Closed under the global context |
| `C121_merged_refuted` | Closed under the global context |
| `C121_apart_partial` | Closed under the global context |
| `C121_watched_partial` | Closed under the global context |
| `C121_forever_partial` | Closed under the global context |
| `C121_early` | Closed under the global context |
| `C75_defined` | Closed under the global context |
| `C75_held_alive` | Closed under the global context |
| `C75_references_stay` | Closed under the global context |
| `C75_counts` | Closed under the global context |
| `C75_nontrivial` | Closed under the global context |
| `C76_call_leaks_refuted` | Closed under the global context |
| `C76_late_message_refuted` | Closed under the global context |
| `C76_last_release_partial` | Closed under the global context |
| `C76_not_before` | Closed under the global context |
| `C76_nontrivial` | Closed under the global context |
| `C01_ring_is_fifo` | Closed under the global context |
| `C01_precondition_from_total` | Closed under the global context |
| `C02_push_all_or_nothing` | Closed under the global context |
| `C02_push_within_space` | Closed under the global context |
| `C23_written_in_order` | Closed under the global context |
| `C24_completes_once_refuted` | Closed under the global context |
| `C24_completes_partial` | Closed under the global context |
| `C24_fate_partial` | Closed under the global context |
| `C25_cancelled_refuted` | Closed under the global context |
| `C25_cancelled_partial` | Closed under the global context |
| `C26_no_cookie_refuted` | Closed under the global context |
| `C26_rejected_partial` | Closed under the global context |
| `C26_accepted_partial` | Closed under the global context |
| `C27_replies_matched` | Closed under the global context |
| `C27_reply_completes` | Closed under the global context |
| `C64_same_cseq_refuted` | Closed under the global context |
| `C64_safe_partial` | Closed under the global context |
| `C64_table_live_partial` | Closed under the global context |
| `C90_connection_lost` | Closed under the global context |
| `C91_numbered` | Closed under the global context |
| `C202_same_cookie_refuted` | Closed under the global context |
| `C202_detached_quiet_partial` | Closed under the global context |
| `C19_sealed_complete` | Closed under the global context |
| `C22_sealed_stays` | Closed under the global context |
| `C22_changes_rejected` | Closed under the global context |
| `C22_seal_again` | Closed under the global context |
| `C22_seal_open` | Closed under the global context |
| `C61_any_headers_refuted` | Closed under the global context |
| `C61_building_partial` | Closed under the global context |
| `C61_sealing_partial` | Closed under the global context |
| `C16_chunk_independent` | Closed under the global context |
| `C17_never_inconsistent` | Closed under the global context |
| `C17_inspected` | Closed under the global context |
| `C17_every_byte_used_refuted` | Closed under the global context |
| `C62_parser_memory_safe_refuted` | Closed under the global context |
| `C62_parser_memory_safe_partial` | Closed under the global context |
| `C63_from_raw_inside_refuted` | Closed under the global context |
| `C63_from_raw_inside_partial` | Closed under the global context |
| `C221_one_line_refuted` | Closed under the global context |
| `C221_value` | Closed under the global context |
| `C221_one_line_partial` | Closed under the global context |
| `C221_once` | Closed under the global context |
| `C221_line` | Closed under the global context |
| `C232_reads` | Closed under the global context |
| `C232_exact` | Closed under the global context |
| `C232_sealed` | Closed under the global context |
| `C232_data` | Closed under the global context |
| `C232_unsealed` | Closed under the global context |
| `C232_bytes` | Closed under the global context |
| `C233_skip_refuted` | Closed under the global context |
| `C233_never` | Closed under the global context |
| `C233_skip_partial` | Closed under the global context |
| `C233_rewind` | Closed under the global context |
| `C233_rewind_all` | Closed under the global context |
| `C233_again` | Closed under the global context |
| `C18_built` | Closed under the global context |
| `C18_sent` | Closed under the global context |
| `C18_received_partial` | Closed under the global context |
| `C18_any_number_refuted` | Closed under the global context |
| `C20_packet` | Closed under the global context |
| `C21_large_refuted` | Closed under the global context |
| `C21_empty_refuted` | Closed under the global context |
| `C21_sync_partial` | Closed under the global context |
| `C142_port_refuted` | Closed under the global context |
| `C142_player_refuted` | Closed under the global context |
| `C142_autocmd_refuted` | Closed under the global context |
| `C142_settings_partial` | Closed under the global context |
| `C142_ends_partial` | Closed under the global context |
| `C142_words` | Closed under the global context |
| `C143_typo_refuted` | Closed under the global context |
| `C143_names_partial` | Closed under the global context |
| `C143_large_partial` | Closed under the global context |
| `C143_hex_partial` | Closed under the global context |
| `C143_octal_partial` | Closed under the global context |
| `C144_wifictl` | Closed under the global context |
| `C144_wifid` | Closed under the global context |
| `C144_wifid_ends` | Closed under the global context |
| `C144_number` | Closed under the global context |
| `C145_fits` | Closed under the global context |
| `C146_external_refuted` | Closed under the global context |
| `C146_sound_refuted` | Closed under the global context |
| `C146_plays_partial` | Closed under the global context |
| `C146_viewer_partial` | Closed under the global context |
| `C146_pipeline` | Closed under the global context |
| `C147_injected_refuted` | Closed under the global context |
| `C147_intent_refuted` | Closed under the global context |
| `C147_configures_partial` | Closed under the global context |
| `C147_intent_partial` | Closed under the global context |
| `C147_argv_partial` | Closed under the global context |
| `C147_verbosity_partial` | Closed under the global context |
| `C45_restart_refuted` | Closed under the global context |
| `C45_ready_partial` | Closed under the global context |
| `C45_not_before_partial` | Closed under the global context |
| `C45_finishes_partial` | Closed under the global context |
| `C69_stale_p2p_refuted` | Closed under the global context |
| `C69_first_p2p_partial` | Closed under the global context |
| `C74_stale_wfd_refuted` | Closed under the global context |
| `C74_first_wfd_partial` | Closed under the global context |
| `C74_nontrivial` | Closed under the global context |
| `C102_options_partial` | Closed under the global context |
| `C102_unquoted_refuted` | Closed under the global context |
| `C103_answer_partial` | Closed under the global context |
| `C103_overflow_refuted` | Closed under the global context |
| `C103_once_refuted` | Closed under the global context |
| `C104_told` | Closed under the global context |
| `C104_masks` | Closed under the global context |
| `C105_play_partial` | Closed under the global context |
| `C105_timeout` | Closed under the global context |
| `C105_error_refuted` | Closed under the global context |
| `C106_uibc_partial` | Closed under the global context |
| `C106_number_refuted` | Closed under the global context |
| `C106_again_refuted` | Closed under the global context |
| `C107_answered_partial` | Closed under the global context |
| `C107_others` | Closed under the global context |
| `C107_every_refuted` | Closed under the global context |
| `C108_one_answer` | Closed under the global context |
| `C108_closed` | Closed under the global context |
| `C108_busy` | Closed under the global context |
| `C109_reports_partial` | Closed under the global context |
| `C109_hasty_refuted` | Closed under the global context |
| `C109_next_refuted` | Closed under the global context |
| `C110_no_leak_partial` | Closed under the global context |
| `C110_kept_partial` | Closed under the global context |
| `C110_unconnected_partial` | Closed under the global context |
| `C110_twice_refuted` | Closed under the global context |
| `C110_file_refuted` | Closed under the global context |
| `C110_reconnect_refuted` | Closed under the global context |
| `C111_pointers_partial` | Closed under the global context |
| `C111_vanished_refuted` | Closed under the global context |
| `C111_broken_refuted` | Closed under the global context |
| `C111_quit_refuted` | Closed under the global context |
| `C111_stuck_refuted` | Closed under the global context |
| `C112_quiet` | Closed under the global context |
| `C113_session_partial` | Closed under the global context |
| `C113_address` | Closed under the global context |
| `C113_hot_refuted` | Closed under the global context |
| `C114_descriptors` | Closed under the global context |
| `C114_reports` | Closed under the global context |
| `C115_lost` | Closed under the global context |
| `C115_timer` | Closed under the global context |
| `C115_failure` | Closed under the global context |
| `C115_no_timer` | Closed under the global context |
| `C115_exit_partial` | Closed under the global context |
| `C115_running_refuted` | Closed under the global context |
| `C115_early_refuted` | Closed under the global context |
| `C116_one` | Closed under the global context |
| `C116_ours_partial` | Closed under the global context |
| `C116_kill_refuted` | Closed under the global context |
| `C116_again_refuted` | Closed under the global context |
| `C212_blocked_refuted` | Closed under the global context |
| `C212_directory_refuted` | Closed under the global context |
| `C212_found_partial` | Closed under the global context |
| `C212_first` | Closed under the global context |
| `C212_every` | Closed under the global context |
| `C213_own` | Closed under the global context |
| `C213_group` | Closed under the global context |
| `C213_least` | Closed under the global context |
| `C214_other_refuted` | Closed under the global context |
| `C214_open_refuted` | Closed under the global context |
| `C214_alone_partial` | Closed under the global context |
| `C214_inherited` | Closed under the global context |
| `C215_closed_refuted` | Closed under the global context |
| `C215_open_partial` | Closed under the global context |
| `C10_strsplit_fields` | Closed under the global context |
| `C10_fields_exist` | Closed under the global context |
| `C10_fields_unique` | Closed under the global context |
| `C51_path_startswith` | Closed under the global context |
| `C236_life` | Closed under the global context |
| `C236_new` | Closed under the global context |
| `C237_deaf_refuted` | Closed under the global context |
| `C237_listens_partial` | Closed under the global context |
| `C237_again` | Closed under the global context |
| `C238_warns_refuted` | Closed under the global context |
| `C238_removals_partial` | Closed under the global context |
| `C117_progress_partial` | Closed under the global context |
| `C117_never_ready_partial` | Closed under the global context |
| `C117_stuck_refuted` | Closed under the global context |
| `C118_times` | Closed under the global context |
| `C118_retry` | Closed under the global context |
| `C118_backoff` | Closed under the global context |
| `C118_anew` | Closed under the global context |
| `C119_rate` | Closed under the global context |
| `C120_signals` | Closed under the global context |
| `C120_stop` | Closed under the global context |
| `C121_source_partial` | Closed under the global context |
| `C121_left_partial` | Closed under the global context |
| `C121_stop_left` | Closed under the global context |
| `C121_hup_left` | Closed under the global context |
| `C122_freed_partial` | Closed under the global context |
| `C122_leak_refuted` | Closed under the global context |
| `C123_counted_partial` | Closed under the global context |
| `C123_twice_refuted` | Closed under the global context |
| `C41_touch_layout` | Closed under the global context |
| `C42_touch_stores_inside_refuted` | Closed under the global context |
| `C42_touch_reads_inside_refuted` | Closed under the global context |
| `C42_split_inside_refuted` | Closed under the global context |
| `C42_number_defined_refuted` | Closed under the global context |
| `C42_touch_one_byte_over_partial` | Closed under the global context |
| `C56_key_layout` | Closed under the global context |
| `C180_moves_refuted` | Closed under the global context |
| `C180_long_refuted` | Closed under the global context |
| `C180_short_refuted` | Closed under the global context |
| `C180_lines_partial` | Closed under the global context |
| `C180_ends` | Closed under the global context |
| `C181_key_refuted` | Closed under the global context |
| `C181_events_partial` | Closed under the global context |
| `C182_gestures_refuted` | Closed under the global context |
| `C40_format_choice` | Closed under the global context |
| `C40_choice_unique` | Closed under the global context |
| `C55_resolution_mask` | Closed under the global context |
| `C226_well` | Closed under the global context |
| `C226_failing` | Closed under the global context |
| `C226_serves` | Closed under the global context |
| `C227_vanished_refuted` | Closed under the global context |
| `C227_all_partial` | Closed under the global context |
| `C227_before_partial` | Closed under the global context |
| `C227_safe` | Closed under the global context |
| `C228_empty_refuted` | Closed under the global context |
| `C228_name_partial` | Closed under the global context |
| `C192_events` | Closed under the global context |
| `C193_refuted` | Closed under the global context |
| `C193_invented_refuted` | Closed under the global context |
| `C193_found_partial` | Closed under the global context |
| `C193_reply_partial` | Closed under the global context |
| `C194_refuted` | Closed under the global context |
| `C194_partial` | Closed under the global context |
| `C195_refuted` | Closed under the global context |
| `C195_name_partial` | Closed under the global context |
| `C195_wfd_partial` | Closed under the global context |
| `C196_refuted` | Closed under the global context |
| `C196_partial` | Closed under the global context |
| `C196_heard_partial` | Closed under the global context |
| `C28_send_refuted` | Closed under the global context |
| `C28_one_at_a_time_partial` | Closed under the global context |
| `C28_written_in_order` | Closed under the global context |
| `C28_callbacks_in_order_partial` | Closed under the global context |
| `C29_cancelled_silent` | Closed under the global context |
| `C29_cookie_cancels` | Closed under the global context |
| `C29_reply_refuted` | Closed under the global context |
| `C29_reply_swallowed_partial` | Closed under the global context |
| `C201_end_told_once` | Closed under the global context |
| `C30_reply_words_refuted` | Closed under the global context |
| `C30_reply_lines_partial` | Closed under the global context |
| `C30_event_tokens_partial` | Closed under the global context |
| `C30_request_text_partial` | Closed under the global context |
| `C31_event_length_refuted` | Closed under the global context |
| `C31_event_short_partial` | Closed under the global context |
| `C65_request_round_trip` | Closed under the global context |
| `C65_sealed_fixed` | Closed under the global context |
| `C66_any_datagram_refuted` | Closed under the global context |
| `C66_defined_partial` | Closed under the global context |
| `C67_interface_prefix` | Closed under the global context |
| `C68_dict_first` | Closed under the global context |
| `C68_numbers` | Closed under the global context |
| `C68_no_number` | Closed under the global context |
| `C68_by_position` | Closed under the global context |
| `C68_by_position_reply` | Closed under the global context |
| `C89_prefixed_ok_refuted` | Closed under the global context |
| `C89_unsealed_refuted` | Closed under the global context |
| `C89_verdict_partial` | Closed under the global context |
| `C89_no_reply` | Closed under the global context |
| `C208_files` | Closed under the global context |
| `C208_processes` | Closed under the global context |
| `C208_stale` | Closed under the global context |
| `C208_ex` | Closed under the global context |
| `C208_steps_ex` | Closed under the global context |
| `C209_meet` | Closed under the global context |
| `C209_other_refuted` | Closed under the global context |
| `C209_other_partial` | Closed under the global context |
| `C209_length` | Closed under the global context |
| `C209_ex` | Closed under the global context |
| `C210_file_refuted` | Closed under the global context |
| `C210_live_refuted` | Closed under the global context |
| `C210_close_refuted` | Closed under the global context |
| `C210_live_partial` | Closed under the global context |
| `C210_dead_partial` | Closed under the global context |
| `C210_free_partial` | Closed under the global context |
| `C210_ex` | Closed under the global context |
| `C211_send_refuted` | Closed under the global context |
| `C211_never` | Closed under the global context |
| `C211_escaped_refuted` | Closed under the global context |
| `C211_path_partial` | Closed under the global context |
| `C211_escaped_partial` | Closed under the global context |
| `C211_reply_partial` | Closed under the global context |
| `C211_ex` | Closed under the global context |
