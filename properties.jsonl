{"id": "C01", "title": "primeBelow returns the largest prime not above its argument", "statement": "For every argument n >= 2, primeBelow(n) terminates normally and returns a prime p with p <= min(n, 994009) such that there is no larger prime <= min(n, 994009). In particular the 'Too large' exit is never taken.", "quantifier": "every unsigned 32-bit n >= 2", "why_tests_cant": "four billion inputs; maximality and primality quantify over all candidate divisors", "anchors": ["src/lib/prime.c: primeBelow, isPrime", "src/nfqlb/cmdShm.c: cmdInit"]}
{"id": "C02", "title": "Every lookup slot of a table with an active target points to an active target", "statement": "After the lookup table has been populated, every slot holds the index of a currently active target when at least one target is active, and every slot holds -1 (no target) when none is active. No slot ever names an inactive or out-of-range target.", "quantifier": "every table size M, every number of targets N, every random seed used at init, every active set", "why_tests_cant": "the table depends on M*N random numbers and on all 2^N active sets", "anchors": ["src/lib/maglevdyn.c: magDataDyn_populate, magDataDyn_init", "src/lib/maglev.c: populate"]}
{"id": "C03", "title": "Traffic is spread evenly over the active targets", "statement": "After the lookup table has been populated the numbers of slots owned by any two active targets differ by at most one; hence with k active targets each one owns floor(M/k) or ceil(M/k) slots (and at least one when k <= M).", "quantifier": "every M, N, every seed, every active set", "why_tests_cant": "unit tests sample a few sizes and seeds only", "anchors": ["src/lib/maglevdyn.c: magDataDyn_populate", "src/lib/maglev.c: populate"]}
{"id": "C04", "title": "The lookup table is a function of the seed and of the active set only", "statement": "Two load-balancers initialised identically and having the same indices active hold identical lookup tables, whatever activate/deactivate history led there and whatever fwmark values are used.", "quantifier": "every pair of histories ending in the same active set", "why_tests_cant": "histories are unbounded", "anchors": ["src/lib/maglevdyn.c: magDataDyn_populate", "src/nfqlb/cmdConfig.c: cmdActivate, cmdDeactivate"]}
{"id": "C05", "title": "Every target's preference list is a permutation of the lookup slots", "statement": "After init, for every target the preference list enumerates every slot number 0..M-1 exactly once.", "quantifier": "every M accepted by init (up to 994009), every N, every outcome of the random generator", "why_tests_cant": "needs number theory for all primes M and all (offset, skip); 32-bit wrap shows up only for M > 65536", "anchors": ["src/lib/maglevdyn.c: magDataDyn_init"]}
{"id": "C06", "title": "Populating the lookup table terminates and stays inside its arrays", "statement": "Recomputing the lookup table after any activate/deactivate terminates and never indexes outside lookup, preference lists or the active array.", "quantifier": "every accepted (M,N), every seed, every active set", "why_tests_cant": "out-of-range accesses only show for rare seeds and large M", "anchors": ["src/lib/maglevdyn.c: magDataDyn_populate, magDataDyn_init"]}
{"id": "C07", "title": "The shared memory layout is disjoint and fits in the computed length", "statement": "The header, the lookup table, every preference list and the active array occupy pairwise disjoint byte ranges, all inside the length reported by magDataDyn_len.", "quantifier": "every (M,N) accepted by init", "why_tests_cant": "all sizes; overflow of the 32-bit size computation only for very large M*N", "anchors": ["src/lib/maglevdyn.c: magDataDyn_len, magDataDyn_map, magDataDyn_init"]}
{"id": "C08", "title": "activate/deactivate implement a set of fwmarks", "statement": "After any sequence of activate/deactivate commands by fwmark, the set of active fwmarks is exactly the one obtained by set insertion (while there is room) and set removal, no fwmark is active twice, and a packet is only ever steered to a fwmark in that set; if the set is non-empty and its size at most M every packet hash is steered and every active fwmark receives some hash value.", "quantifier": "every finite history of commands, every argument list", "why_tests_cant": "unbounded histories", "anchors": ["src/nfqlb/cmdConfig.c: cmdActivate, cmdDeactivate", "src/lib/maglevdyn.c"]}
{"id": "C09", "title": "Reconfiguration is safe for concurrent packet processing and at every crash point", "statement": "While another process executes activate/deactivate (or is killed in the middle), a packet processed at any instant is either treated as 'no target' or steered to a fwmark that was active before or is active after the command; once deactivate has cleared a target, the packet processing never again steers a packet to it.", "quantifier": "every interleaving point (crash point) of the writer's individual memory writes with a reader", "why_tests_cant": "schedules and crash points cannot be enumerated by tests", "anchors": ["src/lib/maglevdyn.c: magDataDyn_populate", "src/nfqlb/cmdConfig.c", "src/nfqlb/cmdLb.c: packetHandleFn", "src/nfqlb/cmdFlowLb.c: packetHandleFn"]}
{"id": "C10", "title": "Packets of one flow hash equally", "statement": "Two unfragmented TCP/UDP/SCTP packets with the same IP addresses, protocol and ports get the same hash key whatever their other header fields, options, lengths and payload are; packets differing in any of these five get different keys.", "quantifier": "every pair of IPv4 or IPv6 packets of any length", "why_tests_cant": "packet space is unbounded", "anchors": ["src/lib/iputils.c: getHashKey, getHashKeyIpv4, getHashKeyIpv6, hashKey"]}
{"id": "C11", "title": "SCTP port-only hashing supports multihoming", "statement": "With hash mode 1 the hash of an SCTP packet depends on the SCTP ports only (not on addresses), for native SCTP and for UDP-encapsulated SCTP alike, and for all other protocols and modes it depends on the whole key.", "quantifier": "every key, every hash mode", "why_tests_cant": "all address pairs", "anchors": ["src/lib/iputils.c: hashKey", "src/lib/hash.c: djb2_hash"]}
{"id": "C12", "title": "ICMP errors follow the flow they refer to", "statement": "An ICMP destination-unreachable/packet-too-big (etc.) packet quoting a packet sent by a target on some TCP/UDP/SCTP flow gets the same hash key as the packets of that flow arriving from the client, so path-MTU discovery reaches the right target.", "quantifier": "every flow, every quoted packet, IPv4 and IPv6, with and without UDP encapsulation", "why_tests_cant": "packet space is unbounded", "anchors": ["src/lib/iputils.c: getInnerHashKeyIpv4, getInnerHashKeyIpv6"]}
{"id": "C13", "title": "All fragments of a datagram are steered to the same target", "statement": "When the first fragment of a datagram has been steered to a fwmark, every other fragment of the datagram that is processed within the fragment-table lifetime, in any arrival order, is steered to the same fwmark or dropped, never to another target.", "quantifier": "every arrival order and interleaving with other datagrams, every table configuration", "why_tests_cant": "arrival orders, table collisions and time-outs cannot be enumerated", "anchors": ["src/nfqlb/cmdLb.c: packetHandleFn, handleFirstFragment", "src/nfqlb/cmdFlowLb.c: packetHandleFn, handleFirstFragment", "src/lib/fragutils.c: fragInsertFirst, fragGetValueOrStore"]}
{"id": "C14", "title": "Fragments of one datagram share table key and LB-tier decision", "statement": "The first fragment and every later fragment of the same datagram (same addresses and identification) yield the same fragment-table key and the same LB-tier hash; fragments of datagrams that differ in source, destination or identification have different fragment-table keys.", "quantifier": "every pair of fragments, IPv4 and IPv6", "why_tests_cant": "packet space is unbounded", "anchors": ["src/lib/iputils.c: getHashKey, hashKeyAddresses", "src/nfqlb/cmdLb.c: packetHandleFn"]}
{"id": "C15", "title": "Packet parsing never reads outside the packet", "statement": "getHashKey reads only bytes of the packet it is given.", "quantifier": "every byte string of every length, every protocol argument, every udpencap port", "why_tests_cant": "adversarial inputs; all truncations", "anchors": ["src/lib/iputils.c: getHashKeyIpv4, getHashKeyIpv6, getInnerHashKeyIpv4, getInnerHashKeyIpv6"]}
{"id": "C16", "title": "Packet parsing terminates on every packet", "statement": "getHashKey returns for every packet.", "quantifier": "every byte string", "why_tests_cant": "adversarial inputs", "anchors": ["src/lib/iputils.c: getHashKeyIpv6"]}
{"id": "C17", "title": "IPv6 upper-layer headers are located as RFC 8200 prescribes", "statement": "For every IPv6 packet carrying a chain of hop-by-hop, routing, fragment (offset 0) or destination-options headers followed by TCP/UDP/SCTP, the key contains that upper-layer protocol and its ports.", "quantifier": "every extension header chain", "why_tests_cant": "all chains", "anchors": ["src/lib/iputils.c: getHashKeyIpv6"]}
{"id": "C18", "title": "Complete packets are never rejected as truncated", "statement": "A packet that completely contains every header field that is needed is not rejected as truncated, by the hash key computation and by the byte matcher.", "quantifier": "every packet whose length is at least the end of its last needed header", "why_tests_cant": "boundary lengths for all header combinations", "anchors": ["src/lib/iputils.h: IN_BOUNDS", "src/lib/iputils.c", "src/lib/match.c: l4headerIpv4, l4headerIpv6"]}
{"id": "C19", "title": "The connection table behaves as a map with time-to-live", "statement": "For every sequence of insert/lookup/remove/stats calls with non-decreasing time, a lookup returns the datum inserted last for that key iff that entry was not removed and was inserted/looked up no more than its time-to-live ago; entries of other keys are never affected; a second insert of a live key is refused (and refreshes it).", "quantifier": "every call sequence, table size, key set, ttl, bucket-pool behaviour", "why_tests_cant": "unbounded histories and collisions", "anchors": ["src/lib/conntrack.c: ctLookup, ctInsert, ctRemove, bucketGC, ctStats"]}
{"id": "C20", "title": "Every stored datum is released exactly once", "statement": "Every datum successfully inserted in the connection table is handed to the free function exactly once: on remove, on expiry, or on destroy; never twice and never while it can still be looked up.", "quantifier": "every call sequence ending in destroy", "why_tests_cant": "unbounded histories", "anchors": ["src/lib/conntrack.c: ctInsert, ctRemove, bucketGC, ctDestroy"]}
{"id": "C21", "title": "Insertion fails only when capacity is exhausted and overflow buckets are conserved", "statement": "An insert of an absent key fails only if its main slot is occupied and the bucket allocator refuses; every allocated overflow bucket is in exactly one chain or given back, so the table never holds more than (slots + bucket limit) entries.", "quantifier": "every call sequence", "why_tests_cant": "unbounded histories", "anchors": ["src/lib/conntrack.c: ctInsert, ctLookupBucket, bucketGC"]}
{"id": "C22", "title": "A live entry is not expired early whatever the thread schedule", "statement": "An entry that was referenced less than its ttl ago is not removed by an operation of another thread, even if that thread sampled the clock before the reference.", "quantifier": "every interleaving of threads that sample the clock and then call the table", "why_tests_cant": "needs adversarial preemption between clock sampling and call", "anchors": ["src/lib/conntrack.c: bucketGC", "src/nfqlb/cmdFlowLb.c: packetHandleFn (clock_gettime)"]}
{"id": "C23", "title": "The fragment time-out is the configured one", "statement": "A fragment table created with a time-out of t milliseconds keeps the entry of a datagram for t milliseconds after its last use.", "quantifier": "every configured t", "why_tests_cant": "all 32-bit values of t", "anchors": ["src/lib/fragutils.c: fragTableCreate"]}
{"id": "C24", "title": "Stored fragments are conserved", "statement": "Every fragment that was stored waiting for its first fragment is either handed back exactly once for re-injection when the first fragment arrives, or discarded and counted as discarded; a stored fragment is never duplicated, mixed up with another datagram or left behind in a completed entry, and the number of stored fragments never exceeds the configured maximum.", "quantifier": "every history of fragment arrivals, time-outs and table exhaustion", "why_tests_cant": "unbounded histories", "anchors": ["src/lib/fragutils.c: fragGetValueOrStore, storeFragment, fragInsertFirst, fragDataUnlock"]}
{"id": "C25", "title": "Fragment bookkeeping is free of use-after-free and double free under concurrency", "statement": "With any number of threads, fragment entries are released exactly when neither the table nor any thread uses them, for every interleaving.", "quantifier": "every interleaving of any number of threads", "why_tests_cant": "schedules cannot be enumerated", "anchors": ["src/lib/fragutils.c: fragDataLock, fragDataUnlock, fragDataLookup, fragInsertFirst, fragGetValueOrStore"]}
{"id": "C26", "title": "The item pool never hands out an item twice and never loses one", "statement": "At every moment each item of a pool is either free or handed out (exactly one of the two), allocation fails only when all items are handed out, and the statistics report the exact numbers.", "quantifier": "every sequence of allocate/free calls of any number of threads", "why_tests_cant": "unbounded histories", "anchors": ["src/lib/itempool.c: itemAllocate, itemAllocateWithNext, itemFree, itemPoolCreate"]}
{"id": "C27", "title": "The reassembly tracker reports completion exactly when all bytes were received", "statement": "After any sequence of fragments of one datagram the tracker reports 'complete' iff the last fragment and every byte before its end have been received.", "quantifier": "every fragmentation, arrival order, duplication and overlap", "why_tests_cant": "all arrival orders of all fragmentations", "anchors": ["src/lib/reassembler.c: handleFragment, raNew"]}
{"id": "C28", "title": "The reassembly tracker is memory safe when its pool is exhausted", "statement": "Processing any fragment never dereferences an invalid pointer nor reads uninitialised hole descriptors, even when no hole item is available.", "quantifier": "every fragment sequence and pool size", "why_tests_cant": "exhaustion happens for specific interleavings only", "anchors": ["src/lib/reassembler.c: handleFragment"]}
{"id": "C29", "title": "A range set contains exactly the union of the ranges added", "statement": "After adding any list of ranges (in any order, overlapping, adjacent, nested) to a new set and updating it, membership of v holds iff v lies in one of the added ranges; ranges outside the set limits or inverted are refused and do not change the set.", "quantifier": "every list of ranges of 32-bit values, every v", "why_tests_cant": "all range lists", "anchors": ["src/lib/rangeset.c: rangeSetAdd, rangeSetUpdate, rangeSetIn"]}
{"id": "C30", "title": "A range set is canonical and shallow", "statement": "After update the stored ranges are pairwise disjoint and non-adjacent, their number is what rangeSetSize reports, and the search depth is at most log2(number of ranges)+1.", "quantifier": "every list of ranges", "why_tests_cant": "all range lists", "anchors": ["src/lib/rangeset.c: rangeSetUpdate, insertSorted"]}
{"id": "C31", "title": "A range set can be extended and updated repeatedly", "statement": "After any sequence of additions and updates, membership after the last update is the union of all added ranges, and no memory error occurs.", "quantifier": "every sequence of add/update", "why_tests_cant": "unbounded histories", "anchors": ["src/lib/rangeset.c: rangeSetUpdate, insertSorted, insertNode"]}
{"id": "C32", "title": "Printing a range set stays in the buffer and is faithful", "statement": "rangeSetString never writes outside the given buffer, and if it reports success the text lists exactly the ranges of the set.", "quantifier": "every set, every buffer length", "why_tests_cant": "all sets and lengths", "anchors": ["src/lib/rangeset.c: rangeSetString, printTree"]}
{"id": "C33", "title": "CIDR matching compares exactly the prefix bits", "statement": "An address matches a CIDR a/p iff its first p bits equal those of a (IPv4: p bits of the IPv4 address, and only IPv4 addresses); an empty CIDR list matches every address and a non-empty list matches iff one of its members does.", "quantifier": "every address, base and prefix length", "why_tests_cant": "2^128 addresses", "anchors": ["src/lib/flow.c: cidrMatch, parseCidrs"]}
{"id": "C34", "title": "Only valid prefix lengths are accepted and they are displayed faithfully", "statement": "A CIDR is accepted only if the prefix length is at most 32 (IPv4) or 128 (IPv6), and the printed prefix length of an accepted CIDR is the configured one.", "quantifier": "every prefix length text", "why_tests_cant": "all numeric values including wrap-around", "anchors": ["src/lib/flow.c: parseCidrs, leadingones, printCidr"]}
{"id": "C35", "title": "Classification returns a matching flow of the highest priority", "statement": "A lookup returns the target of a flow that matches the packet, such that no matching flow with a target has a higher priority; it returns nothing iff no flow with a target matches.", "quantifier": "every set of flows, every packet", "why_tests_cant": "all flow sets and packets", "anchors": ["src/lib/flow.c: flowLookup, flowMatch"]}
{"id": "C36", "title": "The flow set is a map from names to flows", "statement": "After any history of define/delete calls names are unique, the flow stored under a name is the last one successfully defined, a refused definition changes nothing, and a deletion removes exactly that name.", "quantifier": "every history", "why_tests_cant": "unbounded histories", "anchors": ["src/lib/flow.c: flowDefine, flowDelete, flowLookupName, addOrReplaceFlow"]}
{"id": "C37", "title": "Flows are ordered by priority for all priorities", "statement": "The classification order is by decreasing priority for every priority value that can be configured.", "quantifier": "every pair of int priorities", "why_tests_cant": "2^64 pairs; overflow only at extremes", "anchors": ["src/lib/flow.c: cmpFlows"]}
{"id": "C38", "title": "Byte match expressions select exactly the described packets", "statement": "A flow with match expressions proto[off:n]&mask=value accepts a packet iff for each expression of the packet's protocol the n bytes at offset off of its layer-4 header, read big-endian and masked, equal value.", "quantifier": "every expression list and packet", "why_tests_cant": "all packets", "anchors": ["src/lib/match.c: matchMatches, matchesItem, l4headerIpv4, l4headerIpv6"]}
{"id": "C39", "title": "Accepted match expressions stay inside the layer-4 header", "statement": "A match expression is accepted only if off+n is at most the header length of its protocol, so evaluating it reads only packet bytes.", "quantifier": "every expression string", "why_tests_cant": "numeric wrap-around", "anchors": ["src/lib/match.c: matchParse, matchesItem"]}
{"id": "C40", "title": "Numbers in match expressions mean what the syntax says", "statement": "Decimal digits are read as decimal numbers, a mask of 0 is applied as a mask of 0, and an expression equals its printed form.", "quantifier": "every accepted expression", "why_tests_cant": "all strings", "anchors": ["src/lib/match.c: matchParse, matchString"]}
{"id": "C41", "title": "Promiscuous ping affects echo requests only", "statement": "With promiscuous ping an ICMP echo request matches the first flow with matching addresses; packets that are not echo requests are classified as if promiscuous ping was off.", "quantifier": "every packet, flow set", "why_tests_cant": "all packets", "anchors": ["src/lib/flow.c: flowMatch", "src/lib/iputils.c: getHashKey"]}
{"id": "C42", "title": "UDP-encapsulated SCTP is treated as the inner SCTP", "statement": "A UDP packet to the encapsulation port gets the key (protocol, ports) of the SCTP packet inside, hence the same target as the same SCTP packet sent natively, and a flow with udpencap accepts it whatever lower-priority flows exist.", "quantifier": "every packet, every flow set", "why_tests_cant": "all packets and flow sets", "anchors": ["src/lib/iputils.c: getHashKey", "src/nfqlb/cmdFlowLb.c: packetHandleFn, cmd_set"]}
{"id": "C43", "title": "A target's load-balancer object lives as long as it is used", "statement": "At every moment the reference count of a load-balancer object is the number of flows referring to it plus the number of packet lookups in progress; it is released exactly when this becomes zero and never used after that.", "quantifier": "every history of flow commands and packets and every interleaving", "why_tests_cant": "unbounded histories, schedules", "anchors": ["src/nfqlb/cmdFlowLb.c: loadbalancerFindOrCreate, loadbalancerRelease, loadbalancerLock, cmd_set, cmd_delete, packetHandleFn"]}
{"id": "C44", "title": "A refused flow command changes nothing", "statement": "If a flow-set request is answered with an error the classification of every packet and the set of load-balancer objects are as before.", "quantifier": "every request, every state", "why_tests_cant": "all states and requests", "anchors": ["src/nfqlb/cmdFlowLb.c: cmd_set"]}
{"id": "C45", "title": "Flow requests arrive at the server as the client wrote them", "statement": "For every request the client writes (fields without newline, short enough lines) the server decodes exactly the fields written; a request without terminator, with an unknown field or a line without ':' is refused.", "quantifier": "every request / every byte stream", "why_tests_cant": "all streams", "anchors": ["src/nfqlb/remoteCmd.c: readFlowCmd", "src/nfqlb/cmdFlow.c: cmdFlowSet"]}
{"id": "C46", "title": "Argument splitting yields exactly the tokens", "statement": "Splitting a text by a delimiter set yields in order exactly the maximal non-empty delimiter-free pieces (with leading blanks removed); there is no result iff there is none.", "quantifier": "every string and delimiter set", "why_tests_cant": "all strings", "anchors": ["src/lib/argv.c: mkargv"]}
{"id": "C47", "title": "Verdict: a packet is dropped iff the handler returns a negative mark", "statement": "A queued packet is accepted with exactly the mark the handler returned if that is non-negative and dropped otherwise; exactly one verdict is issued per packet. The program ends only for an error: when receiving or sending, of a message, or in the handler.", "quantifier": "every packet, handler and result", "why_tests_cant": "all handlers", "anchors": ["src/lib/nfqueue.c: callback, nfqlb_send_verdict"]}
{"id": "C48", "title": "Each load-balancer decision is one of the documented outcomes", "statement": "The mark chosen for a packet by lb/flowlb is the mark of an active target (of the table selected), the own/other LB mark for fragments in an LB-tier, one of the configured no-target/no-lb marks, or 'drop'.", "quantifier": "every packet, table state and configuration", "why_tests_cant": "all states", "anchors": ["src/nfqlb/cmdLb.c: packetHandleFn", "src/nfqlb/cmdFlowLb.c: packetHandleFn"]}
{"id": "C49", "title": "The fwmark command predicts the data path", "statement": "The hash and fwmark printed by the fwmark command for a 5-tuple are the ones used for packets with that 5-tuple.", "quantifier": "every 5-tuple and table", "why_tests_cant": "all tuples", "anchors": ["src/nfqlb/cmdFwmark.c: cmdFwmark", "src/nfqlb/cmdLb.c: packetHandleFn"]}
{"id": "C50", "title": "Every registered command can be invoked", "statement": "Every command registered at start-up is found by its name and listed in the help.", "quantifier": "every registration order", "why_tests_cant": "linker dependent order", "anchors": ["src/lib/cmd.c: addCmd, handleCmd", "src/nfqlb/*.c: addCommands"]}
{"id": "C51", "title": "makeip addresses lie in the network and are pairwise distinct", "statement": "For every CIDR, net and host number in range, the address produced keeps the CIDR base prefix, carries net and host in their fields, and different (net,host) pairs give different addresses.", "quantifier": "every CIDR, net, host", "why_tests_cant": "all values", "anchors": ["src/ipu/ipu.c: cmdMakeip"]}
{"id": "C52", "title": "contains decides CIDR membership", "statement": "The contains command succeeds iff the address has the same family as the CIDR and agrees with it on the prefix bits.", "quantifier": "every address and CIDR", "why_tests_cant": "all values", "anchors": ["src/ipu/ipu.c: cmdContains, mask_ipv6"]}
{"id": "C53", "title": "linklocal computes the modified EUI-64 address", "statement": "The link-local address computed from a MAC address is fe80::/64 plus the MAC with ff:fe inserted and the universal/local bit inverted; different MACs give different addresses.", "quantifier": "every MAC", "why_tests_cant": "2^48 MACs", "anchors": ["src/ipu/ipu.c: cmdLinklocal"]}
{"id": "C54", "title": "Registration and lookup of trace areas", "statement": "The trace mask computed from a list of area names is the union of their bits; unknown names are refused.", "quantifier": "every list of names", "why_tests_cant": "all lists", "anchors": ["src/nfqlb/cmdTrace.c: cmdTrace"]}
{"id": "C55", "title": "Repeating a killed command completes it", "statement": "If an activate/deactivate command is killed in the middle, running the same command again leaves the same table as an undisturbed run.", "quantifier": "every command, every crash point, every state", "why_tests_cant": "crash points between individual memory writes cannot be enumerated by tests", "anchors": ["src/nfqlb/cmdConfig.c: cmdActivate, cmdDeactivate", "src/lib/maglevdyn.c: magDataDyn_populate"]}
{"id": "C56", "title": "Instances with the same active fwmarks steer alike", "statement": "Two load-balancers initialised identically and having the same set of active fwmarks (activated without --index) steer every packet alike.", "quantifier": "every pair of histories ending in the same set of fwmarks", "why_tests_cant": "histories are unbounded", "anchors": ["src/nfqlb/cmdConfig.c: cmdActivate", "src/lib/maglevdyn.c: magDataDyn_populate"]}
{"id": "C57", "title": "Deactivating a target only moves that target's traffic", "statement": "After deactivating one target every packet steered to another target before is steered to the same target as before.", "quantifier": "every table, every target", "why_tests_cant": "all tables", "anchors": ["src/lib/maglevdyn.c: magDataDyn_populate"]}
{"id": "C58", "title": "Taking a target out and back restores the steering", "statement": "Deactivating a target by index and activating the same index again, with any fwmark, restores the lookup table exactly.", "quantifier": "every reachable table, every index, every fwmark", "why_tests_cant": "histories are unbounded", "anchors": ["src/nfqlb/cmdConfig.c: cmdActivate, cmdDeactivate", "src/lib/maglevdyn.c: magDataDyn_populate"]}
{"id": "C59", "title": "First fragments are steered like whole packets", "statement": "The first fragment of a TCP/UDP/SCTP datagram gets the same hash key, hence the same target, as unfragmented packets of the same flow.", "quantifier": "every flow, every fragment size, IPv4 and IPv6", "why_tests_cant": "all packets; fragmentation of IPv6 is rarely tested", "anchors": ["src/lib/iputils.c: getHashKeyIpv4, getHashKeyIpv6"]}
{"id": "C60", "title": "Port lists are read completely", "statement": "Reading a text that lists ranges within the limits adds exactly the listed ranges to a range set and reports success; a text that cannot be read completely is refused.", "quantifier": "every list of ranges, every text length", "why_tests_cant": "all texts; the limit of an internal buffer is easily missed", "anchors": ["src/lib/rangeset.c: rangeSetAddStr, rangeSetAddOneStr"]}
{"id": "C61", "title": "Defining flows and classifying packets never corrupts memory", "statement": "Whatever texts a flow definition contains (protocols, port lists, CIDRs, byte matches of any length and content), flowDefine either accepts or refuses it without undefined behaviour, and so does every later flowLookup for any key and any packet content or length.", "quantifier": "for all histories of flowDefine/flowDelete with arbitrary texts and priorities, all keys and all packets", "why_tests_cant": "The overflows depend on text lengths and combinations of priorities that tests do not enumerate; they usually go unnoticed when they happen.", "anchors": ["src/lib/flow.c:flowDefine", "src/lib/flow.c:parseCidrs", "src/lib/flow.c:flowLookup", "src/lib/flow.c:cmpFlows"]}
{"id": "C62", "title": "The reassembly tracker never loses hole items and always ends", "statement": "After any history of creating trackers, handling fragments and destroying trackers, the items in the pool plus those in use are as many as were created, so destroying all trackers makes all items available again; handling a fragment always ends.", "quantifier": "every history over any number of trackers, any fragments (valid or not), every pool size", "why_tests_cant": "a leak of one item in a rare sequence only shows after a long time", "anchors": ["src/lib/reassembler.c: raNew, raDestoy, handleFragment"]}
{"id": "C63", "title": "The flows in force are those requested", "statement": "At any time flowlb classifies packets by the flows requested so far: after a set request answered OK the named flow is defined as the request says with its target, and the companion for encapsulating UDP if one is asked for; after a refused set nothing has changed but that companion; after delete the flow and its companion are gone; no other flow is affected, by any request, packet or time.", "quantifier": "all histories of requests with arbitrary contents, interleaved with any packets and other processes", "why_tests_cant": "request histories and interleavings with packets are unbounded", "anchors": ["src/nfqlb/cmdFlowLb.c: flowThread, cmd_set, cmd_delete", "src/lib/flow.c: flowDefine, flowDelete"]}
{"id": "C64", "title": "Requests do not bring flowlb down", "statement": "Whatever request a client sends, the flow thread answers it after boundedly many steps and can take the next one.", "quantifier": "all histories of requests with arbitrary contents, interleaved with any packets", "why_tests_cant": "a missing or extreme field in combination with a certain state is needed", "anchors": ["src/nfqlb/cmdFlowLb.c: flowThread, cmd_set, cmd_delete", "src/lib/flow.c: flowDefine, flowLookupName"]}
{"id": "C65", "title": "Listing shows the flows in force", "statement": "The listing of flows is a JSON array with one object for each flow in force, those of higher priority first, and an object names the flow, its priority, its target and conditions such that a definition with these would be accepted and match the same packets. Listing a flow by name gives its object, or nothing if there is none; listing names gives each name once. Listing never corrupts memory.", "quantifier": "after all histories of definitions and deletions with arbitrary texts", "why_tests_cant": "all texts; the listing uses other notations than the definition (merged ranges, masked addresses, hexadecimal values) and fixed buffers", "anchors": ["src/lib/flow.c: flowSetPrint, printFlow, printCidrs, printPorts, printProto, printMatch, flowSetPrintNames"]}
{"id": "C66", "title": "A traced packet is attributed to a trace flow that accepts it", "statement": "When text is written for a packet, it has the name of a trace flow that was requested (set and not deleted) when the packet was looked up and that accepts the packet, and no such flow of higher priority does; packets no trace flow accepts are not traced; an echo request is shown with its identifier and sequence number. Trace flows may be set, replaced and deleted at any time, requests are answered, listings show the trace flows, no name is used after it is freed or freed twice, and none stays in memory when its flow is gone.", "quantifier": "all histories of trace requests with arbitrary contents, all packets, any interleaving with packets being traced", "why_tests_cant": "interleavings of requests with packets being traced; memory that leaks or is used after release is not seen by tests", "anchors": ["src/nfqlb/cmdFlowLb.c: traceHandleFlowCmd, packetHandleFn", "src/lib/iputils.c: printIcmp4, printIcmp6"]}
{"id": "C67", "title": "xlb keeps the traffic between two addresses on one target", "statement": "All packets from one address to another get the same mark from xlb, whatever their protocol and ports, fragments (first or not) included, and so do ICMP errors about the packets in the other direction; the mark is that of an active target, and -1 only if none is active or the packet cannot be read. No access outside the table is made, also while the table is changed.", "quantifier": "all tables after any commands, all packets of IPv4 and IPv6, any state of the table while it is changed", "why_tests_cant": "all packets and tables; a table that is being changed is rarely met in a test", "anchors": ["src/extension/cmdXlb.c: packetHandleFn, FW", "src/lib/iputils.c: getHashKey, hashKeyAddresses"]}
{"id": "C68", "title": "Command line options mean what they say", "statement": "For every command: an option given as --name=value, --name value, or with one dash or an unambiguous abbreviation gets that value, the last one if given several times; options not given have their defaults; flags take no value; the other words, and everything behind --, are left in their order; a line with an unknown or ambiguous name, a value for a flag, an option without its value or without a required option is refused, and nothing else is; --help gives help.", "quantifier": "all tables of options, in particular those of all commands, and all lists of words", "why_tests_cant": "combinations of options, abbreviations, orders and odd words are unbounded", "anchors": ["src/lib/cmd.c: parseOptions, verifyRequiredOptions", "src/nfqlb/cmd*.c: option tables"]}
{"id": "C69", "title": "Exactly the queues asked for are served", "statement": "With --queue=a the queue a is served, with --queue=a:b each of the queues a to b, each by one thread; a value that is not of this form, or with b below a, ends the program.", "quantifier": "all texts", "why_tests_cant": "all texts and ranges", "anchors": ["src/nfqlb/cmdLb.c: cmdLb", "src/nfqlb/cmdFlowLb.c: cmdFlowLb", "src/extension/cmdXlb.c: cmdXlb"]}
{"id": "C70", "title": "A flow-set command line arrives at the server as written", "statement": "What flow-set sends for a command line is read by the server as one request whose fields are the values of the options of the line; nothing is sent for a line that is refused.", "quantifier": "all command lines", "why_tests_cant": "the client's options, its output and the server's reader are tested separately, with few values", "anchors": ["src/nfqlb/cmdFlow.c: cmdFlowSet", "src/lib/cmd.c: parseOptions", "src/nfqlb/remoteCmd.c: readFlowCmd"]}
{"id": "C71", "title": "The bytes of the shared memory are the table", "statement": "After init and any commands the shared memory object holds, byte by byte, the own fwmark and the table that init and the commands should give, whatever was in the memory before and however the kernel splits the writes; every store of a command changes it to the next state of the table; packet handlers that mapped it at any time read only inside of it and get what the table says, also while commands run, were killed, or init is run again. Init fails only if a write fails, and then changes nothing.", "quantifier": "all sizes, all contents of fresh memory, all results of write, all histories of commands and kills, all hashes", "why_tests_cant": "sizes near the limits, split writes and the contents of fresh memory are not under control of a test", "anchors": ["src/nfqlb/cmdShm.c: cmdInit, initShm", "src/lib/shmem.c: createSharedData, write_full", "src/lib/maglevdyn.c: magDataDyn_init, magDataDyn_map, magDataDyn_populate", "src/nfqlb/cmdConfig.c"]}
{"id": "C72", "title": "show tells the active targets", "statement": "show prints the own fwmark, the sizes, the first 25 slots of the table and every active target, each once with its fwmark and index, so that the text determines these; after init and any activate and deactivate commands the fwmarks listed are those that should be active.", "quantifier": "all tables after any commands", "why_tests_cant": "all histories; the text is meant to be read by scripts", "anchors": ["src/nfqlb/cmdShm.c: cmdShow", "src/lib/maglevdyn.c: magDataDyn_map"]}
{"id": "C73", "title": "stats shows the counters of the fragment table", "statement": "stats prints a JSON object with the sizes and counters of the fragment table; the counters are the numbers of lookups, insertions, refused insertions, collected entries and overflow buckets (allocated and in use) since the load-balancer was started, modulo 2^32, and the sizes and the ttl those of its options.", "quantifier": "all values of the counters, all histories of a table", "why_tests_cant": "all histories of a table; counters that wrap around; the text is meant to be read by programs", "anchors": ["src/nfqlb/cmdShm.c: cmdStats", "src/lib/fragutils.c: fragPrintStats, fragUseStats, bucketPoolAllocate", "src/lib/conntrack.c"]}
{"id": "C74", "title": "Load-balancers on one host do not disturb each other", "statement": "The fragment table of a running load-balancer answers as if it were alone, whatever other load-balancers on the host are started, also with wrong options, and whatever they do.", "quantifier": "all histories of starts and of operations of any number of processes", "why_tests_cant": "several processes in all orders, and starts that fail", "anchors": ["src/nfqlb/cmdLb.c: cmdLb", "src/nfqlb/cmdFlowLb.c: cmdFlowLb", "src/lib/shmem.c: createSharedData", "src/lib/fragutils.c: fragUseStats", "src/lib/conntrack.c: ctUseStats, ctLookupBucket"]}
{"id": "C75", "title": "lb and flowlb run with the options of the command line", "statement": "A load-balancer started by a command line serves exactly the queues, and decides with exactly the marks, hash mode, tables, encapsulation port and fragment table, that the options of the line say, or their defaults; a line with values that are no numbers, or that cannot be used, is refused.", "quantifier": "all command lines and all states of shared memory and devices", "why_tests_cant": "combinations of options are unbounded; values that cannot be used show when packets arrive", "anchors": ["src/nfqlb/cmdLb.c: cmdLb", "src/nfqlb/cmdFlowLb.c: cmdFlowLb", "src/lib/tuntap.c: get_mtu", "src/lib/cmd.c: parseOptions"]}
{"id": "C76", "title": "Commands on tables do what their words say", "statement": "On a host with any number of tables, every line of init, activate, deactivate, delete and show acts on the table it names and on no other; its exit status and text, and the fwmarks that load-balancers get from the tables they use, are what the words of all the lines so far ask for; a load-balancer whose table is deleted keeps it unchanged; a line with words that are no fwmarks is refused.", "quantifier": "all histories of command lines, of load-balancers that start and of lookups, on any number of tables", "why_tests_cant": "unit tests call the functions on one table; histories of lines on several tables, and the words of lines, are unbounded", "anchors": ["src/nfqlb/cmdShm.c: cmdInit, cmdDelete, cmdShow", "src/nfqlb/cmdConfig.c: cmdActivate, cmdDeactivate", "src/lib/shmem.c: createSharedData, mapSharedData", "src/lib/cmd.c: parseOptions"]}
{"id": "C77", "title": "Trace and log neither disturb the program nor lose lines", "statement": "Whatever threads log and trace and however clients of the trace and the flow socket come, stay and go: the process goes on, threads that trace go on, every descriptor in use stays open; a line traced while a client is connected with the mask it has set is delivered whole to that client, in order, and to no one else; a line logged is on stderr.", "quantifier": "all interleavings of any number of threads, the trace server, the flow server, releases of load-balancers, and clients that leave or stop reading at any time; all masks, levels and texts", "why_tests_cant": "races between threads, and clients that leave at the wrong moment, are not reproduced by tests", "anchors": ["src/lib/log.c: logp, tracef, traceServerThread", "src/lib/log.h: trace, warning, notice, info, debug", "src/nfqlb/cmdFlowLb.c: writeReply, flowThread, loadbalancerRelease"]}
{"id": "C78", "title": "The clients of flowlb send what the line asks for, print the answer and tell by their status whether it was done", "statement": "For every command line of flow-set, flow-delete, flow-list, flow-list-names and the four trace-flow commands: what is sent is read by the server as one request, with the action of the command and the values of the options on the line. flow-set ends with status 0 if and only if the flow is set as the line asks, otherwise the server's answer is printed and the status is not 0; flow-delete and trace-flow-delete end with 0 and the flow gone; trace-flow-set ends with 0 if and only if the trace flow is set; the listing commands print the listing as the server wrote it.", "quantifier": "all command lines; all states of flowlb, interleaved with packets; all ways the answer arrives in pieces; all contents of the uninitialised buffer", "why_tests_cant": "end-to-end behaviour of two programs over a socket: tests of one side do not see it, and short answers in one piece are all that tests produce", "anchors": ["src/nfqlb/cmdFlow.c: cmdFlowSet, cmdFlowDelete, cmdFlowList, cmdFlowListNames", "src/nfqlb/cmdTrace.c: cmdTraceFlowSet, cmdTraceFlowDelete, cmdTraceFlowList, cmdTraceFlowListNames", "src/nfqlb/cmdFlowLb.c: flowThread, writeReply, cmd_set, cmd_delete, traceHandleFlowCmd", "src/lib/flow.c: flowDefine"]}
{"id": "C79", "title": "From command lines to the marks of packets: what the whole host does", "statement": "Tables are made, changed and deleted with init, activate, deactivate and delete; lb and flowlb are started and ended; flows are set and deleted with flow-set and flow-delete, in any order. Every command ends with the status and text that fit what is there, and every packet gets the fwmark that the Maglev table of its target gives, where the target is: for lb the table named on its command line, for flowlb that of the flow of highest priority that accepts the packet, and the table is the one that had the name of the target when the flow was set, with all changes since; packets no flow accepts get the mark for that. SCTP packets in UDP for the --udpencap port of a flow are steered as the SCTP packet in them, and the port of a flow cannot be changed. Fragments go to the load-balancer that the table of the LB tier gives; those that stay go where the first fragment of their datagram went.", "quantifier": "all histories of command lines (as a user may write them), any number of load-balancers, tables, flows, and all packets of flows and their fragments", "why_tests_cant": "end to end over several programs that share memory and talk over sockets, in all orders; tests run one of them at a time", "anchors": ["src/nfqlb/cmdShm.c: cmdInit, cmdDelete", "src/nfqlb/cmdConfig.c: cmdActivate, cmdDeactivate", "src/nfqlb/cmdLb.c: cmdLb, packetHandleFn", "src/nfqlb/cmdFlowLb.c: cmdFlowLb, flowThread, cmd_set, cmd_delete, loadbalancerFindOrCreate, packetHandleFn", "src/nfqlb/cmdFlow.c: cmdFlowSet, cmdFlowDelete"]}
{"id": "C80", "title": "The reassembler ends the session of a datagram when all its fragments have come, and changes nothing else", "statement": "With --reassembler=n registered, every fragment of a datagram whose first fragment was accepted gets the value of the first one, whatever the order and the duplicates; the entry is given up with the fragment that completes the datagram and not before, so that the identification can be used again at once; no call fails or crashes because of the reassembler, and when the entries are gone all of its n items are free. The fragment table answers as without reassembler in all other respects.", "quantifier": "all sizes of table and reassembler, all histories of packets of any number of datagrams, all interleavings of threads", "why_tests_cant": "orders of arrival of fragments of several datagrams that share the items of the reassembler, over its whole history, and interleavings of threads are unbounded; unit tests give one tracker one datagram", "anchors": ["src/lib/fragutils.c: fragGetValueOrStore, fragInsertFirst, fragDataUnlock, fragDataCreate, fragRegisterFragReassembler", "src/lib/reassembler.c: raNew, raHandleFragment, raDestoy, handleFragment, createReassembler", "src/nfqlb/cmdLb.c: cmdLb", "src/nfqlb/cmdFlowLb.c: cmdFlowLb"]}
{"id": "C81", "title": "loglevel and trace configure all load-balancers of the host", "statement": "loglevel n sets the log level that every load-balancer on the host uses from then on, until it is set again, and prints it; loglevel alone prints the level in use. trace sets the trace mask to the union of the areas selected, or to the number given, prints it, and copies what the server traces until the end; if it fails nothing has changed. No load-balancer is disturbed by other load-balancers or commands that start, whatever is done first on a host; words that are no level are refused.", "quantifier": "all histories and interleavings of any number of load-balancers and commands, on a fresh host or not; all command lines", "why_tests_cant": "races between processes that start at the same time on shared memory; unit tests run one process", "anchors": ["src/nfqlb/cmdTrace.c: cmdTrace, cmdLoglevel, str2mask", "src/lib/log.c: logConfigShm, traceServerThread", "src/lib/log.h: LOG_SET_LEVEL, LOG_SET_TRACE_MASK", "src/lib/shmem.c: createSharedData, mapSharedData", "src/nfqlb/cmdLb.c: cmdLb", "src/nfqlb/cmdFlowLb.c: cmdFlowLb"]}
{"id": "C82", "title": "Clients reach the load-balancer whose address they have, and addresses do not bring load-balancers down", "statement": "Take any number of lb and flowlb processes in one network namespace, each with the trace address of its line and (flowlb) the flow address of its environment, with their server threads, and any number of clients (flow commands and trace). Whenever a client gets a connection, it is to a server of a process that runs and that was started with the same address; as long as this process runs, all clients with the address come to the same server. A load-balancer never dies because of its addresses, and each of its servers can be reached as soon as its thread had its turns.", "quantifier": "All histories of starts, steps of server threads, connects and ends, all interleavings, all command lines and values of $NFQLB_FLOW_ADDRESS, all texts of addresses; getaddrinfo and the kernel's rules for TCP addresses are parameters with a contract.", "why_tests_cant": "Tests parse single addresses; which process a client reaches depends on all processes of the host and on when their threads bind, and long names damage memory only at particular lengths.", "anchors": ["src/lib/iputils.c:464-510", "src/lib/log.c:82-146", "src/nfqlb/cmdFlowLb.c:484-500", "src/nfqlb/remoteCmd.c:87-103", "src/nfqlb/cmdTrace.c:75-84", "src/nfqlb/cmdLb.c:165", "src/nfqlb/nfqlb.h:42,103"]}
{"id": "C83", "title": "The commands of ipu do what their lines say", "statement": "makeip prints the address whose first bits are those of the base CIDR, with net in the first slot and host in the second one (in the IPv6 template if there is one), with the length asked for; different nets or hosts give different texts; a net or host that does not fit, slots out of order and texts that are no address are refused with status 1 and nothing printed. contains ends with 0 exactly if the word is an address within the CIDR; in particular the addresses made by makeip are. linklocal prints fe80::/64 with the modified EUI-64 of the MAC address. Lines without the CIDR asked for, with an unknown option or an option without its value are refused.", "quantifier": "all command lines with their options in any order and spelling, all texts, both families; inet_pton, inet_ntop and ether_aton are parameters with a contract", "why_tests_cant": "the texts and numbers of lines are unbounded, and agreement of two commands on all addresses is not a matter of samples", "anchors": ["src/ipu/ipu.c: cmdMakeip, cmdContains, cmdLinklocal, mask_ipv6", "src/lib/cmd.c: parseOptions, parseOptionsOrDie"]}
{"id": "C84", "title": "Queues are served by the load-balancer that has them, and only by it", "statement": "Whatever load-balancers are started, killed and restarted, and however their threads and the kernel interleave: every verdict is for a packet that the kernel queued, by a running load-balancer that has this queue among its --queue range, on the first --mtu bytes of the packet, with the handler's mark (drop if negative), and no packet gets two verdicts. If no two have the same queue, none ends unless killed, all packets that wait get their verdict when their thread runs, and the kernel takes further packets. A load-balancer that works in all its queues is not disturbed by others. Every load-balancer started with a valid range serves it.", "quantifier": "all executions of any number of processes with any number of queues, all packets, mtus, queue lengths and queue texts", "why_tests_cant": "the interleavings of several processes with the kernel are unbounded, and tests do not run against the kernel's queues", "anchors": ["src/lib/nfqueue.c: nfqueueRun, queue_cb, nfq_send_verdict", "src/nfqlb/cmdLb.c: cmdLb", "src/nfqlb/cmdFlowLb.c: cmdFlowLb"]}
{"id": "C85", "title": "Flows and flow requests neither leak nor use what was freed", "statement": "Whatever flows are defined (accepted or refused at any stage), replaced, deleted, looked up and listed, and whatever clients send to the flow server: no block is used after it was freed, freed twice or written outside; what stays allocated is exactly the set, its array with room for the terminating NULL, and the parts of the definitions in effect, and all of it is gone when the set is deleted. The flow server holds at any time, besides the flows, a bounded amount: the blocks of one request, two streams, two descriptors.", "quantifier": "all histories of calls with all arguments; all sequences of connections with any bytes, cut off anywhere, and any failures of accept, fdopen and dup", "why_tests_cant": "leaks on error paths show only in the long run, and the combinations of error paths over a history are unbounded; unit tests run few and do not watch descriptors", "anchors": ["src/lib/flow.c: flowSetCreate, flowSetDelete, flowFree, flowDefine, flowDelete", "src/lib/match.c: matchCreate, matchAdd, matchDestroy", "src/lib/rangeset.c: rangeSetDestroy", "src/lib/argv.c: mkargv", "src/nfqlb/remoteCmd.c: readFlowCmd, freeFlowCmd", "src/nfqlb/cmdFlowLb.c: flowThread"]}
{"id": "C86", "title": "A load-balancer injects stored fragments into its own tun device", "statement": "On a host with any tun devices and any history of starts and ends of load-balancers with --tun and of changes to the devices by the administrator: a start with --tun=D runs exactly if device D is a tun device that no other process uses and whose mtu is at least --mtu, or can be made with the default mtu, and it is then the only user of D and of no other device; a start that is refused changes nothing. Stored fragments are received whole, once and in order on D as long as D is up and not deleted; a fragment that cannot be written gives a warning, and nothing is ever received on another device.", "quantifier": "all sets of devices, all device names, mtus, histories and packets", "why_tests_cant": "Needs the kernel's tun driver, several processes and privileges; a test shows one name, while what happens depends on how a name fits struct ifreq and on what other processes hold.", "anchors": ["src/lib/tuntap.c:14-56", "src/nfqlb/cmdLb.c:40-51", "src/nfqlb/cmdLb.c:191-209", "src/nfqlb/cmdFlowLb.c:62-73", "src/nfqlb/cmdFlowLb.c:309-331"]}
{"id": "C87", "title": "fragTableDestroy gives everything back", "statement": "When no thread is in a call, fragTableDestroy frees the table whatever was done with it before: every entry, extra bucket, stored fragment and buffer is given back exactly once, the fragments that still wait are counted as discarded, and nothing else is touched. It works for every configuration that fragTableCreate takes, also with no buffers for fragments, which the header recommends to those who do not care.", "quantifier": "all configurations, all interleavings of any number of threads before, all clock readings that leave room for the time-to-live, all contents of uninitialised memory", "why_tests_cant": "What is left in the table depends on the whole history of all threads; unit tests destroy tables of a few entries, and compilers differ in what they make of the overflow.", "anchors": ["src/lib/fragutils.c: fragTableDestroy, fragGetStats, fragDataUnlock, bucketPoolFree", "src/lib/conntrack.c: toNanos, ctStats, ctDestroy, bucketGC", "src/lib/itempool.c: itemPoolDestroy"]}
{"id": "C88", "title": "The trace of a packet tells what it is and what was done with it", "statement": "When a trace flow is found for a packet, the trace shows the name of that flow, the protocol, length, addresses and ports of the packet in a line that can be read in one way only, and a line with the mark that the packet gets and the target it was chosen for, or that it is dropped. With the trace of fragments on there is one line for every fragment other than the first which tells whether it was sent to the LB tier, marked, stored or dropped; with the trace of packets on every packet sent to a target is shown with its mark, with the trace of sctp SCTP packets are and TCP packets are not. Every fragment written to the tun device is told of, and without one none is said to be. With no trace on nothing is written. Protocols are shown right however many packet threads trace at a time.", "quantifier": "all packets, flows, trace flows, tables, trace masks, histories of the fragment table, interleavings of threads", "why_tests_cant": "The trace is text for people; tests compare verdicts, not what was traced. A static buffer shared by threads shows wrong values only when two threads meet.", "anchors": ["src/nfqlb/cmdFlowLb.c:81-231", "src/lib/iputils.c:512-527", "src/lib/log.h:42", "src/nfqlb/nfqlb.h:95-100"]}
{"id": "C89", "title": "Fragments meet in one load-balancer of the LB tier, whichever they arrive at", "statement": "With load-balancers (lb and flowlb) that are configured with the same LB tier (--lbshm), all fragments of a datagram are handled by one of them, the one the table of the tier gives for the addresses, whichever they arrive at: a packet is passed on at most once, and only if it is a fragment, and fragments other than the first go to the target that was chosen there for the first. The tables of the tier may change: once all see the same, packets that come later are handled so, and those on their way are passed on at most twice more. It is enough that the load-balancers have activated the same marks.", "quantifier": "any number of load-balancers, each with its own flows, targets, commands and packet threads, all interleavings, all packets arriving anywhere, all tables of the tier and changes of them", "why_tests_cant": "Needs several hosts that route packets to each other; whether fragments meet or go round depends on the tables of all hosts and on the routing.", "anchors": ["src/nfqlb/cmdLb.c:53-115", "src/nfqlb/cmdFlowLb.c:107-130", "src/nfqlb/cmdFlowLb.c:201-213", "src/nfqlb/cmdFlowLb.c:286-289", "README.md:50-60", "fragments.md"]}
{"id": "C90", "title": "No packet is held up for ever", "statement": "The handler of a packet decides after at most 11 steps of its own (5 for lb), whatever other threads, flow commands, activations and other processes do in between, and as long as it has not decided it can make a step; it never waits for another packet, for a fragment that does not come, or for a command. In an LB tier a packet is taken, handled and sent on or dropped with at most 26 moves if the load-balancers see the same table of the tier when it comes, and with at most 39 more from the time when they do; until it has left it can always go on, also if nobody else does anything, unless its load-balancer fails.", "quantifier": "all executions of flowlb and lb with any number of threads, all options, flows, tables, packets and interleavings; all tiers of any number of load-balancers", "why_tests_cant": "Tests see some interleavings; that no interleaving lets a packet wait or go round is a statement about all of them.", "anchors": ["src/nfqlb/cmdFlowLb.c:93-231", "src/nfqlb/cmdLb.c:53-115", "src/nfqlb/cmdFlowLb.c:378-417", "src/lib/fragutils.c: fragInsertFirst, fragGetValueOrStore"]}
{"id": "C91", "title": "Threads do not wait for each other for ever", "statement": "Whatever requests, packets and trace sessions the threads of lb and flowlb handle at the same time: no thread asks for a lock it has or lets go of one it has not, every call gives back all locks on every path, and if the clients that threads wait for read, then as long as a call is under way some thread can go on, and so all calls end. A client of the flow thread that sends nothing or does not read its answer holds up no packet.", "quantifier": "all numbers of threads, all calls with all branches and loops, all interleavings; read-write locks that prefer writers and such that do not; all behaviours of the clients", "why_tests_cant": "A deadlock needs one unlucky interleaving of several threads, and a lock that is not given back one rare path; tests run few of either.", "anchors": ["src/lib/itempool.c:109-150", "src/lib/conntrack.c:66-279", "src/lib/fragutils.c:79-488", "src/lib/flow.c:277-629", "src/lib/log.c:27-138", "src/nfqlb/cmdFlowLb.c:93-231", "src/nfqlb/cmdFlowLb.c:383-697", "src/nfqlb/cmdLb.c:53-115"]}
{"id": "C92", "title": "A look-up returns the entry it found", "statement": "Whatever other threads do at the same time: a look-up in the fragment table of a key that is there gives the caller the object of that key, with a reference counted for it. So no fragment gets the value of another datagram, no object is used after it was given back, and when no call is under way and the table is empty all objects are free.", "quantifier": "all configurations, numbers of threads, sequences of calls, clock readings, and all interleavings in which the look-up is two steps: the search with the bucket locked, and the read of what is returned", "why_tests_cant": "The second read goes wrong only if another thread removes the entry within a few instructions; no test can place a thread there.", "anchors": ["src/lib/conntrack.c:159-177", "src/lib/fragutils.c:103-154", "src/lib/fragutils.c:266-439"]}
