# Formal model of nfqueue-loadbalancer: design

Source: `/repo` (C, pinned commit, read as text only).  Prover: Coq 8.16.1.
Everything is under `rocq/theories`, one logical path `Verif`.

## Conventions

* `X_Model.v`   - Gallina transcription of the C code, function by function.
  Each definition cites file and lines.  No proofs.
* `X_Spec.v`    - the small independent specification the theorems are stated
  with (packet formats, prefixes, histories, who holds what ...).
* `X_Proofs.v`, `X2_Proofs.v`, ... - lemmas.
* `X_Props.v`   - the theorems of the properties, closed by a lemma, each with a
  concrete `Example` meeting its hypotheses and a `Print Assumptions`.
* Theorem names: `Cnn_...`; suffix `_partial` when only part of the property is
  proved; suffix `_refuted` when the property (or the part not proved) is false of
  the faithful model; a witness is exhibited.
* `properties.jsonl` has the properties in full, `MANIFEST.json` what is proved
  of each, `seeded/LOG.jsonl` the wrong models the theorems were tried on.

C semantics used by the model:

* `unsigned` = 32 bit, `uint64_t` = 64 bit, arithmetic explicitly `mod 2^32`/`2^64`
  where the value can wrap (carried in `Z` or `N`, never in `nat`).
* little-endian host (x86-64); `long` and pointers are 64 bit.
* Out-of-bounds access, use of freed or uninitialised memory, signed overflow,
  division by zero and NULL dereference are the distinct outcome `UB` (in
  programs of several threads: `BadUse` for released objects, `Stop` otherwise);
  `die`/`exit` is `Die`; unbounded loops take fuel and running out of it is the
  distinct outcome `Fuel`.  No theorem relies on a totalised default.
* External nondeterminism (rand, qsort among equal elements, allocator, thread
  schedule, clock, time of a crash) is a universally quantified parameter.
* A theorem about a history is conditional on the history being executed without
  `UB` only where another theorem says when that is so (named in the manifest).

## Trusted base

1. Coq's kernel (including `vm_compute`).
2. Axioms: none, see below.
3. The faithfulness of the `_Model.v` files to the C text, listed per module below.
4. The C library as far as it is modelled or specified:
   * modelled in `Cstr_Model.v`: `strcmp`, `strchr`, `strspn`, `strtok_r`, `strtol`,
     `atoi`, `isspace`; in `Rangeset_Model.v`: `sscanf("%u-%u")`, `snprintf` of
     decimal numbers; in `Remote_Model.v`: `fgets`; in `Match_Model.v`: `regexec`
     of one fixed expression, by a matcher of regular expressions;
   * quantified parameters with a contract: `qsort` (sorts; any order of equal
     elements), `inet_pton` (`libc_ok`), `getaddrinfo` (`gai_ok`), `rand` (any
     numbers), `malloc` where its failure matters (elsewhere it succeeds, or the
     program dies).
5. libmnl and libnetfilter_queue: messages of a datagram and their attributes
   (`Nfq_Model.v`), sending.  The kernel: every queued packet is delivered once.
6. Memory is sequentially consistent in the models with threads or processes, and
   a step is what the model's header says (a critical section, one atomic
   operation, one load or store of shared data).

No axiom, `Admitted`, `Parameter`, functor, module type or plugin is used.

### Print Assumptions

Every theorem reports `Closed under the global context`.  (A check of the compiled
files also lists constants of the standard library's `ssreflect` (`Under_rel`),
which `Require`d files contain; no theorem depends on them.)

## What is modelled

| module | code | left out or simplified |
|--------|------|------------------------|
| `Prime` | `prime.c`: `isPrime`, `primeBelow`, the table | - |
| `Maglev` | `maglevdyn.c`, `maglev.c`: init, map (byte layout), populate; `cmdShm.c` init; the lookup of a packet | the memory areas are separate arrays (`Shm` proves that the bytes behave so); too short memory is `UB` |
| `Config` | `cmdConfig.c`: activate, deactivate; a concurrent reader; crashes between stores | option parsing (see `Opt`) |
| `IpKey` | `iputils.c:27-378` (`getHashKey*`, hashes), `hash.c` | forming (without using) a pointer outside the packet is not UB |
| `Conntrack` | `conntrack.c` | chains are lists; `ctUseStats`; the mutexes (each operation holds one bucket's; the read of the data in `ctLookup` after the mutex is given back is in `Late`) |
| `ItemPool` | `itempool.c` | user's init/destroy functions |
| `Cstr` | C library | - |
| `Util` | `cmd.c` (registration, dispatch), `argv.c`, `cmdTrace.c` (selection masks), `ipu.c` (linklocal, makeip, contains) | parsing of addresses and options, printing |
| `Rangeset` | `rangeset.c`, nodes on an explicit heap | - |
| `Remote` | `remoteCmd.c`, `cmdFlow.c` (what the client sends) | the socket |
| `Match` | `match.c` | - |
| `Flow` | `flow.c`: define, delete, lookups, CIDRs; the lock makes operations atomic | counters, the text of match errors |
| `Print` | `flow.c:458-629`: the listing of flows and names as JSON | `inet_ntop`, the counters and `user_ref2string` are parameters; `fprintf` does not fail |
| `Trace` | `cmdFlowLb.c`: trace requests, lookup of trace flows and the name written, interleaved; `iputils.c:380-462` (the line for ICMP) | `log.c`; the line with addresses; the static buffer of `protostr` shared by packet threads |
| `Reasm` | `reassembler.c`, list of holes, pool of items | trace output |
| `Frag` | `fragutils.c`: all operations of any number of threads, statistics | the reassembler is represented by its result; `fragTableDestroy`; a look-up returns what it found (see `Late`) |
| `FlowLb` | `cmdFlowLb.c`: load-balancer objects, flow thread, packet handler; any number of packets, other processes changing shared memory | texts printed; trace flows (in `Trace`; here a trace request is answered at once); the fragment table is called by one thread at a time (its interleavings are in `Frag`) |
| `Lb` | `cmdLb.c`: packet handler, any number of packets | traces |
| `Xlb` | `extension/cmdXlb.c`: packet handler | - |
| `Opt` | `cmd.c:53-145` (`parseOptions`, `parseOptionsOrDie`), the option tables of all commands, the queues of `--queue`, `flow-set` from its words to the request; `OptDoc_Spec` says what an option that is not on the line means (default, or the command refuses) | `getopt_long_only` is modelled after glibc (empty list of short options, `POSIXLY_CORRECT` unset); what is printed |
| `Shm` | `shmem.c` (`createSharedData`, `write_full`), `cmdShm.c` init and show, and `maglevdyn.c`, `cmdConfig.c` once more on the bytes of the file | words are aligned and little endian; an access behind the end of the file is `UB` (in practice SIGBUS, or zeros up to the end of the page); `malloc`, `shm_open` and `mmap` succeed |
| `Stats` | the shared statistics: `fragPrintStats`, `fragUseStats`, `bucketPoolAllocate`/`Free`, the counters and the size of the tables (`conntrack.c`) in shared memory; any number of processes | truncation, zeroing and use of an object, and an operation on a table, are one step each; counters of stored fragments; a process that leaves its table counts as killed |
| `Start` | `cmdLb.c:123-245`, `cmdFlowLb.c:239-366`: from the words of the command line to the options used and the steps on the shared statistics; `tuntap.c` `get_mtu` | trace server, log level, printed text; devices and shared memory of targets are parameters (`env`) |
| `Lines` | `cmdShm.c` (init, delete, show, primebelow) and `cmdConfig.c` from their words to the objects of a host, load-balancers that have tables mapped | a command is one step; `shm_open` fails only for bad names (glibc's rule) and missing objects; error and help texts |
| `Client` | `cmdFlow.c` and the flow commands of `cmdTrace.c`: what is sent for a command line, what is printed, the status; the texts of the replies of `flowDefine` | the connection is made and takes what is sent |
| `Host` | nothing new: `Lines`, `Start`, `Client`, `FlowLb`, `Lb` and `Shm` put together to one host, with a file system of shared memory, processes of lb and flowlb with their mappings, and one thing happening after the other | threads within one event (C43-C48 are about these); the shared statistics; errors of the system.  `Host_Spec` has flows with --udpencap when their protocol is sctp alone, and packets in UDP when no flow is for the UDP packet itself (C42 is about the others); `Wrap_Proofs` has the native packet that one in UDP is compared with |
| `Frags` | nothing new: the specification of `Host` extended by what each load-balancer remembers of datagrams (sessions of `Frag_Spec`), so that all fragments are covered | as `Host`; a fragment may be refused for lack of memory without saying when |
| `Log` | `log.c`, `log.h` with any number of threads, the trace server, and the descriptors of the process; of the flow thread (`cmdFlowLb.c`) and of `loadbalancerFindOrCreate`/`Release` what they open, write to and close | one write(2) takes a text whole or blocks; local sockets; the shared configuration is mapped; `logConfigShm` |
| `Asm` | `Frag` and `Reasm` put together: `fragRegisterFragReassembler`, the calls of raNew, raHandleFragment and raDestoy in `fragutils.c`, with threads; `fragsAllocated` | a call of raHandleFragment is one step, though several objects may use the pool at once |
| `Ctl` | the log configuration in shared memory with any number of load-balancers and commands: `loglevel` and `trace` from their lines (`cmdTrace.c:38-114`), `logConfigShm` (`log.c:67-74`) with `createSharedData`/`mapSharedData` in their system calls, truncation under a mapping (SIGBUS), the end of a trace session (`log.c:129`) | accesses are atomic; socket calls of a trace client are one step; stdout is not buffered |
| `Addr` | `parseAddress` in full (`iputils.c:464-510`), the trace server and the flow server up to accept, the connects of the clients, with any number of processes | a step is bind (with what comes before it), listen, connect, start or end; sockets can be made; getaddrinfo and the rules for TCP addresses are parameters; the rest of a process is in the other modules |
| `Ipu` | the commands of `ipu.c` from their words to what they print and their status, on top of `Util` and `Opt` | `inet_pton`, `inet_ntop` and `ether_aton` are parameters; stderr and help are left out |
| `Setup` | `nfqueueRun` with the messages of the set-up, the threads of a load-balancer and any number of load-balancers, on a kernel with queues (nfnetlink_queue since 3.8: owner, copy range, maximal length, waiting packets); the size of the socket's buffer | sockets and memory can be had; a packet's identification is not used again; the handler is a function; the page is 4096 bytes |
| `Mem` | what is allocated and freed by `flowSetCreate`, `flowDefine` (with every bail-out), `flowDelete`, `flowFree`, `flowSetDelete`, `matchAdd`/`matchDestroy`, `rangeSetDestroy`, `mkargv`, `readFlowCmd`, `freeFlowCmd`, and the streams and descriptors of `flowThread` | blocks have an address and a tag, realloc always moves; allocation does not fail; the calls that a request makes on the set are a parameter; the nodes of port sets live in the heap of `Rangeset`; the load-balancers behind the flows are in `FlowLb` |
| `FragEnd` | src/lib/fragutils.c `fragTableDestroy`, with `toNanos` of src/lib/conntrack.c and the destruction of the pools | the assertions of SANITY_CHECK, the mutexes; `wrap` says whether signed overflow wraps around |
| `Tun` | src/lib/tuntap.c (`tun_alloc`, `get_mtu`), the part of `cmdLb`/`cmdFlowLb` that opens the tun device, `injectFrag`; a host with several load-balancers and an administrator | what the model trusts of the kernel is in the file: TUNSETIFF, SIOCGIFMTU, write and close of tun devices, names cut after 15 characters; renaming, several queues per device, name spaces are left out; failing opens and sockets are inputs; a process opens one tun device |
| `Shown` | the texts traced by the packet handler of flowlb (cmdFlowLb.c:81-231), `protostr` with its static buffer (iputils.c:512-527) | texts of one packet while nothing else happens; the buffer with threads is a model of its own; log texts are not included; write() to the tun device writes all |
| `Tier` | several lb and flowlb processes (`Lb`, `FlowLb`) that are each other's LB tier: packets that enter anywhere, are taken, handled by any interleaving of threads, and leave with a mark that the routing leads to a target or to another load-balancer | the routing is a function from marks to load-balancers; packets between load-balancers are not changed (one that is lost is one that is never taken, one that is doubled another one that enters); a process that fails makes no more steps; fragments written to tun enter as new packets; all have the same --udpencap |
| `Soon` | no new model: counts steps of the handlers in executions of `FlowLb` and `Lb`, and moves of a packet in executions of `Tier` (C90) | a step is a section of a handler that other threads see as one; that a thread that waits for a mutex gets it in the end is left to the scheduler and to C91; writing to a trace client that does not read is no step here (C77, C91) |
| `Locks` | the operations on locks of all functions that a packet thread, the flow thread and the trace thread call: itempool.c, conntrack.c, fragutils.c, reassembler.c (its item pool), flow.c, log.c, cmdFlowLb.c, cmdLb.c, and the places where a thread waits for a client (C91) | only locks: a branch may go either way and a loop run any number of times, whatever the data, so there are more runs than the code has; a lock that is free goes to any of those who wait; starting, `die` and the end of the process are left out |
| `Late` | `ctLookup` as it is: it reads `b->data` a second time after it has given back the mutex of the bucket (conntrack.c:171-172); the other steps are those of `Frag` (C92) | memory of an overflow bucket that was given back holds anything; the models above `Frag` (`FragPool`, `Asm`, `FlowLb`, `Lb`, `Tier`) take the look-up as one step |
| `Nfq` | `nfqueue.c`: callback, verdicts, loop | set-up of the queue |
| `Fwmark` | `cmdFwmark.c`, `parseAddress` (tcp), `parseProto` | option parsing |

The composition: `Lb_Props` (C48), `Steer_Props` (C13), `Requests_Props` (C63, C64),
`Fwmark_Props` (C49) are about whole executions of `lb` and `flowlb`: packet bytes
to verdict, with commands, other processes and interleavings.

Not modelled: the kernel side of sockets, netlink and mmap (their answers are parameters of `Client`, `Mem`, `Setup` and `Shm`),
the code of `getopt_long_only` (`Opt` models what it is documented to do), output formats except where a property
is about them, thread creation, tests.

## Proof methods

* Loops over arrays: invariants by induction on the number of rounds; termination
  as fuel that suffices (C06, C16, C62).
* Histories of operations: refinement to an abstract state (map with time-to-live,
  finite set, current definitions), induction over the history.
* Bytes: packets as lists, symbolic evaluation of the parser on packets given by an
  independent format.
* Threads: a thread is a program whose steps yield the next program; a predicate on
  programs ("whatever state satisfying the invariant the step runs in, it preserves
  the invariant and the rest satisfies the predicate", `wf`, `vok`, `fok`, `tok`,
  `stays`) is proved of the code once and gives the theorem for all interleavings.

## Findings

What the refutations show of the code, by property:

* C01 the header's remark on large n is wrong (994009 = 997^2).
* C05, C06, C07 tables with M > 65536: incomplete preference lists (32-bit product),
  populate runs off the list; sizes beyond 2^32 wrap.
* C12, C17, C18, C59 IPv6: extension headers are skipped wrongly, first fragments get
  a key of the fragment header's bytes, ICMPv6 time exceeded and parameter problem
  do not follow the flow.
* C15, C16 short packets: reads outside the packet, an endless loop.
* C20, C22 conntrack: an entry that never expires leaks at destroy; an operation with
  an older clock reading expires entries (clocks of threads are read before locking).
* C23 timeouts above 4294 ms wrap.
* C25 use after release between `ctInsert` and the increment of the counter.
* C26 pools: the size wraps; destroying an empty pool frees an uninitialised pointer.
* C27, C28 reassembly: holes are lost, a datagram is complete too early; NULL or
  uninitialised descriptors for fragments from the middle; IPv6 fragments behind other
  extension headers are misread.
* C31, C32 range sets: a second update links a tree with cycles; printing to short
  buffers writes outside.
* C34, C37, C61 flows: prefix lengths wrap, priorities overflow in the comparison,
  long CIDR texts overflow the stack.
* C38-C40 matches: `offset+length` wraps and reads out of bounds; IPv6.
* C41 other ICMP messages than echo requests are taken as ping.
* C42, C43, C44 flowlb: a flow that gets another target keeps a released object;
  race between the search and the release of a target; refused requests leave
  objects or companions; tracing reads a released object; UDP packets to port 0
  keep references.
* C45 unknown fields are ignored, long names and large udpencap misread.
* C49 IPv4 addresses in brackets give a wrong mark or undefined behaviour.
* C50 nfqlb registers more commands than fit: one is lost.
* C51, C52 ipu: overflows of int for some prefix lengths.
* C54 unknown trace names are ignored.
* C65 the listing does not escape names, shows negative priorities as large ones, an
  empty list of protocols as one that is refused, and cuts long port lists (a port
  loses digits) and more than 32 byte matches (the last may be cut in the middle).
* C66 trace flows: a name is used after `trace-delete` freed it, `trace-set` without a name
  brings flowlb down, accepted `trace-set` is not answered, replaced names leak, the
  line for ICMP reads beyond short packets.
* C67 xlb reads `active[-1]` while a table is changed or after a killed activate.
* C69 `--queue` values that are no number or range are not refused (queue 0 is served for "two").
* C70 a newline in a value of `flow-set` adds a field; a long name is sent but not read.
* C71 init for a table of 2 GiB or more writes all and then reports a failure (`int` result
  compared with a `size_t`); a failed init leaves a damaged table; init while packet
  handlers run makes them read outside of the file or take other data for fwmarks.
* C73 the output of `stats` is no JSON (a comma is missing after `fragsDiscarded`);
  `ttlMillis` is wrong above 4294.
* C74 the size of a running table is in the shared statistics: a second load-balancer with
  the same `--ft_shm` and another `--ft_size`, or one that only fails to start
  (`lb --mtu=100`), kills it (division by zero, access behind the table) or makes it lose
  entries.
* C75 values are not checked: with `--ft_size=0` (or no number) the first fragment is a
  division by zero; numbers wrap; a tun name of 40 characters overflows.
* C76 `activate foo` activates fwmark 0; fwmarks from 2^31 on are accepted and nothing
  happens; `activate --index=1` without fwmark ends well.
* C77 SIGPIPE is ignored only while a trace client is waited for: a trace client that
  leaves before it is accepted, or a flow client that leaves before its reply, kills the
  process.  The descriptor of a trace session is closed twice: a connection or shared
  memory opened in between is closed under its owner (a reply is lost; flowlb exits when
  the load-balancer is released).  The end of a session clears the mask that the next
  client has set.  A trace client that does not read stops every thread that traces.
* C78 `trace-flow-set` ends with status -1 and prints nothing though the trace flow is
  set (the server does not answer).  A refused `--match` item of 35 characters or more
  can make an answer of 64 characters or more, and the client then prints what lies
  behind its buffer; so does an answer that arrives in pieces.  The listing commands
  end with 0 though they could not write.
* C79 A flow set after its table was deleted and made anew does not get the new
  table while another flow (or the same one, set before) has a target written the
  same: flowlb finds the object by that text and the object keeps the deleted
  memory. To set all flows again does not help; `--target=/name` does, or to delete
  all of them first.
* C80 The reassembler crashes the load-balancer (or reads uninitialised memory) when
  the first datagram it watches comes with a gap: bytes 0-7, then 16-23. Later
  gaps make it end the session too early, with fragments still to come, which are
  then stored for a first fragment that has passed already and are dropped. Without
  gaps on both sides of a fragment all is as it should be.
* C81 On a host without the log configuration two load-balancers (or a load-balancer and
  a command) that start at the same time both make it: the second truncates it while
  the first uses it, which dies by SIGBUS, or a level just set is reset to 5. A `trace`
  that finds no server ends with 1 but leaves the mask set; `loglevel debug` sets level 0.
* C82 two load-balancers with the default `--trace_address` cannot run on one host: the second one
  dies after it has started to serve; names of unix sockets are copied without check.
* C83 `ipu contains` with a length that is 0, empty or no number ends with 0 whatever the word is, also if
  neither text is an address.
* C84 a load-balancer started with a queue that is in use ends with all its queues; so does one with a range of
  more than 65536 queues; the buffer asked for a long queue may be 0 bytes (`queue_length * mtu` wraps).
* C85: `out = fdopen(dup(cd), "w")` keeps the duplicated descriptor open when `fdopen` fails (three places in `flowThread`), so that each such request costs the server a descriptor for good; everything else of flows and requests is freed exactly once.
* C86 names of tun devices from 16 characters on: `tun_alloc` uses another device (the first 15 characters), and from 40 on `get_mtu` overflows its `struct ifreq` (`strcpy`); `get_mtu` does not close its socket when the ioctl fails (harmless: the process ends).
* C87 `fragTableDestroy` converts the largest `time_t` to nanoseconds, a signed overflow in
  every call (and `tv_nsec` is not set).  With `maxFragments` 0, which fragutils.h
  suggests, or `maxBuckets` 0 it frees an uninitialised pointer.
* C88 UDP to the port of a flow with `--udpencap` that is too short for SCTP is dropped, and neither the trace of a
  trace flow nor a log says so (only the trace `sctp` does).  `protostr` writes unknown protocols to one static buffer,
  so that with several queues a packet may be traced with the protocol of another one.
* C89 load-balancers that have activated the same marks of the LB tier in another order (without index) pass a
  fragment to each other for ever.
* C91 a trace client that stays connected and does not read stops packets that trace nothing: the flow thread writes
  "Creating LB" to it while it holds `lblistLock` (cmdFlowLb.c:438), which `loadbalancerRelease` of a packet waits for.
* C92 `ctLookup` returns `b->data` read after it has given back the mutex: if the entry is removed meanwhile (the
  datagram is complete in another thread) the look-up returns nothing and the object is lost for ever, or the object
  of another datagram that took the bucket: its value is used, and its reference given back, so that the table is left
  with an object that is free.  All theorems on interleavings of `Frag` are about executions without this;
  for those with it, `C92_never_invented_partial` says that values used were accepted for some datagram, and
  `C92_calls_partial` that calls which do not overlap never meet it.
* C55-C57 repeated commands after a kill, order of activation, and moved traffic.
* C60 port lists above 1024 characters are cut.
* C64 a "set" of an existing flow without target, without name, or with priorities
  far apart, brings flowlb down.

Seen while reading, not part of a theorem: `fragTableDestroy` computes
`tv_sec = MAXTIME * 1e9` (overflow) and leaves `tv_nsec` uninitialised; the payload
attribute of a queued packet is used unchecked (modelled as `Undefined`).
